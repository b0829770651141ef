(** Concrete messages used by the examples in Grib2Properties.v. *)
From Coq Require Import ZArith List Bool Lia.
From Verif Require Import Base F32 Grib2Model Grib2Spec.
Import ListNotations.
Open Scope Z_scope.

(** A 3 x 2 regular grid with a bitmap 101100.. and three 16-bit values. *)
Definition sample : wire :=
  {| w_0 := {| w0_reserved := [255; 255]; w0_discipline := 0; w0_edition := 2; w0_total := 190 |};
     w_1 := {| w1_length := 21; w1_center := 78; w1_subcenter := 255; w1_master := 19;
               w1_local := 1; w1_significance := 1;
               w1_time := {| dt_year := 2024; dt_month := 2; dt_day := 29; dt_hour := 21;
                             dt_minute := 0; dt_second := 0 |};
               w1_status := 0; w1_type := 1; w1_rest := [] |};
     w_2 := {| w2_length := 8; w2_rest := [254; 1; 2] |};
     w_3 := {| w3_length := 72; w3_source := 0; w3_points := 6; w3_opt_length := 0;
               w3_opt_interp := 0;
               w3_tpl := W3_0 {| w30_shape := 6;
                 w30_radius := {| sf_factor := 255; sf_value := 4294967295 |};
                 w30_major := {| sf_factor := 255; sf_value := 4294967295 |};
                 w30_minor := {| sf_factor := 255; sf_value := 4294967295 |};
                 w30_ni := 3; w30_nj := 2; w30_basic := 0; w30_subdiv := 4294967295;
                 w30_lat1 := 43180000; w30_lon1 := 356060000; w30_res := 48;
                 w30_lat2 := 58080000; w30_lon2 := 20340000; w30_di := 20000; w30_dj := 20000;
                 w30_scan := 64 |} |};
     w_4 := {| w4_length := 38;
               w4_tpl := W4_0 0 0 (repeat 7 23); w4_coords := [1065353216] |};
     w_5 := {| w5_length := 21; w5_points := 3; w5_tpl := W5_0 1133903872 32773 0 16 0 |};
     w_6 := {| w6_length := 7; w6_indicator := 0; w6_bitmap := [176] |};
     w_7 := {| w7_length := 11; w7_data := [0; 1; 65535] |} |}.

(** The same with an unstructured grid, template 4.8 and no bitmap. *)
Definition sample2 : wire :=
  {| w_0 := w_0 sample; w_1 := w_1 sample; w_2 := w_2 sample;
     w_3 := {| w3_length := 35; w3_source := 0; w3_points := 2; w3_opt_length := 0;
               w3_opt_interp := 0;
               w3_tpl := W3_101 {| w3101_shape := 6; w3101_grid := 27; w3101_ref := 1;
                                   w3101_uuid := 340282366920938463463374607431768211455 |} |};
     w_4 := {| w4_length := 58; w4_tpl := W4_8 1 52 (repeat 0 30) 1 (repeat 0 16); w4_coords := [] |};
     w_5 := w_5 sample; w_6 := {| w6_length := 6; w6_indicator := 255; w6_bitmap := [] |};
     w_7 := {| w7_length := 9; w7_data := [3; 4] |} |}.

Ltac wf_tac n :=
  unfold wf_message, wf0, wf1, wf2, wf3, wf4, wf5, wf6, wf7;
  repeat match goal with |- _ /\ _ => split end;
  repeat match goal with
  | |- fields_ok _ => unfold fields_ok; vm_compute; repeat constructor; cbn; unfold is_byte; lia || discriminate || reflexivity
  | |- payload _ _ _ _ => left; cbn; lia
  | |- real_date_time _ => unfold real_date_time, month_has_day, is_leap; cbn; lia
  | |- exists _, _ => exists n; split; [left; cbn; lia|reflexivity]
  end; try (cbn; lia); try (cbn; reflexivity); try (cbn; exact I).

Lemma sample_wf chk : wf_message chk sample.
Proof. wf_tac 6. Qed.
Lemma sample2_wf chk : wf_message chk sample2.
Proof. wf_tac 4. Qed.
