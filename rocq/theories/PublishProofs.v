(** Proofs of C71. *)
From Coq Require Import String ZArith Reals List Bool Lia Lra.
From Flocq Require Import Core.Core.
From Verif Require Import Base F32 F32Facts Grib2Model Grib2Spec Grib2Proofs Grib2DocProofs Grib2FloatProofs GeoModel GeoSpec GeoProofs GeoValueProofs GeoRegridProofs ImagingModel ImagingSpec Par
  TileModel TileSpec TileProofs MercatorProofs ChartModel ChartSpec ChartProofs MetobinModel MetobinSpec MetobinProofs ForecastModel ForecastSpec ForecastProofs
  FetchModel FetchSpec FetchProofs DwdModel DwdSpec DwdProofs MapSpec MapProofs FieldSpec FieldProofs PublishSpec.
Import ListNotations.
Open Scope Z_scope.

(** ** Grids of messages *)

Lemma unpack_valid r e2 d10 x : f32_valid r -> f32_valid e2 -> f32_valid d10 -> f32_valid (unpack r e2 d10 x).
Proof. intros. unfold unpack. repeat first [apply fdiv_valid|apply fadd_valid|apply fmul_valid|assumption|apply f32_of_Z_valid]. Qed.
Lemma wf_reference chk w r e d b f : wf_message chk w -> w5_tpl (w_5 w) = W5_0 r e d b f -> 0 <= r < 2 ^ 32.
Proof.
  intros (_ & _ & _ & _ & _ & (H & _) & _) E. unfold layout5 in H. rewrite E in H. unfold fields_ok, layout5_tpl in H. cbn [app] in H.
  repeat match goal with X : Forall _ (_ :: _) |- _ => let A := fresh "A" in let B := fresh "B" in apply Forall_cons_iff in X; destruct X as [A B] end.
  unfold field_ok in *. change (256 ^ Z.of_nat 4) with (2 ^ 32) in *. assumption.
Qed.

(** A message of regular points with simple packing. *)
Definition understood (chk : bool) (ms : message) : Prop :=
  wf_message chk (ms_wire ms) /\ w3_tpl (w_3 (ms_wire ms)) = W3_0 (ms_points ms) /\
  exists b f, w5_tpl (w_5 (ms_wire ms)) = W5_0 (ms_reference ms) (ms_binary ms) (ms_decimal ms) b f.
Definition read_as {T} (powi : f32 -> Z -> f32) (ms : message) (missing : T) (transform : f32 -> T) (g : value_grid T) : Prop :=
  regular_create_and_transform powi (message_meaning (ms_wire ms)) missing transform = Ok g.

Section Messages.
  Context (chk : bool) (powi : f32 -> Z -> f32).

  Lemma from_served {T} fetch run file ms (missing : T) transform g : steady fetch -> valid_run run -> dwd_file_ok file ->
    grid_from chk powi fetch run file missing transform g -> served chk fetch run file ms -> understood chk ms /\ read_as powi ms missing transform g.
  Proof.
    intros St VR Ok' (url & bs & d & rest & Eu & Fb & R & G) (url' & bs' & b & f & rest' & Lu & Fb' & W & Eb & E3 & E5).
    apply (c49_layout_proof run file url' VR Ok') in Lu. rewrite Eu in Lu. injection Lu as <-. rewrite (St url bs bs' Fb Fb'), Eb in R.
    rewrite (read_single_doc_bwd chk (ms_wire ms) rest' W) in R. injection R as <- _. split; [|exact G]. split; [exact W|]. split; [exact E3|eauto].
  Qed.
  Lemma to_served {T} (fetch : fetcher) run file (missing : T) transform g : (forall url bs, fetch url (Ok bs) -> Forall is_byte bs) -> valid_run run -> dwd_file_ok file ->
    grid_from chk powi fetch run file missing transform g -> exists ms, served chk fetch run file ms.
  Proof.
    intros B VR Ok' (url & bs & d & rest & Eu & Fb & R & G).
    destruct (c69_cells_proof T chk powi bs missing transform g (B url bs Fb)) as (w & t & r & e & dd & b & f & rest' & W & Eb & E3 & E5 & S); [exists d, rest; auto|].
    exists {| ms_wire := w; ms_points := t; ms_reference := r; ms_binary := e; ms_decimal := dd |}, url, bs, b, f, rest'. apply (c49_layout_proof run file url VR Ok') in Eu. auto 10.
  Qed.

  Lemma raw_valid ms i j v : (forall b n, f32_valid b -> f32_valid (powi b n)) -> understood chk ms -> raw powi ms i j (Some v) -> f32_valid v.
  Proof.
    intros Pv (W & _ & b & f & E5) [[_ ?]|(_ & _ & P)]; [discriminate|]. unfold point_value in P. destruct (_ && _); [|discriminate]. destruct P as (packed & _ & P).
    apply (f_equal (fun o => match o with Some x => x | None => v end)) in P. cbv beta iota in P. rewrite P.
    apply unpack_valid; [apply f32_of_bits_valid; eapply wf_reference; eassumption|apply Pv, f32_of_Z_valid|apply Pv, f32_of_Z_valid].
  Qed.
  Lemma sizes ms : understood chk ms -> 0 <= columns ms /\ 0 <= rows ms.
  Proof. intros (W & E3 & _). destruct (wf_angles _ _ _ W E3) as (A & B & _). unfold columns, rows. lia. Qed.

  Section Grid.
    Context {T : Type} (ms : message) (missing : T) (transform : f32 -> T) (g : value_grid T) (U : understood chk ms) (R : read_as powi ms missing transform g).
    Lemma read_shows : shows powi (ms_wire ms) (ms_points ms) (ms_reference ms) (ms_binary ms) (ms_decimal ms) missing transform g.
    Proof. destruct U as (W & E3 & b & f & E5). eapply shown; eassumption. Qed.
    Lemma read_form : exists vs, g = value_grid_new vs missing (columns ms) (rows ms)
      {| min_coord := lat_lon_new (angle (w30_lat1 (ms_points ms))) (angle (w30_lon1 (ms_points ms)));
         max_coord := lat_lon_new (angle (w30_lat2 (ms_points ms))) (angle (w30_lon2 (ms_points ms))) |}.
    Proof.
      destruct U as (W & E3 & _). unfold read_as, regular_create_and_transform in R. destruct (calculate_data_points powi _ missing transform) as [vs|?|]; try discriminate R.
      cbn [obind] in R. rewrite (regular_extent chk _ _ W E3) in R. unfold extent_new in R.
      destruct (fgt _ _ || fgt _ _); cbn [omap] in R; [discriminate R|]. injection R as <-. exists vs. reflexivity.
    Qed.
    Lemma read_dims : dims g = (columns ms, rows ms). Proof. exact (proj1 read_shows). Qed.
    Lemma read_missing : vg_missing g = missing. Proof. exact (proj1 (proj2 read_shows)). Qed.
    Lemma read_complete : gridded ms -> complete g.
    Proof. intro G. destruct read_shows as (D & _ & _ & _ & _ & _ & L & _). destruct (sizes ms U). unfold complete. rewrite D, L, G. cbn [fst snd]. rewrite Z2Nat.id by (apply Z.mul_nonneg_nonneg; assumption). apply Z.le_refl. Qed.
    Lemma read_length : gridded ms -> length (vg_values g) = Z.to_nat (columns ms * rows ms).
    Proof. intro G. destruct read_shows as (_ & _ & _ & _ & _ & _ & L & _). rewrite L, G. reflexivity. Qed.
    (** The cell of the grid and the point of the message. *)
    Lemma read_cell i j (v : T) : 0 <= i < columns ms -> 0 <= j < rows ms -> nth_error (vg_values g) (Z.to_nat (j * columns ms + i)) = Some v ->
      exists o, raw powi ms i j o /\ v = match o with Some u => transform u | None => missing end.
    Proof.
      destruct read_shows as (_ & _ & _ & _ & _ & _ & _ & S). intros I J N. specialize (S i j v I (proj1 J) N). unfold raw, point_value in *.
      destruct (has_value _ _ && _) eqn:E.
      - destruct S as (packed & Np & ->). eexists. split; [right; split; [exact I|]; split; [exact J|]; exists packed; split; [exact Np|reflexivity]|reflexivity].
      - exists None. split; [right; auto|exact S].
    Qed.
  End Grid.

  Section Floats.
    Context (Pv : forall b n, f32_valid b -> f32_valid (powi b n)) (ms : message) (g : fgrid) (U : understood chk ms) (R : read_as powi ms (f32_of_Z (-1)) (fun x => x) g).
    Lemma cell_told i j o : 0 <= i -> 0 <= j -> cell_value g i j o -> told powi ms i j o.
    Proof.
      intros I J C. unfold cell_value in C. rewrite (read_dims ms _ _ g U R), (read_missing ms _ _ g U R) in C. destruct C as [[A ->]|[[A ->]|(A & B & v & N & C)]].
      - exists None. split; [left; auto|reflexivity].
      - exists None. split; [left; auto|reflexivity].
      - destruct (read_cell ms _ _ g U R i j v A B N) as (o' & Ro & Ev). exists o'. split; [exact Ro|].
        destruct o' as [u|]; subst v.
        + destruct C as [[C ->]|[C ->]]; rewrite C; reflexivity.
        + destruct C as [[_ ->]|[C _]]; [reflexivity|]. exfalso. vm_compute in C. discriminate C.
    Qed.
    Lemma values_valid : gridded ms -> Forall f32_valid (vg_values g).
    Proof.
      intro G. apply Forall_forall. intros v J. apply In_nth_error in J. destruct J as (k & N). destruct (sizes ms U) as [C W].
      assert (K : (k < length (vg_values g))%nat) by (apply nth_error_Some; congruence). rewrite (read_length ms _ _ g U R G) in K.
      assert (Cp : 0 < columns ms) by nia.
      assert (M : 0 <= Z.of_nat k mod columns ms < columns ms) by (apply Z.mod_pos_bound; exact Cp).
      pose proof (Z.div_mod (Z.of_nat k) (columns ms) ltac:(lia)) as DM.
      assert (D : 0 <= Z.of_nat k / columns ms < rows ms). { split; [apply Z.div_pos; lia|]. apply Z.div_lt_upper_bound; [exact Cp|]. lia. }
      destruct (read_cell ms _ _ g U R (Z.of_nat k mod columns ms) (Z.of_nat k / columns ms) v M D) as (o & Ro & ->).
      { replace (Z.to_nat _) with k; [exact N|]. rewrite (Z.mul_comm _ (columns ms)), <- DM, Nat2Z.id. reflexivity. }
      destruct o as [u|]; [eapply raw_valid; eassumption|apply f32_of_Z_valid].
    Qed.
    Section Mapped.
      Context (Ma : mapped ms).
      Lemma mapped_gridded : gridded ms. Proof. exact (proj1 Ma). Qed.
      Lemma mapped_corners : corners ms (extent_of g).
      Proof. destruct (read_shows ms _ _ g U R) as (_ & _ & A & B & C & D & _). split; [exact A|]. split; [exact B|]. split; [exact C|exact D]. Qed.
      Lemma mapped_extent :
        (Rabs (xr (lat (min_coord (extent_of g))) - IZR (micro (w30_lat1 (ms_points ms))) / 1000000) <= / 11000 /\
         Rabs (xr (lon (min_coord (extent_of g))) - IZR (micro (w30_lon1 (ms_points ms))) / 1000000) <= / 11000 /\
         Rabs (xr (lat (max_coord (extent_of g))) - IZR (micro (w30_lat2 (ms_points ms))) / 1000000) <= / 11000 /\
         Rabs (xr (lon (max_coord (extent_of g))) - IZR (micro (w30_lon2 (ms_points ms))) / 1000000) <= / 11000)%R.
      Proof.
        destruct Ma as (_ & _ & _ & A1 & A2 & A3 & A4 & _). destruct (read_form ms _ _ g U R) as (vs & ->).
        unfold extent_of. cbn [vg_grid value_grid_new grid_new g_extent min_coord max_coord lat_lon_new lat lon]. repeat split; apply normalized_error; assumption.
      Qed.
      Lemma mapped_on_map : on_map (extent_of g).
      Proof.
        destruct Ma as (_ & _ & _ & _ & _ & _ & _ & La & Lo & L1 & L2). destruct mapped_extent as (E1 & E2 & E3 & E4). destruct mapped_corners as ((F1 & _) & (F2 & B2 & _) & (F3 & _) & (F4 & B4 & _)).
        apply Rabs_le_inv in E1, E2, E3, E4. apply IZR_le in La, Lo, L1, L2. rewrite plus_IZR in La, Lo. unfold on_map, fin_extent, fin_coord.
        split; [split; split; assumption|]. lra.
      Qed.
      Lemma mapped_regular : regular g.
      Proof.
        destruct Ma as (_ & Cb & Rb & _ & _ & _ & _ & La & Lo & L1 & L2). pose proof mapped_on_map as (Fe & B1 & B2 & B3 & B4). pose proof mapped_extent as (E1 & E2 & E3 & E4).
        pose proof (values_valid mapped_gridded) as V. pose proof (read_length ms _ _ g U R mapped_gridded) as L.
        destruct (read_form ms _ _ g U R) as (vs & Eg). exists vs, (f32_of_Z (-1)), (columns ms), (rows ms), (extent_of g).
        apply Rabs_le_inv in E1, E2, E3, E4. apply IZR_le in La, Lo, L1, L2. rewrite plus_IZR in La, Lo.
        split; [rewrite Eg at 1; f_equal; rewrite Eg; reflexivity|]. split; [|subst g; split; assumption].
        assert (Q1 : (bpow radix2 (-100) <= / 10000)%R). { apply Rle_trans with (bpow radix2 (-14)); [apply bpow_le; lia|]. cbn. lra. }
        assert (Q2 : (1000 <= bpow radix2 100)%R). { apply Rle_trans with (bpow radix2 10); [cbn; lra|apply bpow_le; lia]. }
        destruct Fe as [[? ?] [? ?]]. split; (split; [assumption|]; split; [assumption|]; split; [assumption|lra]).
      Qed.
      Lemma mapped_covers m run zoom x y : libm_accurate m -> tile_with ms run zoom x y -> covers chk m (extent_of g) zoom x y.
      Proof.
        intros A ((Z & X & Y) & p & Fp & [P1 P2] & Wp). pose proof (last_zoom_le (run_model run)).
        apply (c64_coverage_proof chk m _ zoom x y p A ltac:(lia) X ltac:(lia) mapped_on_map Fp); [|exact Wp]. destruct mapped_extent as (E1 & E2 & E3 & E4).
        apply Rabs_le_inv in E1, E2, E3, E4. split; lra.
      Qed.
      Lemma near_told p o : value_near g p o -> told_near powi ms p o.
      Proof.
        intro N. exists (extent_of g). split; [exact mapped_corners|]. unfold value_near in N. rewrite (read_dims ms _ _ g U R) in N. cbn [fst snd] in N.
        destruct N as [N|(I & i & j & Ci & Cj & C)]; [left; exact N|right]. split; [exact I|]. exists i, j. split; [exact Ci|]. split; [exact Cj|]. apply cell_told; [apply Ci|apply Cj|exact C].
      Qed.
      Lemma between_told p o : value_between g p o -> told_between powi ms p o.
      Proof.
        intro N. exists (extent_of g). split; [exact mapped_corners|]. unfold value_between in N. rewrite (read_dims ms _ _ g U R) in N. cbn [fst snd] in N.
        destruct N as [N|(I & i & j & fx & fy & Ii & Jj & Fx & Fy & Dx & Dy & C)]; [left; exact N|right]. split; [exact I|]. exists i, j, fx, fy. do 6 (split; [assumption|]).
        destruct C as [[F C]|(F1 & F2 & sw & se & nw & ne & C1 & C2 & C3 & C4 & B)]; [left; split; [exact F|apply cell_told; assumption]|right].
        split; [exact F1|]. split; [exact F2|]. exists sw, se, nw, ne. repeat split; try (apply cell_told; assumption || lia). exact B.
      Qed.
    End Mapped.
  End Floats.

  (** Grids of bytes. *)
  Lemma cell_stored ms (missing : Z) transform g i j o : understood chk ms -> read_as powi ms missing transform g -> 0 <= i -> 0 <= j ->
    (let (w, h) := dims g in
     (w <= i /\ o = None) \/ (h <= j /\ o = None) \/
     (0 <= i < w /\ 0 <= j < h /\ exists v, nth_error (vg_values g) (Z.to_nat (j * w + i)) = Some v /\ ((v = vg_missing g /\ o = None) \/ (v <> vg_missing g /\ o = Some v)))) ->
    exists o', raw powi ms i j o' /\ o = stored missing transform o'.
  Proof.
    intros U R I J C. rewrite (read_dims ms _ _ g U R), (read_missing ms _ _ g U R) in C. destruct C as [[A ->]|[[A ->]|(A & B & v & N & C)]].
    - exists None. split; [left; auto|reflexivity].
    - exists None. split; [left; auto|reflexivity].
    - destruct (read_cell ms _ _ g U R i j v A B N) as (o' & Ro & Ev). exists o'. split; [exact Ro|].
      destruct o' as [u|]; cbn [stored]; subst v.
      + destruct C as [[C ->]|[C ->]]; [rewrite C, Z.eqb_refl; reflexivity|]. apply Z.eqb_neq in C. rewrite C. reflexivity.
      + destruct C as [[_ ->]|[C _]]; [reflexivity|congruence].
  Qed.
End Messages.

(** ** Files *)

Lemma holds_at run n f tr c : valid_run run -> 0 <= n -> proper f -> (forall before, file_after (file_path run n f) before tr = Some c) -> holds run n f tr c.
Proof. intros V N P H. exists (file_path run n f). split; [apply c47_layout_proof; auto|exact H]. Qed.

Section Published.
  Context (chk : bool) (powi : f32 -> Z -> f32) (fetch : fetcher) (m : libm) (head : heads) (today today' : date) (model : fc_model)
    (vars : list string) (steps : list Z) (run : fc_run) (tr : list effect) (n : Z).
  Context (S : succeeded chk powi fetch m head today today' model vars steps run tr) (Wn : wanted_nr run steps n).

  Lemma s_run : valid_run run. Proof. destruct S as (M & V & V' & _ & _ & F & _). exact (proj1 (found_run _ _ _ _ _ M V V' F)). Qed.
  Lemma s_steady : steady fetch. Proof. destruct S as (_ & _ & _ & St & _). exact St. Qed.
  Lemma s_powi : forall b k, f32_valid b -> f32_valid (powi b k). Proof. destruct S as (_ & _ & _ & _ & P & _). exact P. Qed.
  Lemma s_nr : 2 <= n. Proof. destruct Wn as [? _]. lia. Qed.
  Definition output := let '(conj M (conj V (conj V' (conj St (conj _ (conj _ R)))))) := S in c59_proof chk powi fetch m head today today' model vars steps tr M V V' St R.
  Lemma float_served v k ms g : 0 <= k -> float_grid chk powi fetch run v k g -> served chk fetch run (SingleFile v k) ms -> understood chk ms /\ read_as powi ms (f32_of_Z (-1)) (fun x => x) g.
  Proof. intros K G. apply from_served; [exact s_steady|exact s_run|exact K|exact G]. Qed.
  Lemma tile_proper t zoom x y : tile_number run zoom x y -> t = CloudPrecip \/ t = Wind10m \/ t = Temp2m -> proper (TileFile t zoom x y).
  Proof. intros (A & B & C) T. cbn. lia || (split; [exact T|lia]). Qed.

  Lemma tile_holds t zoom x y img k : t = CloudPrecip \/ t = Wind10m \/ t = Temp2m -> tile_number run zoom x y -> 0 <= k ->
    (forall before, file_after (file_path run k (TileFile t zoom x y)) before tr = Some (Png img)) -> holds run k (TileFile t zoom x y) tr (Png img).
  Proof. intros T N K F. apply holds_at; [exact s_run|exact K|apply tile_proper; assumption|exact F]. Qed.
  Lemma bin_holds b data k : 0 <= k -> (forall before, file_after (file_path run k (BinFile b)) before tr = Some (Data data)) -> holds run k (BinFile b) tr (Data data).
  Proof. intros K F. apply holds_at; [exact s_run|exact K|exact I|exact F]. Qed.
  Lemma run_found run' : find_latest_run head model today today' = Ok run' -> run' = run.
  Proof. destruct S as (_ & _ & _ & _ & _ & F & _). congruence. Qed.

  Lemma c71_temperature_proof ms : libm_ok m -> libm_accurate m -> named vars Temp2m -> served chk fetch run (SingleFile T2m n) ms -> mapped ms ->
    (forall zoom x y, tile_with ms run zoom x y -> exists img, holds run n (TileFile Temp2m zoom x y) tr (Png img) /\
       painted zoom x y img (fun p c => exists o, told_near powi ms p o /\ temperature_colour o c)) /\
    exists data, holds run n (BinFile BinTemp) tr (Data data) /\
      laid_out 1 (columns ms) (rows ms) data (fun x y rec => exists o b, told powi ms x y o /\ rec = [b] /\ temperature_code o b).
  Proof.
    intros Om Am Nm Sv Ma. pose proof s_nr as N2. destruct output as (run' & F & T & _). apply run_found in F. subst run'.
    destruct (T Nm n Wn) as (g & G & RD). destruct (float_served T2m n ms g ltac:(lia) G Sv) as [U R].
    pose proof (mapped_regular chk powi s_powi ms g U R Ma) as Rg. split.
    - intros zoom x y TW. pose proof (mapped_covers chk powi s_powi ms g U R Ma m run zoom x y Am TW) as C.
      destruct (temperature_tiles chk m Om Am run n tr g zoom x y RD (proj1 TW) Rg C) as (img & Fi & W & H & P).
      exists img. split; [apply tile_holds; [auto|exact (proj1 TW)|lia|exact Fi]|]. split; [exact W|]. split; [exact H|].
      intros j i I. destruct (P j i I) as (p & o & c & D & V & Px & Cl). exists p, c. split; [exact D|]. split; [exact Px|]. exists o. split; [|exact Cl].
      eapply near_told; (eassumption || exact s_powi).
    - destruct (temperature_file chk m run n tr g RD Rg) as (data & Fd & L). exists data. split; [apply bin_holds; [lia|exact Fd]|].
      rewrite (read_dims chk powi ms _ _ g U R) in L. revert L. apply laid_out_impl. intros x y rec X Y (o & b & C & Er & Cb). exists o, b. split; [|auto].
      eapply cell_told; (eassumption || exact s_powi || lia).
  Qed.

  Lemma c71_wind_proof east north gusts : libm_ok m -> libm_accurate m -> named vars Wind10m ->
    served chk fetch run (SingleFile U10m n) east -> served chk fetch run (SingleFile V10m n) north -> served chk fetch run (SingleFile Vmax10m n) gusts ->
    mapped east -> mapped north -> mapped gusts ->
    (forall zoom x y, tile_with east run zoom x y -> exists img, holds run n (TileFile Wind10m zoom x y) tr (Png img) /\
       painted zoom x y img (fun p c => exists u v, told_near powi east p u /\ told_near powi north p v /\ wind_colour u v c)) /\
    exists data, holds run n (BinFile BinWind) tr (Data data) /\
      laid_out 3 (columns east) (rows east) data (fun x y rec => exists u v gust, told powi east x y u /\ told powi north x y v /\ told powi gusts x y gust /\ wind_code u v gust rec).
  Proof.
    intros Om Am Nm Su Sv Sg Mu Mv Mg. pose proof s_nr as N2. destruct output as (run' & F & _ & T & _). apply run_found in F. subst run'.
    destruct (T Nm n Wn) as (gu & gv & gg & Gu & Gv & Gg & RD).
    destruct (float_served U10m n east gu ltac:(lia) Gu Su) as [U1 R1]. destruct (float_served V10m n north gv ltac:(lia) Gv Sv) as [U2 R2]. destruct (float_served Vmax10m n gusts gg ltac:(lia) Gg Sg) as [U3 R3].
    pose proof (mapped_regular chk powi s_powi east gu U1 R1 Mu) as Q1. pose proof (mapped_regular chk powi s_powi north gv U2 R2 Mv) as Q2. pose proof (mapped_regular chk powi s_powi gusts gg U3 R3 Mg) as Q3. split.
    - intros zoom x y TW. pose proof (mapped_covers chk powi s_powi east gu U1 R1 Mu m run zoom x y Am TW) as C.
      destruct (wind_tiles chk m Om Am run n tr _ zoom x y RD (proj1 TW) Q1 Q2 C) as (img & Fi & W & H & P).
      exists img. split; [apply tile_holds; [auto|exact (proj1 TW)|lia|exact Fi]|]. split; [exact W|]. split; [exact H|].
      intros j i I. destruct (P j i I) as (p & u & v & c & D & V1 & V2 & Px & Cl). exists p, c. split; [exact D|]. split; [exact Px|]. exists u, v. cbn [wl_zonal wl_meridional] in V1, V2.
      split; [eapply near_told; (eassumption || exact s_powi)|]. split; [eapply near_told; (eassumption || exact s_powi)|exact Cl].
    - destruct (wind_file chk m run n tr _ RD Q1 Q2) as (data & Fd & L); [intros g Eg; injection Eg as <-; exact Q3|]. exists data. split; [apply bin_holds; [lia|exact Fd]|].
      cbn [wl_zonal wl_meridional wl_gusts cell_value_opt] in L.
      rewrite (read_dims chk powi east _ _ gu U1 R1) in L. revert L. apply laid_out_impl. intros x y rec X Y (u & v & gust & C1 & C2 & C3 & Cb). exists u, v, gust.
      split; [eapply cell_told; (eassumption || exact s_powi || lia)|]. split; [eapply cell_told; (eassumption || exact s_powi || lia)|]. split; [eapply cell_told; (eassumption || exact s_powi || lia)|exact Cb].
  Qed.
  Lemma c71_rain_proof cover before now : libm_ok m -> libm_accurate m -> named vars CloudPrecip ->
    served chk fetch run (SingleFile ClctMod n) cover -> served chk fetch run (SingleFile TotPrec (n - 1)) before -> served chk fetch run (SingleFile TotPrec n) now ->
    mapped cover -> mapped before -> mapped now ->
    (forall zoom x y, tile_with cover run zoom x y -> exists img, holds run n (TileFile CloudPrecip zoom x y) tr (Png img) /\
       painted zoom x y img (fun p c => exists o o0 o1, told_between powi cover p o /\ told_between powi before p o0 /\ told_between powi now p o1 /\ rain_colour o o0 o1 c)) /\
    exists data, holds run n (BinFile BinPrecip) tr (Data data) /\
      laid_out 1 (columns cover) (rows cover) data (fun x y rec => exists o0 o1 b, told powi before x y o0 /\ told powi now x y o1 /\ rec = [b] /\ rain_code o0 o1 b).
  Proof.
    intros Om Am Nm Su Sv Sg Mu Mv Mg. pose proof s_nr as N2. destruct output as (run' & F & _ & _ & T & _). apply run_found in F. subst run'.
    destruct (T Nm n Wn) as (gu & gv & gg & ce & ww & Gu & Gv & Gg & _ & _ & RD).
    destruct (float_served ClctMod n cover gu ltac:(lia) Gu Su) as [U1 R1]. destruct (float_served TotPrec (n - 1) before gv ltac:(lia) Gv Sv) as [U2 R2]. destruct (float_served TotPrec n now gg ltac:(lia) Gg Sg) as [U3 R3].
    pose proof (mapped_regular chk powi s_powi cover gu U1 R1 Mu) as Q1. pose proof (mapped_regular chk powi s_powi before gv U2 R2 Mv) as Q2. pose proof (mapped_regular chk powi s_powi now gg U3 R3 Mg) as Q3. split.
    - intros zoom x y TW. pose proof (mapped_covers chk powi s_powi cover gu U1 R1 Mu m run zoom x y Am TW) as C.
      destruct (rain_tiles chk m Om Am run n tr _ _ zoom x y RD (proj1 TW) Q1 Q2 Q3 C) as (img & Fi & W & H & P).
      exists img. split; [apply tile_holds; [auto|exact (proj1 TW)|lia|exact Fi]|]. split; [exact W|]. split; [exact H|].
      intros j i I. destruct (P j i I) as (p & o & o0 & o1 & c & D & V1 & V2 & V3 & Px & Cl). exists p, c. split; [exact D|]. split; [exact Px|]. exists o, o0, o1.
      cbn [cp_cloud cp_precip0 cp_precip1] in V1, V2, V3.
      split; [eapply between_told; (eassumption || exact s_powi)|]. split; [eapply between_told; (eassumption || exact s_powi)|]. split; [eapply between_told; (eassumption || exact s_powi)|exact Cl].
    - destruct (rain_file chk m run n tr _ _ RD Q1 Q2 Q3) as (data & Fd & L). exists data. split; [apply bin_holds; [lia|exact Fd]|].
      cbn [cp_cloud cp_precip0 cp_precip1] in L.
      rewrite (read_dims chk powi cover _ _ gu U1 R1) in L. revert L. apply laid_out_impl. intros x y rec X Y (o0 & o1 & b & C1 & C2 & Er & Cb). exists o0, o1, b.
      split; [eapply cell_told; (eassumption || exact s_powi || lia)|]. split; [eapply cell_told; (eassumption || exact s_powi || lia)|auto].
  Qed.
  Lemma c71_weather_proof ww cover ceiling : named vars CloudPrecip ->
    served chk fetch run (SingleFile Ww n) ww -> served chk fetch run (SingleFile ClctMod n) cover -> served chk fetch run (SingleFile Ceiling n) ceiling ->
    mapped ww -> mapped cover -> mapped ceiling ->
    exists data, holds run n (BinFile BinWeather) tr (Data data) /\
      laid_out 2 (columns cover) (rows cover) data (fun x y rec => exists o1 o2 o3, told powi ww x y o1 /\ told powi cover x y o2 /\ told powi ceiling x y o3 /\ weather_code o1 o2 o3 rec).
  Proof.
    intros Nm Sw Sc Sh Mw Mc Mh. pose proof s_nr as N2. destruct output as (run' & F & _ & _ & T & _). apply run_found in F. subst run'.
    destruct (T Nm n Wn) as (gc & p0 & p1 & gh & gw & Gc & _ & _ & Gh & Gw & RD).
    destruct (float_served Ww n ww gw ltac:(lia) Gw Sw) as [U1 R1]. destruct (float_served ClctMod n cover gc ltac:(lia) Gc Sc) as [U2 R2]. destruct (float_served Ceiling n ceiling gh ltac:(lia) Gh Sh) as [U3 R3].
    pose proof (mapped_regular chk powi s_powi ww gw U1 R1 Mw) as Q1. pose proof (mapped_regular chk powi s_powi cover gc U2 R2 Mc) as Q2. pose proof (mapped_regular chk powi s_powi ceiling gh U3 R3 Mh) as Q3.
    destruct (weather_file chk m run n tr _ _ RD Q2 Q3) as (data & Fd & L); [intros g Eg; injection Eg as <-; exact Q1|]. exists data. split; [apply bin_holds; [lia|exact Fd]|].
    cbn [we_clct we_ceiling we_ww cell_value_opt] in L.
    rewrite (read_dims chk powi cover _ _ gc U2 R2) in L. revert L. apply laid_out_impl. intros x y rec X Y (o1 & o2 & o3 & C1 & C2 & C3 & Cb). exists o1, o2, o3.
    split; [eapply cell_told; (eassumption || exact s_powi || lia)|]. split; [eapply cell_told; (eassumption || exact s_powi || lia)|]. split; [eapply cell_told; (eassumption || exact s_powi || lia)|exact Cb].
  Qed.

  (** Profiles. *)
  Lemma level_grid file missing transform gs level : level_grids chk powi fetch run file missing transform gs -> level_of run level ->
    exists g, nth_error gs (Z.to_nat (level - first_level (run_model run))) = Some g /\ grid_from chk powi fetch run (file level) missing transform g.
  Proof.
    unfold level_grids, level_of. intros H L. assert (N : nth_error (range (first_level (run_model run)) (last_level (run_model run))) (Z.to_nat (level - first_level (run_model run))) = Some level).
    { unfold range. rewrite nth_error_map. rewrite (nth_error_nth' _ 0%nat) by (rewrite seq_length; lia). rewrite seq_nth by lia. cbn [option_map]. f_equal. lia. }
    revert N. generalize (Z.to_nat (level - first_level (run_model run))). induction H as [|a g la lg Q H IH]; intros [|k] N; try discriminate N.
    - injection N as ->. exists g. auto.
    - exact (IH k N).
  Qed.
  Lemma forall2_length {A B} (P : A -> B -> Prop) l l' : Forall2 P l l' -> length l = length l'.
  Proof. induction 1; cbn; congruence. Qed.
  Lemma level_count_length file missing transform gs : level_grids chk powi fetch run file missing transform gs -> Z.of_nat (length gs) = level_count run.
  Proof.
    intro H. apply forall2_length in H. refine (eq_trans (f_equal Z.of_nat (eq_sym H)) _). unfold range, level_count. rewrite map_length, seq_length. apply Z2Nat.id. destruct (run_model run); cbn; lia.
  Qed.
  Lemma levels_positive : 0 < level_count run. Proof. unfold level_count. destruct (run_model run); cbn; lia. Qed.
  Lemma level_all file missing transform gs (mss : Z -> message) (P : value_grid Z -> Prop) : level_grids chk powi fetch run file missing transform gs ->
    (forall level g, level_of run level -> grid_from chk powi fetch run (file level) missing transform g -> P g) -> Forall P gs.
  Proof.
    unfold level_grids, level_of. intros H Q. assert (A : forall level, In level (range (first_level (run_model run)) (last_level (run_model run))) -> first_level (run_model run) <= level <= last_level (run_model run)) by (intros level; apply in_range).
    revert A. induction H as [|a g la lg Qa H IH]; intro A; constructor; [eapply Q; [apply A; left; reflexivity|exact Qa]|]. apply IH. intros level J. apply A. right. exact J.
  Qed.
  Lemma height_stored o : (forall v, o = Some v -> f32_valid v) -> height_code o (file_byte (stored HHL_MISSING hhl_transform o)).
  Proof.
    intro V. destruct o as [v|]; [|reflexivity]. cbn [stored height_code]. intro N. exists (hhl_transform v).
    split; [apply f_to_int_range; lia|]. split; [exact (c57_height_proof v N)|]. unfold HHL_MISSING. destruct (hhl_transform v =? 0); reflexivity.
  Qed.
  Lemma cover_stored o : (forall v, o = Some v -> f32_valid v) -> cover_code o (file_byte (stored CLC_MISSING clc_transform o)).
  Proof.
    intro V. destruct o as [v|]; [|reflexivity]. cbn [stored cover_code]. intro N. rewrite (c57_cover_proof v N). unfold CLC_MISSING. destruct (floor_within (xr v) =? 0); reflexivity.
  Qed.
  Lemma level_told file missing transform gs (mss : Z -> message) level i j o : (forall level, 0 <= level -> dwd_file_ok (file level)) ->
    level_grids chk powi fetch run file missing transform gs -> (forall level, level_of run level -> served chk fetch run (file level) (mss level)) -> level_of run level -> 0 <= i -> 0 <= j ->
    level_cell gs (level - first_level (run_model run)) i j o -> exists o', raw powi (mss level) i j o' /\ o = stored missing transform o' /\ forall v, o' = Some v -> f32_valid v.
  Proof.
    intros Fo G Sv L I J (g & N & C). destruct (level_grid file missing transform gs level G L) as (g' & N' & Gf). pose proof (eq_trans (eq_sym N) N') as Q. injection Q as <-.
    assert (L0 : 0 <= level) by (unfold level_of in L; destruct (run_model run); cbn in L; lia).
    destruct (from_served chk powi fetch run (file level) (mss level) missing transform g s_steady s_run (Fo level L0) Gf (Sv level L)) as [U R].
    destruct (cell_stored chk powi (mss level) missing transform g i j o U R I J C) as (o' & Ro & ->). exists o'. split; [exact Ro|]. split; [reflexivity|].
    intros v ->. exact (raw_valid chk powi (mss level) i j v s_powi U Ro).
  Qed.
  Lemma level_complete file missing transform gs (mss : Z -> message) : (forall level, 0 <= level -> dwd_file_ok (file level)) ->
    level_grids chk powi fetch run file missing transform gs -> (forall level, level_of run level -> served chk fetch run (file level) (mss level) /\ gridded (mss level)) -> Forall complete gs.
  Proof.
    intros Fo G Sv. unfold level_grids in G. apply (level_all file missing transform gs mss complete G). intros level g L Gf. destruct (Sv level L) as [S1 S2].
    assert (L0 : 0 <= level) by (unfold level_of in L; destruct (run_model run); cbn in L; lia).
    destruct (from_served chk powi fetch run (file level) (mss level) missing transform g s_steady s_run (Fo level L0) Gf S1) as [U R]. eapply read_complete; eassumption.
  Qed.
  Lemma level_first file missing transform gs (mss : Z -> message) : (forall level, 0 <= level -> dwd_file_ok (file level)) ->
    level_grids chk powi fetch run file missing transform gs -> (forall level, level_of run level -> served chk fetch run (file level) (mss level)) ->
    exists g, hd_error gs = Some g /\ dims g = (columns (mss (first_level (run_model run))), rows (mss (first_level (run_model run)))) /\
      0 <= columns (mss (first_level (run_model run))) /\ 0 <= rows (mss (first_level (run_model run))).
  Proof.
    intros Fo G Sv. assert (L : level_of run (first_level (run_model run))) by (unfold level_of; destruct (run_model run); cbn; lia).
    destruct (level_grid file missing transform gs _ G L) as (g & N & Gf). rewrite Z.sub_diag in N. exists g. split; [destruct gs; exact N|].
    assert (L0 : 0 <= first_level (run_model run)) by (destruct (run_model run); cbn; lia).
    destruct (from_served chk powi fetch run _ _ missing transform g s_steady s_run (Fo _ L0) Gf (Sv _ L)) as [U R]. split; [eapply read_dims; eassumption|]. eapply sizes; eassumption.
  Qed.

  Lemma c71_vertical_cloud_proof (heights covers : Z -> message) : named vars VerticalCloud ->
    (forall level, level_of run level -> served chk fetch run (HeightFile level) (heights level) /\ gridded (heights level)) ->
    (forall level, level_of run level -> served chk fetch run (LevelFile Clc n level) (covers level) /\ gridded (covers level)) ->
    exists data, holds run n (BinFile BinVerticalClouds) tr (Data data) /\
      let top := covers (first_level (run_model run)) in
      laid_out (2 * level_count run) (columns top) (rows top) data (fun x y rec => forall level, level_of run level -> exists o1 o2 a b,
        raw powi (heights level) x y o1 /\ raw powi (covers level) x y o2 /\ height_code o1 a /\ cover_code o2 b /\
        slice rec (2 * (level - first_level (run_model run))) 2 = [a; b]).
  Proof.
    intros Nm Sh Sc. pose proof s_nr as N2. destruct output as (run' & F & _ & _ & _ & T). apply run_found in F. subst run'.
    destruct (T (or_introl Nm)) as (hhl & Gh & T1 & _). destruct (T1 Nm n Wn) as (clc & Gc & RD).
    assert (F1 : forall level, 0 <= level -> dwd_file_ok (HeightFile level)) by (intros; assumption).
    assert (F2 : forall level, 0 <= level -> dwd_file_ok (LevelFile Clc n level)) by (intros; cbn; lia).
    assert (Sh' := fun level L => proj1 (Sh level L)). assert (Sc' := fun level L => proj1 (Sc level L)).
    destruct (level_first _ _ _ clc covers F2 Gc Sc') as (g & Hd & D & Cn & Rn).
    assert (Lc := level_count_length _ _ _ clc Gc). assert (Lh := level_count_length _ _ _ hhl Gh).
    assert (V : vertical_cloud_new hhl clc = Ok {| vc_hhl := hhl; vc_clc := clc |}).
    { unfold vertical_cloud_new. unfold len. rewrite Lc, Lh, Z.eqb_refl. pose proof levels_positive. replace (level_count run =? 0) with false by (symmetry; apply Z.eqb_neq; lia). reflexivity. }
    destruct (vertical_cloud_file chk m run n tr hhl clc _ g _ _ (level_count run) RD V Hd D Cn Rn (eq_sym Lc) (level_complete _ _ _ hhl heights F1 Gh Sh) (level_complete _ _ _ clc covers F2 Gc Sc)) as (data & Fd & L).
    exists data. split; [apply bin_holds; [lia|exact Fd]|]. cbv zeta. revert L. apply laid_out_impl. intros x y rec X Y Q level Lv.
    destruct (Q (level - first_level (run_model run))) as (a & b & A & B & E); [unfold level_of, level_count in *; lia|].
    destruct (level_told _ _ _ hhl heights level x y a F1 Gh Sh' Lv ltac:(lia) ltac:(lia) A) as (o1 & R1 & E1 & V1).
    destruct (level_told _ _ _ clc covers level x y b F2 Gc Sc' Lv ltac:(lia) ltac:(lia) B) as (o2 & R2 & E2 & V2).
    exists o1, o2, (file_byte a), (file_byte b). split; [exact R1|]. split; [exact R2|]. split; [rewrite E1; apply height_stored; exact V1|]. split; [rewrite E2; apply cover_stored; exact V2|exact E].
  Qed.
  Lemma c71_vertical_wind_proof (heights east north : Z -> message) : named vars VerticalWind ->
    (forall level, level_of run level -> served chk fetch run (HeightFile level) (heights level) /\ gridded (heights level)) ->
    (forall level, level_of run level -> served chk fetch run (LevelFile UWind n level) (east level) /\ gridded (east level)) ->
    (forall level, level_of run level -> served chk fetch run (LevelFile VWind n level) (north level) /\ gridded (north level)) ->
    exists data, holds run n (BinFile BinVerticalWind) tr (Data data) /\
      let top := east (first_level (run_model run)) in
      laid_out (3 * level_count run) (columns top) (rows top) data (fun x y rec => forall level, level_of run level -> exists o1 o2 o3 a w,
        raw powi (heights level) x y o1 /\ raw powi (east level) x y o2 /\ raw powi (north level) x y o3 /\ height_code o1 a /\ level_wind_code o2 o3 w /\
        slice rec (3 * (level - first_level (run_model run))) 3 = a :: w).
  Proof.
    intros Nm Sh Su Sv. pose proof s_nr as N2. destruct output as (run' & F & _ & _ & _ & T). apply run_found in F. subst run'.
    destruct (T (or_intror Nm)) as (hhl & Gh & _ & T1). destruct (T1 Nm n Wn) as (gu & gv & Gu & Gv & RD).
    assert (F1 : forall level, 0 <= level -> dwd_file_ok (HeightFile level)) by (intros; assumption).
    assert (F2 : forall v level, 0 <= level -> dwd_file_ok (LevelFile v n level)) by (intros; cbn; lia).
    assert (Sh' := fun level L => proj1 (Sh level L)). assert (Su' := fun level L => proj1 (Su level L)). assert (Sv' := fun level L => proj1 (Sv level L)).
    destruct (level_first _ _ _ gu east (F2 UWind) Gu Su') as (g & Hd & D & Cn & Rn).
    assert (Lu := level_count_length _ _ _ gu Gu). assert (Lv := level_count_length _ _ _ gv Gv). assert (Lh := level_count_length _ _ _ hhl Gh).
    assert (V : vertical_wind_new hhl gu gv = Ok {| vw_hhl := hhl; vw_u := gu; vw_v := gv |}).
    { unfold vertical_wind_new. unfold len. rewrite Lu, Lv, Lh, Z.eqb_refl. pose proof levels_positive. replace (level_count run =? 0) with false by (symmetry; apply Z.eqb_neq; lia). reflexivity. }
    destruct (vertical_wind_file chk m run n tr hhl gu gv _ g _ _ (level_count run) RD V Hd D Cn Rn (eq_sym Lu) (level_complete _ _ _ hhl heights F1 Gh Sh) (level_complete _ _ _ gu east (F2 UWind) Gu Su)
      (level_complete _ _ _ gv north (F2 VWind) Gv Sv)) as (data & Fd & L).
    exists data. split; [apply bin_holds; [lia|exact Fd]|]. cbv zeta. revert L. apply laid_out_impl. intros x y rec X Y Q level Ll.
    destruct (Q (level - first_level (run_model run))) as (a & b & c & A & B & C & E); [unfold level_of, level_count in *; lia|].
    destruct (level_told _ _ _ hhl heights level x y a F1 Gh Sh' Ll ltac:(lia) ltac:(lia) A) as (o1 & R1 & E1 & V1).
    destruct (level_told _ _ _ gu east level x y b (F2 UWind) Gu Su' Ll ltac:(lia) ltac:(lia) B) as (o2 & R2 & E2 & V2).
    destruct (level_told _ _ _ gv north level x y c (F2 VWind) Gv Sv' Ll ltac:(lia) ltac:(lia) C) as (o3 & R3 & E3 & V3).
    exists o1, o2, o3. do 2 eexists. split; [exact R1|]. split; [exact R2|]. split; [exact R3|]. split; [|split; [|exact E]].
    - rewrite E1. apply height_stored. exact V1.
    - unfold U_V_MISSING in E2, E3. rewrite (c57_wind_kept_proof o2 V2) in E2. rewrite (c57_wind_kept_proof o3 V3) in E3. subst b c.
      destruct o2 as [u|]; [destruct o3 as [v|]|]; cbn [option_map level_wind_code]; try reflexivity.
      exists (u_v_transform u), (u_v_transform v). rewrite !u_v_speed. split; [reflexivity|]. split; apply speed_code; auto.
  Qed.
End Published.

Lemma c71_messages_proof : forall chk powi (fetch : fetcher) m head today today' model vars steps run tr file,
  succeeded chk powi fetch m head today today' model vars steps run tr -> (forall url bs, fetch url (Ok bs) -> Forall is_byte bs) ->
  needed vars steps run file -> exists ms, served chk fetch run file ms.
Proof.
  intros chk powi fetch m head today today' model vars steps run tr file S B (n & Wn & D).
  pose proof (s_run _ _ _ _ _ _ _ _ _ _ _ _ S) as VR. pose proof (s_nr _ _ _ Wn) as N2.
  destruct (output _ _ _ _ _ _ _ _ _ _ _ _ S) as (run' & F & T1 & T2 & T3 & T4). apply (run_found _ _ _ _ _ _ _ _ _ _ _ _ S) in F. subst run'.
  assert (Lv : forall level, level_of run level -> 0 <= level) by (intros level L; unfold level_of in L; destruct (run_model run); cbn in L; lia).
  destruct file as [v k|v k level|level].
  - destruct v.
    + destruct D as [Nm ->]. destruct (T3 Nm n Wn) as (? & ? & ? & ? & ? & _ & _ & _ & G & _). eapply to_served; [exact B|exact VR|cbn; lia|exact G].
    + destruct D as [Nm ->]. destruct (T3 Nm n Wn) as (? & ? & ? & ? & ? & G & _). eapply to_served; [exact B|exact VR|cbn; lia|exact G].
    + destruct D as [Nm E]. destruct (T3 Nm n Wn) as (? & ? & ? & ? & ? & _ & G0 & G1 & _). destruct E as [->| ->]; [eapply to_served; [exact B|exact VR|cbn; lia|exact G0]|eapply to_served; [exact B|exact VR|cbn; lia|exact G1]].
    + destruct D as [Nm ->]. destruct (T3 Nm n Wn) as (? & ? & ? & ? & ? & _ & _ & _ & _ & G & _). eapply to_served; [exact B|exact VR|cbn; lia|exact G].
    + destruct D as [Nm ->]. destruct (T2 Nm n Wn) as (? & ? & ? & G & _). eapply to_served; [exact B|exact VR|cbn; lia|exact G].
    + destruct D as [Nm ->]. destruct (T2 Nm n Wn) as (? & ? & ? & _ & G & _). eapply to_served; [exact B|exact VR|cbn; lia|exact G].
    + destruct D as [Nm ->]. destruct (T2 Nm n Wn) as (? & ? & ? & _ & _ & G & _). eapply to_served; [exact B|exact VR|cbn; lia|exact G].
    + destruct D as [Nm ->]. destruct (T1 Nm n Wn) as (? & G & _). eapply to_served; [exact B|exact VR|cbn; lia|exact G].
  - destruct v.
    + destruct D as (Nm & -> & L). destruct (T4 (or_introl Nm)) as (hhl & _ & T & _). destruct (T Nm n Wn) as (? & G & _).
      destruct (level_grid _ _ _ _ _ _ _ _ level G L) as (g & _ & Q). eapply to_served; [exact B|exact VR|pose proof (Lv level L); cbn; lia|exact Q].
    + destruct D as (Nm & -> & L). destruct (T4 (or_intror Nm)) as (hhl & _ & _ & T). destruct (T Nm n Wn) as (? & ? & G & _).
      destruct (level_grid _ _ _ _ _ _ _ _ level G L) as (g & _ & Q). eapply to_served; [exact B|exact VR|pose proof (Lv level L); cbn; lia|exact Q].
    + destruct D as (Nm & -> & L). destruct (T4 (or_intror Nm)) as (hhl & _ & _ & T). destruct (T Nm n Wn) as (? & ? & _ & G & _).
      destruct (level_grid _ _ _ _ _ _ _ _ level G L) as (g & _ & Q). eapply to_served; [exact B|exact VR|pose proof (Lv level L); cbn; lia|exact Q].
  - destruct D as (Nm & L). destruct (T4 Nm) as (hhl & G & _).
    destruct (level_grid _ _ _ _ _ _ _ _ level G L) as (g & _ & Q). eapply to_served; [exact B|exact VR|exact (Lv level L)|exact Q].
Qed.
