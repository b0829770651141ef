(** Proofs of C72. *)
From Coq Require Import String ZArith Reals List Bool Lia Lra.
From Flocq Require Import Core.Core.
From Verif Require Import Base F32 F32Facts Grib2Model Grib2Spec Grib2Proofs Grib2DocProofs Grib2FloatProofs GeoModel GeoSpec GeoProofs GeoValueProofs GeoLookupProofs GeoRegridProofs ImagingModel ImagingSpec Par
  TileModel TileSpec TileProofs MercatorProofs ChartModel ChartSpec ChartProofs MetobinModel MetobinSpec MetobinProofs ForecastModel ForecastSpec ForecastProofs
  FetchModel FetchSpec FetchProofs SwissModel SwissSpec SwissProofs SwissCells MapSpec MapProofs FieldSpec FieldProofs PublishSpec PublishProofs SwissMapSpec SwissPlaceProofs.
Import ListNotations.
Open Scope Z_scope.

(** ** Messages *)

Definition bulletin_of (w : wire) : bulletin :=
  match w5_tpl (w_5 w) with
  | W5_0 r e d _ _ => {| bl_wire := w; bl_reference := r; bl_binary := e; bl_decimal := d |}
  | _ => {| bl_wire := w; bl_reference := 0; bl_binary := 0; bl_decimal := 0 |}
  end.
Lemma bulletin_wire w : bl_wire (bulletin_of w) = w. Proof. unfold bulletin_of. destruct (w5_tpl _); reflexivity. Qed.
Lemma bulletin_packed {T} chk powi w (missing : T) transform vs : wf_message chk w -> calculate_data_points powi (message_meaning w) missing transform = Ok vs -> packed chk (bulletin_of w).
Proof.
  intros W H. split; [rewrite bulletin_wire; exact W|]. rewrite bulletin_wire. unfold bulletin_of. destruct (w5_tpl (w_5 w)) as [r e d b f|n sk] eqn:E5; [eexists _, _; reflexivity|].
  unfold calculate_data_points, message_meaning in H. cbn [d_s5 meaning5 s5_template] in H. rewrite E5 in H. discriminate.
Qed.
Lemma regrid_values {T} powi (missing : T) transform u d g : regrid_doc powi missing transform u d = Ok g -> exists vs, calculate_data_points powi d missing transform = Ok vs.
Proof. unfold regrid_doc. destruct (calculate_data_points powi d missing transform) as [vs|?|]; try discriminate. eauto. Qed.

(** Messages at the beginning of the bytes are those that are read. *)
Lemma messages_prefix chk ws : forall ws' tail rest e, Forall (wf_message chk) ws -> Forall (wf_message chk) ws' -> read_single_doc chk tail = Err e ->
  concat (map message_bytes ws) ++ tail = concat (map message_bytes ws') ++ rest -> (length ws' <= length ws)%nat.
Proof.
  induction ws as [|w ws IH]; intros [|w' ws'] tail rest e F F' R E; cbn [length]; try lia.
  - exfalso. cbn [map concat app] in E. inversion F' as [|? ? W' _]; subst. rewrite <- app_assoc, (read_single_doc_bwd chk w' _ W') in R. discriminate R.
  - inversion F as [|? ? W Fw]; inversion F' as [|? ? W' Fw']; subst. cbn [map concat] in E. rewrite <- !app_assoc in E.
    pose proof (read_single_doc_bwd chk w (concat (map message_bytes ws) ++ tail) W) as R1. pose proof (read_single_doc_bwd chk w' (concat (map message_bytes ws') ++ rest) W') as R2.
    rewrite E, R2 in R1. apply (f_equal (fun o => match o with Ok x => snd x | _ => [] end)) in R1. cbv beta iota in R1. cbn [snd] in R1. apply le_n_S. eapply IH; [exact Fw|exact Fw'|exact R|symmetry; exact R1].
Qed.

Section Points.
  Context (chk : bool) (powi : f32 -> Z -> f32).
  Lemma at_point_fun b k o o' : at_point powi b k o -> at_point powi b k o' -> o = o'.
  Proof.
    intros [[A ->]|[A P]] [[A' ->]|[A' P']]; try lia; [reflexivity|]. unfold point_value in *. destruct (_ && _); [|congruence].
    destruct P as (p & N & ->). destruct P' as (p' & N' & ->). rewrite N in N'. injection N' as ->. reflexivity.
  Qed.
  (** The values that are read. *)
  Lemma read_points {T} b (missing : T) transform vs : packed chk b -> calculate_data_points powi (message_meaning (bl_wire b)) missing transform = Ok vs ->
    Z.of_nat (length vs) = points b /\ forall k, exists o, at_point powi b k o /\ nth k vs missing = match o with Some v => transform v | None => missing end.
  Proof.
    intros (W & bits & field & E5) H. destruct (points_read chk powi _ _ _ _ _ _ missing transform W E5) as [_ Q]. destruct (Q vs H) as [L P].
    assert (P0 : 0 <= points b).
    { unfold points. destruct W as (_ & _ & _ & F & _). unfold wf3, layout3, fields_ok in F. apply Forall_app in F. destruct F as [F _].
      repeat match goal with X : Forall _ (_ :: _) |- _ => let A := fresh "A" in let B := fresh "B" in apply Forall_cons_iff in X; destruct X as [A B] end.
      unfold field_ok in *. tauto. }
    assert (L' : Z.of_nat (length vs) = points b) by (unfold points in *; lia). split; [exact L'|]. intro k.
    destruct (nth_error vs k) as [v|] eqn:N.
    - rewrite (nth_error_nth vs k missing N). specialize (P k v N). assert (K : (k < length vs)%nat) by (apply nth_error_Some; congruence). unfold point_value in P.
      destruct (_ && _) eqn:E.
      + destruct P as (p & Np & ->). eexists. split; [right; split; [lia|]; unfold point_value; rewrite E; exists p; split; [exact Np|reflexivity]|reflexivity].
      + exists None. split; [right; split; [lia|]; unfold point_value; rewrite E; reflexivity|exact P].
    - apply nth_error_None in N. exists None. split; [left; split; [lia|reflexivity]|]. apply nth_overflow. exact N.
  Qed.
  Lemma at_point_valid b k v : (forall x n, f32_valid x -> f32_valid (powi x n)) -> packed chk b -> at_point powi b k (Some v) -> f32_valid v.
  Proof.
    intros Pv (W & bits & field & E5) [[_ ?]|[_ P]]; [discriminate|]. unfold point_value in P. destruct (_ && _); [|discriminate]. destruct P as (packed & _ & P).
    apply (f_equal (fun o => match o with Some x => x | None => v end)) in P. cbv beta iota in P. rewrite P.
    apply unpack_valid; [apply f32_of_bits_valid; eapply wf_reference; eassumption|apply Pv, f32_of_Z_valid|apply Pv, f32_of_Z_valid].
  Qed.
End Points.

(** ** The stations *)

Lemma area_extent e : extent_new (lat_lon_new (f32_lit 4203 100) (f32_lit (-81) 100)) (lat_lon_new (f32_lit 5050 100) (f32_lit 1770 100)) = Ok e -> e = swiss_area.
Proof.
  assert (A : extent_new (lat_lon_new (f32_lit 4203 100) (f32_lit (-81) 100)) (lat_lon_new (f32_lit 5050 100) (f32_lit 1770 100)) = Ok swiss_area) by (vm_compute; reflexivity).
  intro E. rewrite A in E. apply (f_equal (fun o => match o with Ok x => x | _ => e end)) in E. symmetry. exact E.
Qed.
(** The coordinates of the grid are those of the stations. *)
Definition known_stations (powi : f32 -> Z -> f32) (clat clon : bulletin) (cs : list lat_lon) : Prop :=
  (forall i c, nth_error cs i = Some c -> placed c /\ station powi clat clon i (lat c) (lon c)) /\
  (forall i la lo, station powi clat clon i la lo -> nth_error cs i = Some {| lat := la; lon := lo |}).
Lemma stations_read chk powi clat clon cs : packed chk clat -> packed chk clon ->
  coordinates_from_docs powi (message_meaning (bl_wire clat)) (message_meaning (bl_wire clon)) = Ok cs -> located powi clat clon -> known_stations powi clat clon cs.
Proof.
  intros Pa Po E L. unfold coordinates_from_docs in E.
  destruct (calculate_data_points powi (message_meaning (bl_wire clat)) (f32_of_Z 255) (fun x => x)) as [lats|?|] eqn:Ea; try discriminate E. cbn [obind] in E.
  destruct (calculate_data_points powi (message_meaning (bl_wire clon)) (f32_of_Z 255) (fun x => x)) as [lons|?|] eqn:Eo; try discriminate E. cbn [obind] in E.
  destruct (Nat.eqb_spec (length lats) (length lons)) as [El|]; [|discriminate E]. injection E as <-.
  destruct (read_points chk powi clat (f32_of_Z 255) (fun x => x) lats Pa Ea) as [La Ra]. destruct (read_points chk powi clon (f32_of_Z 255) (fun x => x) lons Po Eo) as [Lo Ro].
  assert (K : forall i, (i < length lats)%nat -> exists la lo, station powi clat clon i la lo /\ placed {| lat := la; lon := lo |} /\
    nth_error (map (fun '(la, lo) => lat_lon_new la lo) (combine lats lons)) i = Some {| lat := la; lon := lo |}).
  { intros i I. destruct (L i ltac:(lia)) as (la & lo & [Sa So] & Fa & Fo & Ba & Bo). exists la, lo. split; [split; assumption|]. split; [split; [split; assumption|split; assumption]|].
    destruct (Ra i) as (o & Ao & No). destruct (Ro i) as (o' & Ao' & No'). rewrite (at_point_fun powi clat i _ _ Ao Sa) in No. rewrite (at_point_fun powi clon i _ _ Ao' So) in No'.
    rewrite nth_error_map, (nth_error_nth' (combine lats lons) (f32_of_Z 255, f32_of_Z 255)) by (rewrite combine_length; lia). rewrite combine_nth by exact El. cbn [option_map]. rewrite No, No'.
    rewrite c12_identity_proof; [reflexivity|assumption|assumption| |]; apply Rabs_le_inv in Ba, Bo; lra. }
  split.
  - intros i c N. assert (I : (i < length lats)%nat). { assert (Q : nth_error (map (fun '(la, lo) => lat_lon_new la lo) (combine lats lons)) i <> None) by congruence. apply nth_error_Some in Q. rewrite map_length, combine_length in Q. lia. }
    destruct (K i I) as (la & lo & S & P & N'). pose proof (eq_trans (eq_sym N) N') as Q. injection Q as ->. split; [exact P|exact S].
  - intros i la lo S. assert (I : (i < length lats)%nat). { destruct S as [[[_ ?]|[I _]] _]; [discriminate|lia]. }
    destruct (K i I) as (la' & lo' & [S1 S2] & _ & N'). destruct S as [S3 S4]. pose proof (at_point_fun powi clat i _ _ S1 S3) as Q1. pose proof (at_point_fun powi clon i _ _ S2 S4) as Q2.
    injection Q1 as ->. injection Q2 as ->. exact N'.
Qed.

(** ** Grids *)

Lemma area_geo : geo_grid 1851 847 swiss_area.
Proof. destruct area_axes as [A O]. split; assumption. Qed.
Lemma area_on_map : on_map swiss_area.
Proof.
  assert (B : (xr south = xr (lat (min_coord swiss_area)) /\ xr north = xr (lat (max_coord swiss_area)) /\ xr west = xr (lon (min_coord swiss_area)) /\ xr east = xr (lon (max_coord swiss_area)))%R) by (repeat split; reflexivity).
  destruct area_axes as [(F1 & F2 & _ & L1 & L2 & L3) (F3 & F4 & _ & L4 & L5 & L6)]. destruct B as (E1 & E2 & E3 & E4).
  destruct (middle_close 0 0 ltac:(lia) ltac:(lia)) as (_ & M & _). clear M. pose proof lat_inc as [Q1 _]. apply Rabs_le_inv in Q1.
  assert (Q2 : (xr north <= 51)%R). { assert (N : exists z, north = z) by eauto. destruct N as (z & N). rewrite N. vm_compute in N. subst z. unfold xr, BinarySingleNaN.SF2R, F2R. cbn. lra. }
  split; [split; split; assumption|]. rewrite <- E1, <- E2, <- E3, <- E4. lra.
Qed.

Section Grids.
  Context (chk : bool) (powi : f32 -> Z -> f32) (clat clon : bulletin) (cs : list lat_lon) (u : ugrid).
  Context (Lu : calc_coord_dist_lookup_map chk (unstructured_new None 1851 847 swiss_area cs) (f32_lit 1 100) = Ok u) (K : known_stations powi clat clon cs).

  Lemma known_clear : Forall (clear_of_antimeridian (f32_lit 1 100)) cs.
  Proof.
    apply Forall_forall. intros c J. apply In_nth_error in J. destruct J as (i & N). destruct K as [K1 _]. destruct (K1 i c N) as [(F & A & O) _].
    split; [exact F|]. assert (D : (xr (f32_lit 1 100) <= 1)%R). { assert (Z : exists z, f32_lit 1 100 = z) by eauto. destruct Z as (z & Z). rewrite Z. vm_compute in Z. subst z. unfold xr, BinarySingleNaN.SF2R, F2R. cbn. lra. }
    lra.
  Qed.
  (** The value of each cell is that of the closest station. *)
  Lemma measured_cells {T} (missing : T) transform b g : packed chk b -> regrid_doc powi missing transform u (message_meaning (bl_wire b)) = Ok g ->
    exists vs, g = value_grid_new vs missing 1851 847 swiss_area /\ length vs = Z.to_nat (1851 * 847) /\
      forall x y, 0 <= x < 1851 -> 0 <= y < 847 -> exists o, measured powi clat clon b x y o /\
        nth_error vs (Z.to_nat (y * 1851 + x)) = Some (match o with Some r => transform r | None => missing end).
  Proof.
    intros Pb Rg. destruct (lookup_map_slots chk 1851 847 swiss_area cs (f32_lit 1 100) ltac:(lia) ltac:(lia)) as (mp & E' & Lm & _). pose proof Lu as L0. rewrite Lu in E'. injection E' as Eu.
    unfold regrid_doc in Rg. destruct (calculate_data_points powi (message_meaning (bl_wire b)) missing transform) as [values|?|] eqn:Cd; try discriminate Rg. cbn [obind] in Rg.
    destruct (c20_values_proof T {| uv_grid := u; uv_values := values; uv_missing := missing |}) as (vs & Ec & Lv & W);
      rewrite ?Eu; cbn [uv_grid ug_grid ug_map grid_new g_w g_h]; try lia.
    rewrite Ec in Rg. injection Rg as <-. rewrite Eu in *. cbn [uv_grid ug_grid grid_new g_w g_h g_extent uv_missing uv_values] in *.
    exists vs. split; [reflexivity|]. split; [exact Lv|]. intros x y X Y. destruct (W x y X Y) as (o & Go & Vo).
    destruct swiss_distance as [Fd Bd]. destruct (read_points chk powi b missing transform values Pb Cd) as [_ Rp]. destruct K as [K1 K2].
    destruct (c19_complete_proof chk 1851 847 swiss_area cs (f32_lit 1 100) _ x y area_geo Fd Bd known_clear L0 X Y) as [P1 P2]. destruct o as [[i s]|].
    - destruct (P1 i s Go) as (Hi & c & Nc & Nb & Mn). destruct (K1 _ c Nc) as [Pc Sc]. destruct (Rp (Z.to_nat i)) as (o & Ao & No). exists o. split; [|rewrite Vo, No; reflexivity].
      right. split; [exact X|]. split; [exact Y|]. left. exists (Z.to_nat i). split; [|exact Ao]. exists (lat c), (lon c). split; [exact Sc|]. split; [eapply found_close; eassumption|].
      intros j la lo Sj. pose proof (K2 j la lo Sj) as Nj. destruct (K1 j _ Nj) as [Pj _]. apply (found_closest c {| lat := la; lon := lo |} x y s Pc Pj X Y Nb).
      intros s' Nb'. exact (proj1 (Mn j _ s' Nj Nb')).
    - exists None. split; [|exact Vo]. right. split; [exact X|]. split; [exact Y|]. right. split; [|reflexivity].
      intros i la lo Si. pose proof (K2 i la lo Si) as Ni. destruct (K1 i _ Ni) as [Pi _]. apply (not_found {| lat := la; lon := lo |} x y Pi X Y). intros s. apply (P2 Go). eapply nth_error_In. exact Ni.
  Qed.
  Lemma measured_valid b x y v : (forall a n, f32_valid a -> f32_valid (powi a n)) -> packed chk b -> measured powi clat clon b x y (Some v) -> f32_valid v.
  Proof. intros Pv Pb [[_ ?]|(_ & _ & [(i & _ & A)|[_ ?]])]; try discriminate. eapply at_point_valid; eassumption. Qed.

  Section Floats.
    Context (Pv : forall a n, f32_valid a -> f32_valid (powi a n)) (unit : f32 -> f32) (Uv : forall v, f32_valid v -> f32_valid (unit v))
      (b : bulletin) (Pb : packed chk b) (g : fgrid) (Rg : regrid_doc powi (f32_of_Z (-1)) unit u (message_meaning (bl_wire b)) = Ok g).
    Lemma area_dims : dims g = (1851, 847).
    Proof. destruct (measured_cells _ _ b g Pb Rg) as (vs & -> & _). reflexivity. Qed.
    Lemma area_of : extent_of g = swiss_area.
    Proof. destruct (measured_cells _ _ b g Pb Rg) as (vs & -> & _). reflexivity. Qed.
    Lemma area_regular : regular g.
    Proof.
      destruct (measured_cells _ _ b g Pb Rg) as (vs & -> & L & W). exists vs, (f32_of_Z (-1)), 1851, 847, swiss_area. split; [reflexivity|]. split; [apply geo_grid_ok, area_geo|]. split; [exact L|].
      apply Forall_forall. intros v J. apply In_nth_error in J. destruct J as (k & N). assert (Kl : (k < length vs)%nat) by (apply nth_error_Some; congruence). rewrite L in Kl.
      assert (M : 0 <= Z.of_nat k mod 1851 < 1851) by (apply Z.mod_pos_bound; lia). pose proof (Z.div_mod (Z.of_nat k) 1851 ltac:(lia)) as DM.
      assert (D : 0 <= Z.of_nat k / 1851 < 847). { split; [apply Z.div_pos; lia|]. apply Z.div_lt_upper_bound; lia. }
      destruct (W _ _ M D) as (o & Mo & No). replace (Z.to_nat _) with k in No by (rewrite (Z.mul_comm _ 1851), <- DM, Nat2Z.id; reflexivity). rewrite N in No.
      apply (f_equal (fun o => match o with Some x => x | None => v end)) in No. cbv beta iota in No. rewrite No. destruct o as [r|]; [apply Uv; eapply measured_valid; eassumption|apply f32_of_Z_valid].
    Qed.
    Lemma cell_reported x y o : 0 <= x -> 0 <= y -> cell_value g x y o -> reported powi clat clon unit b x y o.
    Proof.
      intros X Y C. unfold cell_value in C. rewrite area_dims in C. destruct C as [[A ->]|[[A ->]|(A & B & v & N & C)]].
      - exists None. split; [left; auto|reflexivity].
      - exists None. split; [left; auto|reflexivity].
      - destruct (measured_cells _ _ b g Pb Rg) as (vs & Eg & _ & W). rewrite Eg in N, C. cbn [value_grid_new vg_values vg_missing] in N, C.
        destruct (W x y A B) as (o' & Mo & No). exists o'. split; [exact Mo|]. rewrite N in No. apply (f_equal (fun o => match o with Some x => x | None => v end)) in No. cbv beta iota in No. subst v.
        destruct o' as [r|].
        + destruct C as [[C ->]|[C ->]]; rewrite C; reflexivity.
        + destruct C as [[_ ->]|[C _]]; [reflexivity|]. exfalso. vm_compute in C. discriminate C.
    Qed.
    Lemma near_reported p o : value_near g p o -> swiss_near (reported powi clat clon unit b) p o.
    Proof.
      intro N. unfold value_near in N. rewrite area_dims, area_of in N. cbn [fst snd] in N.
      destruct N as [N|(I & i & j & Ci & Cj & C)]; [left; exact N|right]. split; [exact I|]. exists i, j. split; [exact Ci|]. split; [exact Cj|]. apply cell_reported; [apply Ci|apply Cj|exact C].
    Qed.
    Lemma between_reported p o : value_between g p o -> swiss_between (reported powi clat clon unit b) p o.
    Proof.
      intro N. unfold value_between in N. rewrite area_dims, area_of in N. cbn [fst snd] in N.
      destruct N as [N|(I & i & j & fx & fy & Ii & Jj & Fx & Fy & Dx & Dy & C)]; [left; exact N|right]. split; [exact I|]. exists i, j, fx, fy. do 6 (split; [assumption|]).
      destruct C as [[F C]|(F1 & F2 & sw & se & nw & ne & C1 & C2 & C3 & C4 & B)]; [left; split; [exact F|apply cell_reported; assumption]|right].
      split; [exact F1|]. split; [exact F2|]. exists sw, se, nw, ne. repeat split; try (apply cell_reported; assumption || lia). exact B.
    Qed.
    Lemma area_covers m run zoom x y : libm_accurate m -> swiss_tile run zoom x y -> covers chk m (extent_of g) zoom x y.
    Proof.
      intros A ((Z & X & Y) & p & Fp & I & Wp). pose proof (last_zoom_le (run_model run)). rewrite area_of.
      exact (c64_coverage_proof chk m _ zoom x y p A ltac:(lia) X ltac:(lia) area_on_map Fp I Wp).
    Qed.
  End Floats.
  (** Grids of bytes. *)
  Lemma cell_measured (missing : Z) transform b g i j o : packed chk b -> regrid_doc powi missing transform u (message_meaning (bl_wire b)) = Ok g -> 0 <= i -> 0 <= j ->
    (let (w, h) := dims g in
     (w <= i /\ o = None) \/ (h <= j /\ o = None) \/
     (0 <= i < w /\ 0 <= j < h /\ exists v, nth_error (vg_values g) (Z.to_nat (j * w + i)) = Some v /\ ((v = vg_missing g /\ o = None) \/ (v <> vg_missing g /\ o = Some v)))) ->
    exists o', measured powi clat clon b i j o' /\ o = stored missing transform o'.
  Proof.
    intros Pb Rg I J C. destruct (measured_cells _ _ b g Pb Rg) as (vs & -> & _ & W). cbv [dims value_grid_new grid_new vg_grid g_w g_h vg_values vg_missing] in C.
    destruct C as [[A ->]|[[A ->]|(A & B & v & N & C)]].
    - exists None. split; [left; auto|reflexivity].
    - exists None. split; [left; auto|reflexivity].
    - destruct (W i j A B) as (o' & Mo & No). exists o'. split; [exact Mo|]. rewrite N in No. apply (f_equal (fun o => match o with Some x => x | None => v end)) in No. cbv beta iota in No. subst v.
      destruct o' as [r|]; cbn [stored].
      + destruct C as [[C ->]|[C ->]]; [rewrite C, Z.eqb_refl; reflexivity|]. apply Z.eqb_neq in C. rewrite C. reflexivity.
      + destruct C as [[_ ->]|[C _]]; [reflexivity|congruence].
  Qed.
  Lemma measured_complete {T} (missing : T) transform b g : packed chk b -> regrid_doc powi missing transform u (message_meaning (bl_wire b)) = Ok g -> complete g /\ dims g = (1851, 847).
  Proof.
    intros Pb Rg. destruct (measured_cells _ _ b g Pb Rg) as (vs & -> & L & _). split; [|reflexivity]. unfold complete. cbn [value_grid_new vg_values]. rewrite L. unfold dims. cbn [vg_grid value_grid_new grid_new g_w g_h fst snd]. lia.
  Qed.
End Grids.

(** ** Files *)

Section Files.
  Context (chk : bool) (powi : f32 -> Z -> f32) (fetch : fetcher) (St : steady fetch) (By : forall url bs, fetch url (Ok bs) -> Forall is_byte bs).
  Lemma single_message {T} u (missing : T) transform f g : file_grid chk powi fetch u missing transform f g ->
    exists b, starts_with chk fetch (ss_href f) b /\ regrid_doc powi missing transform u (message_meaning (bl_wire b)) = Ok g.
  Proof.
    intros (bs & d & rest & H & R & G). destruct (c04_accepted_is_message_proof chk bs d rest (By _ _ H) R) as (w & W & -> & ->). exists (bulletin_of w). destruct (regrid_values _ _ _ _ _ _ G) as (vs & C).
    split; [split; [eapply bulletin_packed; eassumption|]|]; rewrite bulletin_wire; [eauto|exact G].
  Qed.
  Lemma numbered url ws tail k w : fetch url (Ok (concat (map message_bytes ws) ++ tail)) -> Forall (wf_message chk) ws -> nth_error ws k = Some w -> packed chk (bulletin_of w) ->
    number_of chk fetch url k (bulletin_of w).
  Proof.
    intros H F N P. split; [exact P|]. apply nth_error_split in N. destruct N as (l1 & l2 & -> & L). apply Forall_app in F. destruct F as [F _].
    exists l1, (concat (map message_bytes l2) ++ tail). split; [exact L|]. split; [exact F|]. rewrite bulletin_wire. rewrite map_app, concat_app in H. cbn [map concat] in H. rewrite <- !app_assoc in H. exact H.
  Qed.
  Lemma constants_read url u : grid_of_constants chk powi fetch url u -> exists clat clon cs,
    number_of chk fetch url 4 clat /\ number_of chk fetch url 3 clon /\
    calc_coord_dist_lookup_map chk (unstructured_new None 1851 847 swiss_area cs) (f32_lit 1 100) = Ok u /\
    (located powi clat clon -> known_stations powi clat clon cs).
  Proof.
    intros (bs & docs & clat & clon & cs & e & H & R & N4 & N3 & C & E & L). apply area_extent in E. subst e.
    destruct (c02_only_concatenations_proof chk bs docs (By _ _ H) R) as (ws & tail & er & _ & F & -> & -> & _).
    rewrite nth_error_map in N4, N3. destruct (nth_error ws 4) as [wa|] eqn:Na; [|discriminate N4]. destruct (nth_error ws 3) as [wo|] eqn:No; [|discriminate N3].
    assert (Ea : message_meaning wa = clat) by (apply (f_equal (fun o => match o with Some x => x | None => clat end)) in N4; exact N4).
    assert (Eo : message_meaning wo = clon) by (apply (f_equal (fun o => match o with Some x => x | None => clon end)) in N3; exact N3). subst clat clon.
    assert (Wa : wf_message chk wa) by (rewrite Forall_forall in F; apply F; eapply nth_error_In; exact Na). assert (Wo : wf_message chk wo) by (rewrite Forall_forall in F; apply F; eapply nth_error_In; exact No).
    assert (V : (exists vs, calculate_data_points powi (message_meaning wa) (f32_of_Z 255) (fun x => x) = Ok vs) /\ exists vs, calculate_data_points powi (message_meaning wo) (f32_of_Z 255) (fun x => x) = Ok vs).
    { unfold coordinates_from_docs in C. destruct (calculate_data_points powi (message_meaning wa) _ _) as [lats|?|]; try discriminate C. cbn [obind] in C.
      destruct (calculate_data_points powi (message_meaning wo) _ _) as [lons|?|]; try discriminate C. eauto. }
    destruct V as [(va & Va) (vo & Vo)]. pose proof (bulletin_packed chk powi wa _ _ va Wa Va) as Pa. pose proof (bulletin_packed chk powi wo _ _ vo Wo Vo) as Po.
    exists (bulletin_of wa), (bulletin_of wo), cs. split; [eapply numbered; eassumption|]. split; [eapply numbered; eassumption|]. split; [exact L|].
    apply (stations_read chk); [exact Pa|exact Po|]. rewrite !bulletin_wire. exact C.
  Qed.
  Lemma forall2_nth {A B} (P : A -> B -> Prop) l l' k b : Forall2 P l l' -> nth_error l' k = Some b -> exists a, nth_error l k = Some a /\ P a b.
  Proof. intro H. revert k. induction H as [|x y l l' Q H IH]; intros [|k] N; try discriminate N; [injection N as ->; exists x; auto|exact (IH k N)]. Qed.
  Lemma nth_window {A} n m (l : list A) k a : nth_error (firstn n (skipn m l)) k = Some a -> nth_error l (m + k) = Some a.
  Proof.
    revert l k. induction m as [|m IH]; intros l k H.
    - cbn [skipn] in H. cbn [plus]. revert l k H. induction n as [|n IHn]; intros [|x l] [|k] H; try discriminate H; [exact H|exact (IHn l k H)].
    - destruct l as [|x l]; [cbn [skipn] in H; rewrite firstn_nil in H; destruct k; discriminate H|]. cbn [skipn] in H. cbn [plus nth_error]. exact (IH l k H).
  Qed.
  Lemma level_messages u (missing : Z) transform url gs : level_grids_at chk powi fetch u missing transform url gs -> gs <> [] ->
    has_levels chk fetch url (length gs) /\ exists b : nat -> bulletin, forall k g, nth_error gs k = Some g ->
      number_of chk fetch url (31 + k) (b k) /\ regrid_doc powi missing transform u (message_meaning (bl_wire (b k))) = Ok g.
  Proof.
    intros (bs & docs & H & R & F2) Ne. destruct (c02_only_concatenations_proof chk bs docs (By _ _ H) R) as (ws & tail & er & Nw & F & -> & -> & Rt).
    pose proof (forall2_length _ _ _ F2) as Ln. unfold level_docs in Ln. rewrite firstn_length, skipn_length, map_length in Ln.
    assert (Ln' : length gs = Nat.min 49 (length ws - 31)) by (symmetry; exact Ln). clear Ln.
    assert (Lp : (1 <= length gs)%nat) by (destruct gs; [congruence|cbn; lia]).
    destruct ws as [|w0 ws0] eqn:Ew; [congruence|]. rewrite <- Ew in *. clear Nw.
    assert (Q : forall k g, nth_error gs k = Some g -> number_of chk fetch url (31 + k) (bulletin_of (nth (31 + k) ws w0)) /\
      regrid_doc powi missing transform u (message_meaning (bl_wire (bulletin_of (nth (31 + k) ws w0)))) = Ok g).
    { intros k g N. destruct (forall2_nth _ _ _ k g F2 N) as (d & Nd & G). unfold level_docs in Nd. apply nth_window in Nd. rewrite nth_error_map in Nd.
      destruct (nth_error ws (31 + k)) as [w|] eqn:Nw; [|discriminate Nd]. rewrite (nth_error_nth ws (31 + k) w0 Nw).
      assert (Ed : message_meaning w = d) by (apply (f_equal (fun o => match o with Some x => x | None => d end)) in Nd; exact Nd). subst d.
      assert (W : wf_message chk w) by (rewrite Forall_forall in F; apply F; eapply nth_error_In; exact Nw). destruct (regrid_values _ _ _ _ _ _ G) as (vs & C).
      split; [|rewrite bulletin_wire; exact G]. eapply numbered; [exact H|exact F|exact Nw|]. eapply bulletin_packed; eassumption. }
    split; [|exists (fun k => bulletin_of (nth (31 + k) ws w0)); exact Q]. split; [lia|]. split.
    - intros k Kl. destruct (nth_error gs k) as [g|] eqn:N; [|apply nth_error_None in N; lia]. destruct (Q k g N) as [Qn _]. eauto.
    - intros L49 b (Pb & earlier & rest & Le & Fe & H'). pose proof (St _ _ _ H H') as E.
      assert (X : (length (earlier ++ [bl_wire b]) <= length ws)%nat).
      { apply (messages_prefix chk ws (earlier ++ [bl_wire b]) tail rest er F); [apply Forall_app; split; [exact Fe|constructor; [exact (proj1 Pb)|constructor]]|exact Rt|].
        rewrite map_app, concat_app. cbn [map concat]. rewrite app_nil_r, <- app_assoc. exact E. }
      rewrite app_length in X. cbn [length] in X. rewrite Le in X. lia.
  Qed.
End Files.

(** ** Rendering *)

Section Rendering.
  Context (chk : bool) (powi : f32 -> Z -> f32) (rfc3339 : rfc3339_parser) (sv : service) (m : libm) (steps : list Z) (vars : list string) (tr : list effect).
  Context (S : swiss_succeeded chk powi rfc3339 sv m steps vars tr).
  Lemma r_steady : steady (sv_fetch sv). Proof. exact (proj1 (proj2 S)). Qed.
  Lemma r_bytes : forall url bs, sv_fetch sv url (Ok bs) -> Forall is_byte bs. Proof. exact (proj1 (proj2 (proj2 S))). Qed.
  Lemma r_powi : forall b n, f32_valid b -> f32_valid (powi b n). Proof. exact (proj1 (proj2 (proj2 (proj2 S)))). Qed.
  Definition r_output := let '(conj D (conj St (conj _ (conj _ R)))) := S in c60_proof chk powi rfc3339 sv m steps vars tr D St R.
  Lemma r_informed u heights t : started chk powi rfc3339 sv u heights t -> exists clat clon cs, informed chk rfc3339 sv clat clon heights t /\
    calc_coord_dist_lookup_map chk (unstructured_new None 1851 847 swiss_area cs) (f32_lit 1 100) = Ok u /\
    (located powi clat clon -> known_stations powi clat clon cs).
  Proof.
    intros (l & hor & vert & A & H & G & V & E & T). destruct (constants_read chk powi (sv_fetch sv) r_bytes _ _ G) as (clat & clon & cs & N4 & N3 & L & K).
    exists clat, clon, cs. split; [exists l, hor, vert; auto 10|auto].
  Qed.
  Lemma r_valid u heights t : started chk powi rfc3339 sv u heights t -> valid_run (swiss_run_of t).
  Proof. intro B. apply swiss_valid. eapply started_valid; [exact (proj1 S)|exact B]. Qed.
  Lemma as_is_valid v : f32_valid v -> f32_valid (as_is v). Proof. exact (fun H => H). Qed.
  Lemma hundredth_valid v : f32_valid v -> f32_valid (hundredth v). Proof. intro H. apply fdiv_valid; [exact H|apply f32_of_Z_valid]. Qed.
  Lemma r_tile t ty zoom x y img n : valid_run (swiss_run_of t) -> ty = CloudPrecip \/ ty = Wind10m \/ ty = Temp2m -> tile_number (swiss_run_of t) zoom x y ->
    (forall before, file_after (file_path (swiss_run_of t) (Z.of_nat n) (TileFile ty zoom x y)) before tr = Some (Png img)) -> holds (swiss_run_of t) (Z.of_nat n) (TileFile ty zoom x y) tr (Png img).
  Proof. intros V T N F. apply holds_at; [exact V|lia|eapply tile_proper; eassumption|exact F]. Qed.
  Lemma r_bin t b data n : valid_run (swiss_run_of t) -> (forall before, file_after (file_path (swiss_run_of t) (Z.of_nat n) (BinFile b)) before tr = Some (Data data)) ->
    holds (swiss_run_of t) (Z.of_nat n) (BinFile b) tr (Data data).
  Proof. intros V F. apply holds_at; [exact V|lia|exact I|exact F]. Qed.

  (** What a grid of numbers shows. *)
  Definition as_reported (clat clon : bulletin) (unit : f32 -> f32) (b : bulletin) (g : fgrid) : Prop :=
    regular g /\ dims g = (1851, 847) /\ (forall run zoom x y, libm_accurate m -> swiss_tile run zoom x y -> covers chk m (extent_of g) zoom x y) /\
    (forall p o, value_near g p o -> swiss_near (reported powi clat clon unit b) p o) /\
    (forall p o, value_between g p o -> swiss_between (reported powi clat clon unit b) p o) /\
    (forall x y o, 0 <= x -> 0 <= y -> cell_value g x y o -> reported powi clat clon unit b x y o).
  Lemma r_file clat clon cs u unit f g : calc_coord_dist_lookup_map chk (unstructured_new None 1851 847 swiss_area cs) (f32_lit 1 100) = Ok u ->
    (forall v, f32_valid v -> f32_valid (unit v)) -> file_grid chk powi (sv_fetch sv) u (f32_of_Z (-1)) unit f g ->
    exists b, starts_with chk (sv_fetch sv) (ss_href f) b /\ (known_stations powi clat clon cs -> as_reported clat clon unit b g).
  Proof.
    intros Lu Uv G. destruct (single_message chk powi (sv_fetch sv) r_bytes u _ _ f g G) as (b & Sb & Rg). exists b. split; [exact Sb|]. intro Kn. pose proof (proj1 Sb) as Pb. pose proof r_powi as Pv.
    split; [eapply area_regular; eassumption|]. split; [eapply area_dims; eassumption|]. split; [intros; eapply area_covers; eassumption|].
    split; [intros; eapply near_reported; eassumption|]. split; [intros; eapply between_reported; eassumption|]. intros; eapply cell_reported; eassumption.
  Qed.

  Lemma c72_temperature_proof : libm_ok m -> libm_accurate m -> named vars Temp2m ->
    exists clat clon heights t l, informed chk rfc3339 sv clat clon heights t /\ files_of sv ST2m t l /\
    forall n f, nth_error l n = Some f -> wanted_step steps n -> exists b, starts_with chk (sv_fetch sv) (ss_href f) b /\ (located powi clat clon ->
      let run := swiss_run_of t in
      (forall zoom x y, swiss_tile run zoom x y -> exists img, holds run (Z.of_nat n) (TileFile Temp2m zoom x y) tr (Png img) /\
         painted zoom x y img (fun p c => exists o, swiss_near (reported powi clat clon as_is b) p o /\ temperature_colour o c)) /\
      exists data, holds run (Z.of_nat n) (BinFile BinTemp) tr (Data data) /\
        laid_out 1 1851 847 data (fun x y rec => exists o c, reported powi clat clon as_is b x y o /\ rec = [c] /\ temperature_code o c)).
  Proof.
    intros Om Am Nm. destruct r_output as (u & heights & t & B & T & _). destruct (r_informed u heights t B) as (clat & clon & cs & Inf & Lu & Kn). pose proof (r_valid u heights t B) as V.
    destruct (T Nm) as (l & Fl & T'). exists clat, clon, heights, t, l. split; [exact Inf|]. split; [exact Fl|]. intros n f Nf Wn. destruct (T' n f Nf Wn) as (g & G & RD).
    destruct (r_file clat clon cs u as_is f g Lu as_is_valid G) as (b & Sb & Sh). exists b. split; [exact Sb|]. intro Lo. destruct (Sh (Kn Lo)) as (Q & Di & Co & Ne & Be & Ce). cbv zeta. split.
    - intros zoom x y TW. destruct (temperature_tiles chk m Om Am (swiss_run_of t) (Z.of_nat n) tr g zoom x y RD (proj1 TW) Q (Co _ _ _ _ Am TW)) as (img & Fi & W & H & P).
      exists img. split; [apply r_tile; [exact V|auto|exact (proj1 TW)|exact Fi]|]. split; [exact W|]. split; [exact H|].
      intros j i I. destruct (P j i I) as (p & o & c & D & Vn & Px & Cl). exists p, c. split; [exact D|]. split; [exact Px|]. exists o. split; [exact (Ne _ _ Vn)|exact Cl].
    - destruct (temperature_file chk m (swiss_run_of t) (Z.of_nat n) tr g RD Q) as (data & Fd & L). exists data. split; [apply r_bin; [exact V|exact Fd]|].
      rewrite Di in L. revert L. apply laid_out_impl. intros x y rec X Y (o & c & C & Er & Cb). exists o, c. split; [apply Ce; (assumption || lia)|auto].
  Qed.
  Lemma c72_wind_proof : libm_ok m -> libm_accurate m -> named vars Wind10m ->
    exists clat clon heights t lu lv lg, informed chk rfc3339 sv clat clon heights t /\ files_of sv SU10m t lu /\ files_of sv SV10m t lv /\ files_of sv SVmax10m t lg /\
    forall n fu, nth_error lu n = Some fu -> wanted_step steps n -> exists fv fg bu bv bg, nth_error lv n = Some fv /\ nth_error lg n = Some fg /\
      starts_with chk (sv_fetch sv) (ss_href fu) bu /\ starts_with chk (sv_fetch sv) (ss_href fv) bv /\ starts_with chk (sv_fetch sv) (ss_href fg) bg /\ (located powi clat clon ->
      let run := swiss_run_of t in
      (forall zoom x y, swiss_tile run zoom x y -> exists img, holds run (Z.of_nat n) (TileFile Wind10m zoom x y) tr (Png img) /\
         painted zoom x y img (fun p c => exists e v, swiss_near (reported powi clat clon as_is bu) p e /\ swiss_near (reported powi clat clon as_is bv) p v /\ wind_colour e v c)) /\
      exists data, holds run (Z.of_nat n) (BinFile BinWind) tr (Data data) /\
        laid_out 3 1851 847 data (fun x y rec => exists e v gust, reported powi clat clon as_is bu x y e /\ reported powi clat clon as_is bv x y v /\
          reported powi clat clon as_is bg x y gust /\ wind_code e v gust rec)).
  Proof.
    intros Om Am Nm. destruct r_output as (u & heights & t & B & _ & T & _). destruct (r_informed u heights t B) as (clat & clon & cs & Inf & Lu & Kn). pose proof (r_valid u heights t B) as V.
    destruct (T Nm) as (lu & lv & lg & F1 & F2 & F3 & T'). exists clat, clon, heights, t, lu, lv, lg. do 4 (split; [assumption|]). intros n fu Nf Wn.
    destruct (T' n fu Nf Wn) as (fv & fg & gu & gv & gg & Nv & Ng & G1 & G2 & G3 & RD).
    destruct (r_file clat clon cs u as_is fu gu Lu as_is_valid G1) as (b1 & S1 & H1). destruct (r_file clat clon cs u as_is fv gv Lu as_is_valid G2) as (b2 & S2 & H2). destruct (r_file clat clon cs u as_is fg gg Lu as_is_valid G3) as (b3 & S3 & H3).
    exists fv, fg, b1, b2, b3. do 5 (split; [assumption|]). intro Lo. apply Kn in Lo. destruct (H1 Lo) as (Q1 & Di & Co & Ne1 & _ & Ce1). destruct (H2 Lo) as (Q2 & _ & _ & Ne2 & _ & Ce2). destruct (H3 Lo) as (Q3 & _ & _ & _ & _ & Ce3). cbv zeta. split.
    - intros zoom x y TW. destruct (wind_tiles chk m Om Am (swiss_run_of t) (Z.of_nat n) tr _ zoom x y RD (proj1 TW) Q1 Q2 (Co _ _ _ _ Am TW)) as (img & Fi & W & H & P).
      exists img. split; [apply r_tile; [exact V|auto|exact (proj1 TW)|exact Fi]|]. split; [exact W|]. split; [exact H|].
      intros j i I. destruct (P j i I) as (p & e & v & c & D & V1 & V2 & Px & Cl). exists p, c. split; [exact D|]. split; [exact Px|]. exists e, v. split; [exact (Ne1 _ _ V1)|]. split; [exact (Ne2 _ _ V2)|exact Cl].
    - destruct (wind_file chk m (swiss_run_of t) (Z.of_nat n) tr _ RD Q1 Q2) as (data & Fd & L); [intros g Eg; injection Eg as <-; exact Q3|]. exists data. split; [apply r_bin; [exact V|exact Fd]|].
      cbn [wl_zonal wl_meridional wl_gusts cell_value_opt] in L. rewrite Di in L. revert L. apply laid_out_impl. intros x y rec X Y (e & v & gust & C1 & C2 & C3 & Cb). exists e, v, gust.
      split; [apply Ce1; (assumption || lia)|]. split; [apply Ce2; (assumption || lia)|]. split; [apply Ce3; (assumption || lia)|exact Cb].
  Qed.
  Lemma c72_rain_proof : libm_ok m -> libm_accurate m -> named vars CloudPrecip ->
    exists clat clon heights t lc lp le, informed chk rfc3339 sv clat clon heights t /\ files_of sv SClct t lc /\ files_of sv STotPrec t lp /\ files_of sv SCeiling t le /\
    forall n fc, nth_error lc (Datatypes.S n) = Some fc -> wanted_step steps (Datatypes.S n) -> exists f0 f1 fe bc b0 b1 be,
      nth_error lp n = Some f0 /\ nth_error lp (Datatypes.S n) = Some f1 /\ nth_error le (Datatypes.S n) = Some fe /\
      starts_with chk (sv_fetch sv) (ss_href fc) bc /\ starts_with chk (sv_fetch sv) (ss_href f0) b0 /\ starts_with chk (sv_fetch sv) (ss_href f1) b1 /\
      starts_with chk (sv_fetch sv) (ss_href fe) be /\ (located powi clat clon ->
      let run := swiss_run_of t in
      let nr := Z.of_nat (Datatypes.S n) in
      (forall zoom x y, swiss_tile run zoom x y -> exists img, holds run nr (TileFile CloudPrecip zoom x y) tr (Png img) /\
         painted zoom x y img (fun p c => exists o o0 o1, swiss_between (reported powi clat clon hundredth bc) p o /\
           swiss_between (reported powi clat clon as_is b0) p o0 /\ swiss_between (reported powi clat clon as_is b1) p o1 /\ rain_colour o o0 o1 c)) /\
      (exists data, holds run nr (BinFile BinPrecip) tr (Data data) /\
        laid_out 1 1851 847 data (fun x y rec => exists o0 o1 c, reported powi clat clon as_is b0 x y o0 /\ reported powi clat clon as_is b1 x y o1 /\ rec = [c] /\ rain_code o0 o1 c)) /\
      exists data, holds run nr (BinFile BinWeather) tr (Data data) /\
        laid_out 2 1851 847 data (fun x y rec => exists o oc, reported powi clat clon hundredth bc x y o /\ reported powi clat clon as_is be x y oc /\ weather_code None o oc rec)).
  Proof.
    intros Om Am Nm. destruct r_output as (u & heights & t & B & _ & _ & T & _). destruct (r_informed u heights t B) as (clat & clon & cs & Inf & Lu & Kn). pose proof (r_valid u heights t B) as V.
    destruct (T Nm) as (lc & lp & le & F1 & F2 & F3 & T'). exists clat, clon, heights, t, lc, lp, le. do 4 (split; [assumption|]). intros n fc Nf Wn.
    destruct (T' n fc Nf Wn) as (f0 & f1 & fe & gc & g0 & g1 & ge & N0 & N1 & N2 & Gc & G0 & G1 & Ge & RD).
    destruct (r_file clat clon cs u hundredth fc gc Lu hundredth_valid Gc) as (bc & Sc & Hc). destruct (r_file clat clon cs u as_is f0 g0 Lu as_is_valid G0) as (b0 & S0 & H0).
    destruct (r_file clat clon cs u as_is f1 g1 Lu as_is_valid G1) as (b1 & S1 & H1). destruct (r_file clat clon cs u as_is fe ge Lu as_is_valid Ge) as (be & Se & He).
    exists f0, f1, fe, bc, b0, b1, be. do 7 (split; [assumption|]). intro Lo. apply Kn in Lo.
    destruct (Hc Lo) as (Qc & Di & Co & _ & Bec & Cec). destruct (H0 Lo) as (Q0 & _ & _ & _ & Be0 & Ce0). destruct (H1 Lo) as (Q1 & _ & _ & _ & Be1 & Ce1). destruct (He Lo) as (Qe & _ & _ & _ & _ & Cee). cbv zeta. split; [|split].
    - intros zoom x y TW. destruct (rain_tiles chk m Om Am (swiss_run_of t) _ tr _ _ zoom x y RD (proj1 TW) Qc Q0 Q1 (Co _ _ _ _ Am TW)) as (img & Fi & W & H & P).
      exists img. split; [apply r_tile; [exact V|auto|exact (proj1 TW)|exact Fi]|]. split; [exact W|]. split; [exact H|].
      intros j i I. destruct (P j i I) as (p & o & o0 & o1 & c & D & V1 & V2 & V3 & Px & Cl). exists p, c. split; [exact D|]. split; [exact Px|]. exists o, o0, o1.
      split; [exact (Bec _ _ V1)|]. split; [exact (Be0 _ _ V2)|]. split; [exact (Be1 _ _ V3)|exact Cl].
    - destruct (rain_file chk m (swiss_run_of t) _ tr _ _ RD Qc Q0 Q1) as (data & Fd & L). exists data. split; [apply r_bin; [exact V|exact Fd]|].
      cbn [cp_cloud cp_precip0 cp_precip1] in L. rewrite Di in L. revert L. apply laid_out_impl. intros x y rec X Y (o0 & o1 & b & C1 & C2 & Er & Cb). exists o0, o1, b.
      split; [apply Ce0; (assumption || lia)|]. split; [apply Ce1; (assumption || lia)|auto].
    - destruct (weather_file chk m (swiss_run_of t) _ tr _ _ RD Qc Qe) as (data & Fd & L); [intros g Eg; discriminate Eg|]. exists data. split; [apply r_bin; [exact V|exact Fd]|].
      cbn [we_clct we_ceiling we_ww cell_value_opt] in L. rewrite Di in L. revert L. apply laid_out_impl. intros x y rec X Y (o1 & o2 & o3 & C1 & C2 & C3 & Cb). subst o1. exists o2, o3.
      split; [apply Cec; (assumption || lia)|]. split; [apply Cee; (assumption || lia)|exact Cb].
  Qed.
  (** Profiles. *)
  Lemma r_levels clat clon cs u (missing : Z) transform url gs : calc_coord_dist_lookup_map chk (unstructured_new None 1851 847 swiss_area cs) (f32_lit 1 100) = Ok u ->
    level_grids_at chk powi (sv_fetch sv) u missing transform url gs -> gs <> [] ->
    has_levels chk (sv_fetch sv) url (length gs) /\ exists b : nat -> bulletin, (forall k, (k < length gs)%nat -> number_of chk (sv_fetch sv) url (31 + k) (b k)) /\
      (known_stations powi clat clon cs -> Forall complete gs /\ (exists g, hd_error gs = Some g /\ dims g = (1851, 847)) /\
         forall k i j o, (k < length gs)%nat -> 0 <= i -> 0 <= j -> level_cell gs (Z.of_nat k) i j o ->
           exists o', measured powi clat clon (b k) i j o' /\ o = stored missing transform o' /\ forall v, o' = Some v -> f32_valid v).
  Proof.
    intros Lu G Ne. destruct (level_messages chk powi (sv_fetch sv) r_steady r_bytes u missing transform url gs G Ne) as (Hl & b & Hb). split; [exact Hl|]. exists b.
    assert (Hk : forall k, (k < length gs)%nat -> exists g, nth_error gs k = Some g). { intros k Kl. destruct (nth_error gs k) as [g|] eqn:N; [eauto|apply nth_error_None in N; lia]. }
    split; [intros k Kl; destruct (Hk k Kl) as (g & N); exact (proj1 (Hb k g N))|]. intro Kn. split; [|split].
    - apply Forall_forall. intros g J. apply In_nth_error in J. destruct J as (k & N). destruct (Hb k g N) as [[Pb _] Rg]. eapply measured_complete; eassumption.
    - destruct gs as [|g gs]; [congruence|]. exists g. split; [reflexivity|]. destruct (Hb 0%nat g eq_refl) as [[Pb _] Rg]. eapply measured_complete; eassumption.
    - intros k i j o Kl I J (g & N & C). rewrite Nat2Z.id in N. destruct (Hb k g N) as [[Pb _] Rg]. destruct (cell_measured chk powi clat clon cs u Lu Kn missing transform (b k) g i j o Pb Rg I J C) as (o' & Mo & Eo).
      exists o'. split; [exact Mo|]. split; [exact Eo|]. intros v ->. eapply measured_valid; [exact r_powi|exact Pb|exact Mo].
  Qed.
  Lemma c72_vertical_cloud_proof : named vars VerticalCloud ->
    exists clat clon heights t l, informed chk rfc3339 sv clat clon heights t /\ files_of sv SClc t l /\
    forall n f, nth_error l n = Some f -> wanted_step steps n -> exists levels (hs bs : nat -> bulletin),
      has_levels chk (sv_fetch sv) heights levels /\ has_levels chk (sv_fetch sv) (ss_href f) levels /\
      (forall k, (k < levels)%nat -> number_of chk (sv_fetch sv) heights (31 + k) (hs k) /\ number_of chk (sv_fetch sv) (ss_href f) (31 + k) (bs k)) /\ (located powi clat clon ->
      let run := swiss_run_of t in
      exists data, holds run (Z.of_nat n) (BinFile BinVerticalClouds) tr (Data data) /\
        laid_out (2 * Z.of_nat levels) 1851 847 data (fun x y rec => forall k, (k < levels)%nat -> exists o1 o2 a b,
          measured powi clat clon (hs k) x y o1 /\ measured powi clat clon (bs k) x y o2 /\ height_code o1 a /\ cover_code o2 b /\ slice rec (2 * Z.of_nat k) 2 = [a; b])).
  Proof.
    intros Nm. destruct r_output as (u & heights & t & B & _ & _ & _ & T). destruct (r_informed u heights t B) as (clat & clon & cs & Inf & Lu & Kn). pose proof (r_valid u heights t B) as V.
    destruct (T (or_introl Nm)) as (hhl & Gh & T1 & _). destruct (T1 Nm) as (l & Fl & T'). exists clat, clon, heights, t, l. split; [exact Inf|]. split; [exact Fl|]. intros n f Nf Wn.
    destruct (T' n f Nf Wn) as (clc & Gc & Ne & Ll & RD). assert (Ne' : clc <> []) by (intros ->; destruct hhl; [congruence|discriminate Ll]).
    destruct (r_levels clat clon cs u _ _ _ hhl Lu Gh Ne) as (H1 & hs & N1 & L1). destruct (r_levels clat clon cs u _ _ _ clc Lu Gc Ne') as (H2 & bs & N2 & L2).
    exists (length hhl), hs, bs. split; [exact H1|]. split; [rewrite <- Ll; exact H2|]. split; [intros k Kl; split; [apply N1; exact Kl|apply N2; rewrite Ll; exact Kl]|].
    intro Lo. apply Kn in Lo. destruct (L1 Lo) as (C1 & _ & M1). destruct (L2 Lo) as (C2 & (g & Hd & Di) & M2). cbv zeta.
    assert (Vn : vertical_cloud_new hhl clc = Ok {| vc_hhl := hhl; vc_clc := clc |}).
    { unfold vertical_cloud_new, len. rewrite Ll, Z.eqb_refl. assert (Lp : (1 <= length hhl)%nat) by (destruct hhl; [congruence|cbn; lia]). replace (Z.of_nat (length hhl) =? 0) with false by (symmetry; apply Z.eqb_neq; lia). reflexivity. }
    destruct (vertical_cloud_file chk m (swiss_run_of t) (Z.of_nat n) tr hhl clc _ g _ _ (Z.of_nat (length hhl)) RD Vn Hd Di ltac:(lia) ltac:(lia) (f_equal Z.of_nat (eq_sym Ll)) C1 C2) as (data & Fd & L).
    exists data. split; [apply r_bin; [exact V|exact Fd]|]. revert L. apply laid_out_impl. intros x y rec X Y Q k Kl.
    destruct (Q (Z.of_nat k) ltac:(lia)) as (a & b & A & Bb & E). destruct (M1 k x y a Kl ltac:(lia) ltac:(lia) A) as (o1 & R1 & E1 & V1). destruct (M2 k x y b ltac:(rewrite Ll; exact Kl) ltac:(lia) ltac:(lia) Bb) as (o2 & R2 & E2 & V2).
    exists o1, o2, (file_byte a), (file_byte b). split; [exact R1|]. split; [exact R2|]. split; [rewrite E1; apply height_stored; exact V1|]. split; [rewrite E2; apply cover_stored; exact V2|exact E].
  Qed.
  Lemma c72_vertical_wind_proof : named vars VerticalWind ->
    exists clat clon heights t lu lv, informed chk rfc3339 sv clat clon heights t /\ files_of sv SU t lu /\ files_of sv SV t lv /\
    forall n fu, nth_error lu n = Some fu -> wanted_step steps n -> exists fv levels (hs us vs : nat -> bulletin), nth_error lv n = Some fv /\
      has_levels chk (sv_fetch sv) heights levels /\ has_levels chk (sv_fetch sv) (ss_href fu) levels /\ has_levels chk (sv_fetch sv) (ss_href fv) levels /\
      (forall k, (k < levels)%nat -> number_of chk (sv_fetch sv) heights (31 + k) (hs k) /\ number_of chk (sv_fetch sv) (ss_href fu) (31 + k) (us k) /\
         number_of chk (sv_fetch sv) (ss_href fv) (31 + k) (vs k)) /\ (located powi clat clon ->
      let run := swiss_run_of t in
      exists data, holds run (Z.of_nat n) (BinFile BinVerticalWind) tr (Data data) /\
        laid_out (3 * Z.of_nat levels) 1851 847 data (fun x y rec => forall k, (k < levels)%nat -> exists o1 o2 o3 a w,
          measured powi clat clon (hs k) x y o1 /\ measured powi clat clon (us k) x y o2 /\ measured powi clat clon (vs k) x y o3 /\
          height_code o1 a /\ level_wind_code o2 o3 w /\ slice rec (3 * Z.of_nat k) 3 = a :: w)).
  Proof.
    intros Nm. destruct r_output as (u & heights & t & B & _ & _ & _ & T). destruct (r_informed u heights t B) as (clat & clon & cs & Inf & Lu & Kn). pose proof (r_valid u heights t B) as V.
    destruct (T (or_intror Nm)) as (hhl & Gh & _ & T1). destruct (T1 Nm) as (lu & lv & Flu & Flv & T'). exists clat, clon, heights, t, lu, lv. do 3 (split; [assumption|]). intros n fu Nf Wn.
    destruct (T' n fu Nf Wn) as (fv & gu & gv & Nv & Gu & Gv & Ne & Ll & Ll' & RD). assert (Ne1 : gu <> []) by (intros ->; destruct hhl; [congruence|discriminate Ll]). assert (Ne2 : gv <> []) by (intros ->; destruct hhl; [congruence|discriminate Ll']).
    destruct (r_levels clat clon cs u _ _ _ hhl Lu Gh Ne) as (H1 & hs & N1 & L1). destruct (r_levels clat clon cs u _ _ _ gu Lu Gu Ne1) as (H2 & us & N2 & L2). destruct (r_levels clat clon cs u _ _ _ gv Lu Gv Ne2) as (H3 & vs & N3 & L3).
    exists fv, (length hhl), hs, us, vs. split; [exact Nv|]. split; [exact H1|]. split; [rewrite <- Ll; exact H2|]. split; [rewrite <- Ll'; exact H3|].
    split; [intros k Kl; split; [apply N1; exact Kl|split; [apply N2; rewrite Ll; exact Kl|apply N3; rewrite Ll'; exact Kl]]|].
    intro Lo. apply Kn in Lo. destruct (L1 Lo) as (C1 & _ & M1). destruct (L2 Lo) as (C2 & (g & Hd & Di) & M2). destruct (L3 Lo) as (C3 & _ & M3). cbv zeta.
    assert (Vn : vertical_wind_new hhl gu gv = Ok {| vw_hhl := hhl; vw_u := gu; vw_v := gv |}).
    { unfold vertical_wind_new, len. rewrite Ll, Ll', Z.eqb_refl. assert (Lp : (1 <= length hhl)%nat) by (destruct hhl; [congruence|cbn; lia]). replace (Z.of_nat (length hhl) =? 0) with false by (symmetry; apply Z.eqb_neq; lia). reflexivity. }
    destruct (vertical_wind_file chk m (swiss_run_of t) (Z.of_nat n) tr hhl gu gv _ g _ _ (Z.of_nat (length hhl)) RD Vn Hd Di ltac:(lia) ltac:(lia) (f_equal Z.of_nat (eq_sym Ll)) C1 C2 C3) as (data & Fd & L).
    exists data. split; [apply r_bin; [exact V|exact Fd]|]. revert L. apply laid_out_impl. intros x y rec X Y Q k Kl.
    destruct (Q (Z.of_nat k) ltac:(lia)) as (a & b & c & A & Bb & Cc & E). destruct (M1 k x y a Kl ltac:(lia) ltac:(lia) A) as (o1 & R1 & E1 & V1).
    destruct (M2 k x y b ltac:(rewrite Ll; exact Kl) ltac:(lia) ltac:(lia) Bb) as (o2 & R2 & E2 & V2). destruct (M3 k x y c ltac:(rewrite Ll'; exact Kl) ltac:(lia) ltac:(lia) Cc) as (o3 & R3 & E3 & V3).
    exists o1, o2, o3. do 2 eexists. split; [exact R1|]. split; [exact R2|]. split; [exact R3|]. split; [|split; [|exact E]].
    - rewrite E1. apply height_stored. exact V1.
    - unfold U_V_MISSING in E2, E3. rewrite (c57_wind_kept_proof o2 V2) in E2. rewrite (c57_wind_kept_proof o3 V3) in E3. subst b c.
      destruct o2 as [eu|]; [destruct o3 as [ev|]|]; cbn [option_map level_wind_code]; try reflexivity.
      exists (u_v_transform eu), (u_v_transform ev). rewrite !u_v_speed. split; [reflexivity|]. split; apply speed_code; auto.
  Qed.
End Rendering.
