(** Proofs about map tiles (C32-C34). *)
From Coq Require Import ZArith Reals Psatz List Bool Lia Lra Permutation.
From Coq Require Import Floats.SpecFloat.
From Flocq Require Import Core.Core.
From Verif Require Import Base F32 F32Facts Grib2Model GeoModel GeoSpec GeoProofs GeoValueProofs ImagingModel ImagingSpec ImagingProofs
  Par ParFacts TileModel TileSpec.
Import ListNotations.
Open Scope Z_scope.

(** ** C32: every tile exactly once *)
Lemma in_range a b k : In k (range a b) <-> a <= k <= b.
Proof.
  unfold range. rewrite in_map_iff. split.
  - intros (n & <- & I). apply in_seq in I. lia.
  - intro H. exists (Z.to_nat (k - a)). split; [lia|]. apply in_seq. lia.
Qed.
Lemma nodup_range a b : NoDup (range a b).
Proof.
  unfold range. apply FinFun.Injective_map_NoDup; [|apply seq_NoDup]. intros x y H. lia.
Qed.
Section Tiles.
  Context {T : Type} (chk : bool) (m : libm) (e : extent) (value : lat_lon -> outcome (option T)) (color_fn : T -> outcome color).
  Definition corner1 : lat_lon := {| lat := lat (min_coord e); lon := lon (max_coord e) |}.
  Definition corner2 : lat_lon := {| lat := lat (max_coord e); lon := lon (min_coord e) |}.
  Definition places_of (zoom : Z) : list (Z * Z * Z) :=
    match from_position chk m corner1 zoom, from_position chk m corner2 zoom with
    | Ok a, Ok b => flat_map (fun x => flat_map (fun y => [(zoom, x, y)]) (range (Z.min (t_y a) (t_y b)) (Z.max (t_y a) (t_y b))))
                      (range (Z.min (t_x a) (t_x b)) (Z.max (t_x a) (t_x b)))
    | _, _ => []
    end.
  Definition content_ok (s : saved) : Prop :=
    create_single_tile chk m value color_fn {| t_x := s_x s; t_y := s_y s; t_zoom := s_zoom s |} = Ok (s_content s).

  Lemma tile_at_most zoom x y : at_most place (render_tile chk m value color_fn observe zoom x y) [(zoom, x, y)].
  Proof.
    intros tr r R. unfold render_tile in R. destruct (create_single_tile _ _ _ _ _) as [d|?|].
    - destruct R as [-> _]. exists []. reflexivity.
    - destruct R as [-> _]. exists [(zoom, x, y)]. reflexivity.
    - destruct R as [-> _]. exists [(zoom, x, y)]. reflexivity.
  Qed.
  Lemma tile_ok zoom x y tr : render_tile chk m value color_fn observe zoom x y tr (Ok tt) -> map place tr = [(zoom, x, y)].
  Proof.
    unfold render_tile. destruct (create_single_tile _ _ _ _ _) as [d|?|]; intros [-> H]; [reflexivity|discriminate|discriminate].
  Qed.
  Lemma tile_effects zoom x y : effects content_ok (render_tile chk m value color_fn observe zoom x y).
  Proof.
    intros tr r R. unfold render_tile in R. destruct (create_single_tile _ _ _ _ _) as [d|?|] eqn:E; destruct R as [-> _];
      repeat constructor. exact E.
  Qed.
  Lemma zoom_at_most zoom : at_most place (render_zoom chk m e value color_fn observe zoom) (places_of zoom).
  Proof.
    unfold render_zoom, places_of. fold corner1 corner2. destruct (from_position chk m corner1 zoom) as [a|?|]; cbn [p_let];
      [|intros tr r [-> _]; exists []; constructor|intros tr r [-> _]; exists []; constructor].
    destruct (from_position chk m corner2 zoom) as [b|?|]; cbn [p_let];
      [|intros tr r [-> _]; exists []; constructor|intros tr r [-> _]; exists []; constructor].
    apply for_seq_at_most. intros x _. apply for_par_at_most. intros y _. apply tile_at_most.
  Qed.
  Lemma zoom_effects zoom : effects content_ok (render_zoom chk m e value color_fn observe zoom).
  Proof.
    unfold render_zoom. destruct (from_position _ _ _ zoom) as [a|?|]; cbn [p_let]; try (intros tr r [-> _]; constructor).
    destruct (from_position _ _ _ zoom) as [b|?|]; cbn [p_let]; try (intros tr r [-> _]; constructor).
    apply for_seq_effects. intros x _. apply for_par_effects. intros y _. apply tile_effects.
  Qed.
  Lemma map_exact {A E K} (k : E -> K) (R : A -> list E -> Prop) (f : A -> list K) l ts :
    Forall2 R l ts -> (forall a t, In a l -> R a t -> Permutation (map k t) (f a)) -> Permutation (map k (concat ts)) (flat_map f l).
  Proof.
    induction 1 as [|a t l ts S F IH]; intro H; cbn [concat flat_map]; [constructor|]. rewrite map_app.
    apply Permutation_app; [apply H; [now left|exact S]|]. apply IH. intros; apply H; [now right|assumption].
  Qed.
  Lemma zoom_exact zoom tr : render_zoom chk m e value color_fn observe zoom tr (Ok tt) -> Permutation (map place tr) (places_of zoom).
  Proof.
    unfold render_zoom, places_of. fold corner1 corner2. destruct (from_position chk m corner1 zoom) as [a|?|]; cbn [p_let];
      [|intros [_ H]; discriminate|intros [_ H]; discriminate].
    destruct (from_position chk m corner2 zoom) as [b|?|]; cbn [p_let]; [|intros [_ H]; discriminate|intros [_ H]; discriminate].
    intro R. apply for_seq_ok in R. destruct R as (ts & F & ->). eapply map_exact; [exact F|]. cbv beta. intros x t _ R.
    apply for_par_ok in R. destruct R as (us & G & I). rewrite (Permutation_map place (interleaving_perm _ _ I)).
    eapply map_exact; [exact G|]. cbv beta. intros y u _ R. rewrite (tile_ok _ _ _ _ R). reflexivity.
  Qed.
  Lemma in_places zoom z x y : In (z, x, y) (places_of zoom) <-> z = zoom /\ covers chk m e zoom x y.
  Proof.
    unfold places_of, covers. fold corner1 corner2. split.
    - destruct (from_position chk m corner1 zoom) as [a|?|]; [|intros []|intros []].
      destruct (from_position chk m corner2 zoom) as [b|?|]; [|intros []|intros []].
      intro I. apply in_flat_map in I. destruct I as (x' & Ix & I). apply in_flat_map in I. destruct I as (y' & Iy & I).
      cbn in I. destruct I as [I|[]]. injection I as <- <- <-. apply in_range in Ix, Iy. split; [reflexivity|]. exists a, b. unfold between. auto.
    - intros (-> & a & b & -> & -> & Bx & By). apply in_flat_map. exists x. split; [apply in_range, Bx|].
      apply in_flat_map. exists y. split; [apply in_range, By|]. now left.
  Qed.
  Lemma nodup_flat {A B} (f : A -> list B) l : NoDup l -> (forall a, NoDup (f a)) ->
    (forall a b v, In v (f a) -> In v (f b) -> a = b) -> NoDup (flat_map f l).
  Proof.
    intros N F D. induction N as [|a l Ni N IH]; cbn; [constructor|].
    assert (G : forall u v : list B, NoDup u -> NoDup v -> (forall w, In w u -> ~ In w v) -> NoDup (u ++ v)).
    { induction u as [|u0 u IHu]; intros v Nu Nv Dj; [exact Nv|]. inversion Nu; subst. cbn. constructor.
      - rewrite in_app_iff. intros [K|K]; [contradiction|]. apply (Dj u0); [now left|exact K].
      - apply IHu; [assumption|assumption|]. intros w Iw. apply Dj. now right. }
    apply G; [apply F|exact IH|]. intros w I J. apply in_flat_map in J. destruct J as (b & Ib & Jb).
    rewrite (D _ _ _ I Jb) in Ni. contradiction.
  Qed.
  Lemma nodup_places zoom : NoDup (places_of zoom).
  Proof.
    unfold places_of. destruct (from_position chk m corner1 zoom) as [a|?|]; [|constructor|constructor].
    destruct (from_position chk m corner2 zoom) as [b|?|]; [|constructor|constructor].
    apply nodup_flat; [apply nodup_range| |].
    - intro x. apply nodup_flat; [apply nodup_range|repeat constructor; intros []|].
      intros y y' v [<-|[]] [E|[]]. congruence.
    - intros x x' v I J. apply in_flat_map in I, J. destruct I as (? & _ & [<-|[]]). destruct J as (? & _ & [E|[]]). congruence.
  Qed.
  Lemma nodup_all zl zh : NoDup (flat_map places_of (range zl zh)).
  Proof.
    apply nodup_flat; [apply nodup_range|apply nodup_places|]. intros z z' [[? ?] ?] I J. apply in_places in I, J. destruct I as [-> _]. destruct J as [-> _]. reflexivity.
  Qed.
  Lemma in_all zl zh z x y : In (z, x, y) (flat_map places_of (range zl zh)) <-> zl <= z <= zh /\ covers chk m e z x y.
  Proof.
    rewrite in_flat_map. split.
    - intros (z' & I & J). apply in_range in I. apply in_places in J. destruct J as [-> J]. auto.
    - intros [I J]. exists z. split; [apply in_range, I|]. apply in_places. auto.
  Qed.
  Lemma all_ok zl zh tr : create_all_tiles chk m e (zl, zh) value color_fn observe tr (Ok tt) ->
    Permutation (map place tr) (flat_map places_of (range zl zh)).
  Proof.
    intro R. unfold create_all_tiles in R. apply for_seq_ok in R. destruct R as (ts & F & ->). cbn [fst snd] in F.
    eapply map_exact; [exact F|]. cbv beta. intros z t _ R. apply zoom_exact, R.
  Qed.
  Lemma all_any zl zh tr r : create_all_tiles chk m e (zl, zh) value color_fn observe tr r ->
    exists rest, Permutation (map place tr ++ rest) (flat_map places_of (range zl zh)).
  Proof. intro R. exact (for_seq_at_most place _ places_of _ (fun z _ => zoom_at_most z) tr r R). Qed.
  Lemma all_content zl zh tr r : create_all_tiles chk m e (zl, zh) value color_fn observe tr r -> Forall content_ok tr.
  Proof. intro R. exact (for_seq_effects content_ok _ _ (fun z _ => zoom_effects z) tr r R). Qed.
  Lemma from_position_cases p zoom : (exists t, from_position chk m p zoom = Ok t) \/
    from_position chk m p zoom = Panic /\ chk = true /\ 32 <= zoom.
  Proof.
    unfold from_position, pow2_u32, uwrap. destruct (Z.ltb_spec (2 ^ zoom) (2 ^ 32)) as [L|L]; cbn [obind]; [left; eauto|].
    destruct chk; cbn [obind]; [right|left; eauto]. split; [reflexivity|]. split; [reflexivity|].
    destruct (Z_lt_le_dec zoom 32) as [Z|Z]; [|lia]. exfalso.
    destruct (Z_lt_le_dec zoom 0); [rewrite (Z.pow_neg_r 2 zoom) in L by lia; lia|].
    pose proof (Z.pow_lt_mono_r 2 zoom 32 ltac:(lia) ltac:(lia) Z). lia.
  Qed.
  Lemma all_fail zl zh tr r : create_all_tiles chk m e (zl, zh) value color_fn observe tr r -> r <> Ok tt ->
    r = Panic /\ exists z, zl <= z <= zh /\ ((chk = true /\ 32 <= z) \/
      exists x y, covers chk m e z x y /\ forall d, create_single_tile chk m value color_fn {| t_x := x; t_y := y; t_zoom := z |} <> Ok d).
  Proof.
    intros R N. unfold create_all_tiles in R. cbn [fst snd] in R. destruct (for_seq_fail _ _ _ N _ R) as (l1 & z & l2 & _ & t & E & _ & B & _).
    assert (I : zl <= z <= zh). { apply in_range. rewrite E. apply in_or_app. right. now left. }
    assert (G : r = Panic /\ ((chk = true /\ 32 <= z) \/
      exists x y, covers chk m e z x y /\ forall d, create_single_tile chk m value color_fn {| t_x := x; t_y := y; t_zoom := z |} <> Ok d)).
    { unfold render_zoom in B. fold corner1 corner2 in B.
      destruct (from_position_cases corner1 z) as [(a & Ea)|(Ea & C)]; rewrite Ea in B; cbn [p_let] in B; [|destruct B; auto].
      destruct (from_position_cases corner2 z) as [(b & Eb)|(Eb & C)]; rewrite Eb in B; cbn [p_let] in B; [|destruct B; auto].
      destruct (for_seq_fail _ _ _ N _ B) as (k1 & x & k2 & _ & u & Ek & _ & Bx & _).
      assert (Ix : In x (range (Z.min (t_x a) (t_x b)) (Z.max (t_x a) (t_x b)))) by (rewrite Ek; apply in_or_app; right; now left).
      destruct (for_par_fail _ _ _ _ N Bx) as (y & v & Iy & By). apply in_range in Ix, Iy.
      unfold render_tile in By. destruct (create_single_tile _ _ _ _ _) as [d|?|] eqn:Ed; destruct By as [_ ->]; [contradiction| |].
      - split; [reflexivity|]. right. exists x, y. split; [exists a, b; unfold between; auto|]. intros d. congruence.
      - split; [reflexivity|]. right. exists x, y. split; [exists a, b; unfold between; auto|]. intros d. congruence. }
    destruct G as [G1 G2]. split; [exact G1|]. exists z. auto.
  Qed.
  Lemma all_runs zl zh : exists tr r, create_all_tiles chk m e (zl, zh) value color_fn observe tr r.
  Proof.
    unfold create_all_tiles. apply for_seq_runs. intros z _. unfold render_zoom.
    destruct (from_position _ _ _ z) as [a|?|]; cbn [p_let]; [|eexists; eexists; split; reflexivity|eexists; eexists; split; reflexivity].
    destruct (from_position _ _ _ z) as [b|?|]; cbn [p_let]; [|eexists; eexists; split; reflexivity|eexists; eexists; split; reflexivity].
    apply for_seq_runs. intros x _. apply for_par_runs. intros y _. unfold render_tile.
    destruct (create_single_tile _ _ _ _ _) as [d|?|]; eexists; eexists; split; reflexivity.
  Qed.
End Tiles.

(** ** C34: longitudes of tiles *)
Lemma gen_dyadic z k : Z.abs z <= 2 ^ 24 -> 0 <= k <= 149 -> generic_format radix2 fexp32 (IZR z / IZR (2 ^ k)).
Proof.
  intros Hz Hk. destruct (Z.eq_dec k 0) as [->|N].
  - change (2 ^ 0) with 1. unfold Rdiv. rewrite Rinv_1, Rmult_1_r. apply gen_Z. exact Hz.
  - replace (IZR z / IZR (2 ^ k))%R with (F2R (Float radix2 z (- k))); [apply gen_F2R; lia|].
    rewrite F2R_neg_exp by lia. rewrite Z.opp_involutive. reflexivity.
Qed.
Lemma pow2_pos k : 0 <= k -> (0 < IZR (2 ^ k))%R.
Proof. intro H. apply IZR_lt. apply Z.pow_pos_nonneg; lia. Qed.
Lemma dyadic_small z k : 0 <= k -> Z.abs z <= 2 ^ 24 -> (Rabs (IZR z / IZR (2 ^ k)) < big)%R.
Proof.
  intros Hk Hz. assert (P : (1 <= IZR (2 ^ k))%R) by (apply IZR_le; pose proof (Z.pow_pos_nonneg 2 k); lia).
  apply Rle_lt_trans with (IZR (2 ^ 24)); [|eapply Rlt_trans; [|exact big_gt]; apply IZR_lt; lia].
  unfold Rdiv. rewrite Rabs_mult, <- abs_IZR, (Rabs_pos_eq (/ IZR (2 ^ k))) by (left; apply Rinv_0_lt_compat; lra).
  apply Rle_trans with (IZR (Z.abs z) * 1)%R; [|rewrite Rmult_1_r; apply IZR_le; exact Hz].
  apply Rmult_le_compat_l; [apply IZR_le; lia|]. rewrite <- Rinv_1. apply Rinv_le; lra.
Qed.
Lemma exact_dyadic f r z k : rounds_to f r -> r = (IZR z / IZR (2 ^ k))%R -> Z.abs z <= 2 ^ 24 -> 0 <= k <= 149 -> fin f /\ xr f = r.
Proof.
  intros R E Hz Hk. subst r. apply exact_fin; [exact R|apply gen_dyadic; assumption|apply dyadic_small; [lia|assumption]].
Qed.
Lemma pow2_small chk zoom : 0 <= zoom < 32 -> pow2_u32 chk zoom = Ok (2 ^ zoom).
Proof.
  intro H. unfold pow2_u32, uwrap. destruct (Z.ltb_spec (2 ^ zoom) (2 ^ 32)) as [L|L]; [reflexivity|].
  exfalso. pose proof (Z.pow_lt_mono_r 2 zoom 32 ltac:(lia) ltac:(lia) ltac:(lia)). lia.
Qed.
Lemma pow2_le k n : 0 <= k <= n -> 1 <= 2 ^ k <= 2 ^ n.
Proof. intro H. split; [pose proof (Z.pow_pos_nonneg 2 k); lia|apply Z.pow_le_mono_r; lia]. Qed.
Lemma fin_pow2 k : 0 <= k <= 24 -> fin (f32_of_Z (2 ^ k)) /\ xr (f32_of_Z (2 ^ k)) = IZR (2 ^ k).
Proof. intro H. apply fin_Z. pose proof (pow2_le k 24 ltac:(lia)). lia. Qed.
(** The longitude computed for tile column x. *)
Definition column_deg (zoom x : Z) : f32 :=
  fsub (fmul (fdiv (f32_of_Z x) (f32_of_Z (2 ^ zoom))) (f32_of_Z 360)) (f32_of_Z 180).
Lemma column_deg_exact zoom x : 0 <= zoom <= 18 -> 0 <= x <= 2 ^ zoom ->
  fin (column_deg zoom x) /\ xr (column_deg zoom x) = column_lon zoom (IZR x).
Proof.
  intros Hz Hx. pose proof (pow2_le zoom 18 ltac:(lia)) as B. change (2 ^ 18) with 262144 in B.
  pose proof (pow2_pos zoom ltac:(lia)) as P.
  destruct (fin_pow2 zoom ltac:(lia)) as [Fn En]. destruct (fin_Z x ltac:(lia)) as [Fx Ex].
  destruct (fin_Z 360 ltac:(lia)) as [F3 E3]. destruct (fin_Z 180 ltac:(lia)) as [F1 E1].
  assert (D1 : fin (fdiv (f32_of_Z x) (f32_of_Z (2 ^ zoom))) /\ xr (fdiv (f32_of_Z x) (f32_of_Z (2 ^ zoom))) = (IZR x / IZR (2 ^ zoom))%R).
  { apply (exact_dyadic _ _ x zoom); [rewrite <- Ex, <- En; apply fin_div; [exact Fx|exact Fn|rewrite En; lra]|reflexivity|lia|lia]. }
  destruct D1 as [Fd Ed].
  assert (D2 : fin (fmul (fdiv (f32_of_Z x) (f32_of_Z (2 ^ zoom))) (f32_of_Z 360)) /\
     xr (fmul (fdiv (f32_of_Z x) (f32_of_Z (2 ^ zoom))) (f32_of_Z 360)) = (IZR x / IZR (2 ^ zoom) * 360)%R).
  { assert (R : rounds_to (fmul (fdiv (f32_of_Z x) (f32_of_Z (2 ^ zoom))) (f32_of_Z 360)) (IZR x / IZR (2 ^ zoom) * 360)).
    { pose proof (fin_mul _ _ Fd F3) as R. rewrite Ed, E3 in R. exact R. }
    destruct (Z_lt_le_dec zoom 3) as [Z|Z].
    - apply (exact_dyadic _ _ (x * 360) zoom); [exact R|rewrite mult_IZR; field; lra| |lia].
      pose proof (pow2_le zoom 3 ltac:(lia)). lia.
    - apply (exact_dyadic _ _ (x * 45) (zoom - 3)); [exact R| |lia|lia]. rewrite mult_IZR.
      replace (2 ^ zoom) with (2 ^ (zoom - 3) * 8); [|replace 8 with (2 ^ 3) by reflexivity; rewrite <- Z.pow_add_r by lia; f_equal; lia].
      rewrite mult_IZR. pose proof (pow2_pos (zoom - 3) ltac:(lia)). field. lra. }
  destruct D2 as [Fm Em].
  unfold column_deg, column_lon.
  assert (R : rounds_to (fsub (fmul (fdiv (f32_of_Z x) (f32_of_Z (2 ^ zoom))) (f32_of_Z 360)) (f32_of_Z 180)) (IZR x / IZR (2 ^ zoom) * 360 - 180)).
  { pose proof (fin_sub _ _ Fm F1) as R. rewrite Em, E1 in R. exact R. }
  destruct (Z_lt_le_dec zoom 2) as [Z|Z].
  - apply (exact_dyadic _ _ (x * 360 - 180 * 2 ^ zoom) zoom); [exact R|rewrite minus_IZR, !mult_IZR; field; lra| |lia].
    pose proof (pow2_le zoom 2 ltac:(lia)). lia.
  - apply (exact_dyadic _ _ (45 * (2 * x - 2 ^ zoom)) (zoom - 2)); [exact R| |lia|lia]. rewrite mult_IZR, minus_IZR, mult_IZR.
    replace (2 ^ zoom) with (2 ^ (zoom - 2) * 4); [|replace 4 with (2 ^ 2) by reflexivity; rewrite <- Z.pow_add_r by lia; f_equal; lia].
    rewrite mult_IZR. pose proof (pow2_pos (zoom - 2) ltac:(lia)). field. lra.
Qed.
(** The tile column computed for a longitude. *)
Definition column_of (zoom : Z) (lo : f32) : Z :=
  f_to_u32 (ffloor (fmul (fdiv (fadd lo (f32_of_Z 180)) (f32_of_Z 360)) (f32_of_Z (2 ^ zoom)))).
(** Its real value before truncation. *)
Lemma column_of_spec zoom lo : 0 <= zoom <= 24 -> fin lo -> (-180 <= xr lo <= 180)%R ->
  let a := rnd (rnd (xr lo + 180) / 360) in (0 <= a <= 1)%R /\
  column_of zoom lo = Zfloor (a * IZR (2 ^ zoom)) .
Proof.
  intros Hz F B a. destruct (fin_pow2 zoom Hz) as [Fn En]. pose proof (pow2_le zoom 24 Hz) as Bn. pose proof (pow2_pos zoom ltac:(lia)) as Pn.
  destruct (fin_Z 360 ltac:(lia)) as [F3 E3]. destruct (fin_Z 180 ltac:(lia)) as [F1 E1].
  assert (B1 : (0 <= rnd (xr lo + 180) <= 360)%R).
  { split; [rewrite <- rnd_0; apply rnd_mono; lra|]. rewrite <- (rnd_gen 360) by (apply gen_Z; lia). apply rnd_mono. lra. }
  assert (S1 : fin (fadd lo (f32_of_Z 180)) /\ xr (fadd lo (f32_of_Z 180)) = rnd (xr lo + 180)).
  { pose proof (fin_add _ _ F F1) as R. rewrite E1 in R. apply rounds_fin; [exact R|]. lt_big. }
  destruct S1 as [Fa Ea].
  assert (B2 : (0 <= a <= 1)%R).
  { unfold a. split; [rewrite <- rnd_0; apply rnd_mono; lra|]. rewrite <- (rnd_gen 1) by (apply gen_Z; lia). apply rnd_mono. lra. }
  split; [exact B2|].
  assert (S2 : fin (fdiv (fadd lo (f32_of_Z 180)) (f32_of_Z 360)) /\ xr (fdiv (fadd lo (f32_of_Z 180)) (f32_of_Z 360)) = a).
  { pose proof (fin_div _ _ Fa F3) as R. rewrite Ea, E3 in R. apply rounds_fin; [apply R; lra|]. fold a. lt_big. }
  destruct S2 as [Fd Ed].
  (* multiplication by a power of two is exact *)
  assert (G : generic_format radix2 fexp32 (a * IZR (2 ^ zoom))).
  { assert (Ga : generic_format radix2 fexp32 a) by apply gen_rnd.
    rewrite <- Ed in Ga |- *. clear - Fd Hz B2 Ed. set (d := fdiv _ _) in *. destruct Fd as [V Fi].
    destruct d as [s|s| |s mm e] eqn:Q; try discriminate.
    - cbn. rewrite Rmult_0_l. apply generic_format_0.
    - rewrite xr_F2R. pose proof V as V'. unfold f32_valid in V'. cbn in V'. unfold bounded in V'. apply andb_true_iff in V'. destruct V' as [V1 V2].
      unfold canonical_mantissa in V1. apply Zeq_bool_eq in V1. unfold SpecFloat.fexp, emin in V1. rewrite Digits.Zpos_digits2_pos in V1.
      replace (F2R (Float radix2 (cond_Zopp s (Z.pos mm)) e) * IZR (2 ^ zoom))%R with (F2R (Float radix2 (cond_Zopp s (Z.pos mm)) (e + zoom))).
      + apply gen_F2R; [|lia]. assert (Z.pos mm < 2 ^ 24).
        { apply Z.lt_le_trans with (2 ^ Digits.Zdigits radix2 (Z.pos mm)); [|apply Z.pow_le_mono_r; lia].
          apply (Digits.Zdigits_correct radix2 (Z.pos mm)). }
        destruct s; cbn [cond_Zopp]; lia.
      + unfold F2R. cbn [Fnum Fexp]. rewrite bpow_plus, <- (IZR_Zpower radix2 zoom) by lia. change (Zpower radix2 zoom) with (2 ^ zoom).
        change (radix_val radix2 ^ zoom) with (2 ^ zoom). ring. }
  assert (Bm : (0 <= a * IZR (2 ^ zoom) <= IZR (2 ^ 24))%R).
  { split; [apply Rmult_le_pos; lra|]. apply Rle_trans with (1 * IZR (2 ^ zoom))%R; [apply Rmult_le_compat_r; lra|]. rewrite Rmult_1_l. apply IZR_le. lia. }
  assert (S3 : fin (fmul (fdiv (fadd lo (f32_of_Z 180)) (f32_of_Z 360)) (f32_of_Z (2 ^ zoom))) /\
     xr (fmul (fdiv (fadd lo (f32_of_Z 180)) (f32_of_Z 360)) (f32_of_Z (2 ^ zoom))) = (a * IZR (2 ^ zoom))%R).
  { pose proof (fin_mul _ _ Fd Fn) as R. rewrite Ed, En in R. apply exact_fin; [exact R|exact G|].
    rewrite Rabs_pos_eq by lra. eapply Rle_lt_trans; [apply Bm|]. eapply Rlt_trans; [|exact big_gt]. apply IZR_lt. lia. }
  destruct S3 as [Fm Em]. unfold column_of.
  destruct (f_integral_num sf_floor Zfloor _ floor_part (fin_num _ Fm)) as (Nf & D & _).
  specialize (D (proj2 Fm)). unfold f_to_u32, ffloor. rewrite f_to_int_xr; [|apply Nf|apply Nf|lia|lia]. rewrite D, Ztrunc_IZR, Em.
  assert (0 <= Zfloor (a * IZR (2 ^ zoom))) by (apply Zfloor_lub; apply Bm).
  assert (Zfloor (a * IZR (2 ^ zoom)) <= 2 ^ 24). { apply le_IZR. eapply Rle_trans; [apply Zfloor_lb|apply Bm]. }
  lia.
Qed.
Lemma column_lon_bounds zoom x : 0 <= zoom -> (0 <= x <= IZR (2 ^ zoom))%R -> (-180 <= column_lon zoom x <= 180)%R.
Proof.
  intros Hz Hx. pose proof (pow2_pos zoom Hz) as P. unfold column_lon.
  assert (0 <= x / IZR (2 ^ zoom))%R by (apply Rmult_le_pos; [lra|left; apply Rinv_0_lt_compat; lra]).
  assert (x / IZR (2 ^ zoom) <= 1)%R. { apply Rmult_le_reg_r with (IZR (2 ^ zoom)); [exact P|]. unfold Rdiv. rewrite Rmult_assoc, Rinv_l by lra. lra. }
  lra.
Qed.
Lemma gen_column zoom x : 0 <= zoom <= 18 -> 0 <= x <= 2 ^ zoom -> generic_format radix2 fexp32 (IZR x / IZR (2 ^ zoom) * 360).
Proof.
  intros Hz Hx. pose proof (pow2_le zoom 18 ltac:(lia)) as B. change (2 ^ 18) with 262144 in B. pose proof (pow2_pos zoom ltac:(lia)) as P.
  destruct (Z_lt_le_dec zoom 3) as [Z|Z].
  - replace (IZR x / IZR (2 ^ zoom) * 360)%R with (IZR (x * 360) / IZR (2 ^ zoom))%R by (rewrite mult_IZR; field; lra).
    apply gen_dyadic; [|lia]. pose proof (pow2_le zoom 3 ltac:(lia)). lia.
  - replace (IZR x / IZR (2 ^ zoom) * 360)%R with (IZR (x * 45) / IZR (2 ^ (zoom - 3)))%R; [apply gen_dyadic; lia|]. rewrite mult_IZR.
    replace (2 ^ zoom) with (2 ^ (zoom - 3) * 8); [|replace 8 with (2 ^ 3) by reflexivity; rewrite <- Z.pow_add_r by lia; f_equal; lia].
    rewrite mult_IZR. pose proof (pow2_pos (zoom - 3) ltac:(lia)). field. lra.
Qed.
Lemma column_back zoom x lo : 0 <= zoom <= 18 -> 0 <= x <= 2 ^ zoom -> fin lo -> xr lo = column_lon zoom (IZR x) -> column_of zoom lo = x.
Proof.
  intros Hz Hx F E. pose proof (pow2_pos zoom ltac:(lia)) as P.
  pose proof (column_lon_bounds zoom (IZR x) ltac:(lia) ltac:(split; apply IZR_le; lia)) as B. rewrite <- E in B.
  destruct (column_of_spec zoom lo ltac:(lia) F B) as [_ ->]. rewrite E. unfold column_lon.
  replace (IZR x / IZR (2 ^ zoom) * 360 - 180 + 180)%R with (IZR x / IZR (2 ^ zoom) * 360)%R by ring.
  rewrite (rnd_gen _ (gen_column zoom x Hz Hx)).
  replace (IZR x / IZR (2 ^ zoom) * 360 / 360)%R with (IZR x / IZR (2 ^ zoom))%R by (field; lra).
  pose proof (pow2_le zoom 18 ltac:(lia)). rewrite rnd_gen by (apply gen_dyadic; lia).
  replace (IZR x / IZR (2 ^ zoom) * IZR (2 ^ zoom))%R with (IZR x) by (field; lra). apply Zfloor_IZR.
Qed.
Lemma column_mono zoom a b : 0 <= zoom <= 24 -> fin a -> fin b -> (-180 <= xr a)%R -> (xr a <= xr b)%R -> (xr b <= 180)%R ->
  column_of zoom a <= column_of zoom b.
Proof.
  intros Hz Fa Fb H1 H2 H3. pose proof (pow2_pos zoom ltac:(lia)) as P.
  destruct (column_of_spec zoom a Hz Fa ltac:(lra)) as [_ ->]. destruct (column_of_spec zoom b Hz Fb ltac:(lra)) as [_ ->].
  apply Zfloor_le. apply Rmult_le_compat_r; [lra|]. apply rnd_mono. apply Rmult_le_compat_r; [lra|]. apply rnd_mono. lra.
Qed.
Lemma column_range zoom a : 0 <= zoom <= 24 -> fin a -> (-180 <= xr a <= 180)%R -> 0 <= column_of zoom a <= 2 ^ zoom.
Proof.
  intros Hz Fa H. pose proof (pow2_pos zoom ltac:(lia)) as P. destruct (column_of_spec zoom a Hz Fa H) as [B ->].
  split; [apply Zfloor_lub, Rmult_le_pos; lra|]. apply le_IZR. eapply Rle_trans; [apply Zfloor_lb|].
  rewrite <- (Rmult_1_l (IZR (2 ^ zoom))) at 2. apply Rmult_le_compat_r; lra.
Qed.
Lemma bpow_m15 : bpow radix2 (-15) = (/ 32768)%R. Proof. cbn. lra. Qed.
Lemma bpow_m150 : (0 <= bpow radix2 (-150) <= / 1073741824 / 1073741824)%R.
Proof.
  split; [apply bpow_ge_0|]. apply Rle_trans with (bpow radix2 (-60)); [apply bpow_le; lia|].
  replace (-60) with (-30 + -30) by lia. rewrite bpow_plus. cbn. lra.
Qed.
(** Rounding errors of the column computation, relative to one tile column. *)
Lemma column_err lo : (-180 <= xr lo <= 180)%R -> (Rabs (rnd (rnd (xr lo + 180) / 360) - (xr lo + 180) / 360) <= 2 * ulp_half + / 1000000000)%R.
Proof.
  intro B. pose proof ulp_half_val as U. pose proof bpow_m150 as Z.
  pose proof (rnd_err (xr lo + 180)) as E1. set (s := rnd (xr lo + 180)) in *. rewrite (Rabs_pos_eq (xr lo + 180)) in E1 by lra.
  assert (S : (0 <= s <= 360)%R).
  { unfold s. split; [rewrite <- rnd_0; apply rnd_mono; lra|]. rewrite <- (rnd_gen 360) by (apply gen_Z; lia). apply rnd_mono. lra. }
  pose proof (rnd_err (s / 360)) as E2. rewrite (Rabs_pos_eq (s / 360)) in E2 by lra.
  apply Rabs_le_inv in E1. apply Rabs_le_inv in E2. apply Rabs_le. rewrite U in *. lra.
Qed.
Lemma column_cell zoom x lo : 0 <= zoom <= 18 -> 0 <= x < 2 ^ zoom -> fin lo ->
  (column_lon zoom (IZR x) <= xr lo <= column_lon zoom (IZR x + 1) - / 16384)%R -> column_of zoom lo = x.
Proof.
  intros Hz Hx F H. pose proof (pow2_pos zoom ltac:(lia)) as P.
  pose proof (column_lon_bounds zoom (IZR x) ltac:(lia) ltac:(split; apply IZR_le; lia)) as B0.
  assert (Bx : (0 <= IZR x + 1 <= IZR (2 ^ zoom))%R) by (rewrite <- plus_IZR; split; apply IZR_le; lia).
  pose proof (column_lon_bounds zoom (IZR x + 1) ltac:(lia) Bx) as B1.
  assert (B : (-180 <= xr lo <= 180)%R) by lra.
  apply Z.le_antisymm.
  - destruct (column_of_spec zoom lo ltac:(lia) F B) as [_ ->]. pose proof (column_err lo B) as E. apply Rabs_le_inv in E.
    set (a := rnd (rnd (xr lo + 180) / 360)) in *. rewrite ulp_half_val in E.
    assert (A : (a < (IZR x + 1) / IZR (2 ^ zoom))%R).
    { apply Rle_lt_trans with ((xr lo + 180) / 360 + (2 * / 16777216 + / 1000000000))%R; [lra|].
      apply Rle_lt_trans with ((column_lon zoom (IZR x + 1) - / 16384 + 180) / 360 + (2 * / 16777216 + / 1000000000))%R; [lra|].
      unfold column_lon. lra. }
    assert (L : (IZR (Zfloor (a * IZR (2 ^ zoom))) < IZR (x + 1))%R).
    { eapply Rle_lt_trans; [apply Zfloor_lb|]. rewrite plus_IZR.
      replace (IZR x + 1)%R with ((IZR x + 1) / IZR (2 ^ zoom) * IZR (2 ^ zoom))%R by (field; lra). apply Rmult_lt_compat_r; assumption. }
    apply lt_IZR in L. lia.
  - destruct (column_deg_exact zoom x Hz ltac:(lia)) as [Fd Ed].
    rewrite <- (column_back zoom x (column_deg zoom x) Hz ltac:(lia) Fd Ed) at 1. apply column_mono; [lia|exact Fd|exact F| | |]; lra.
Qed.
Lemma column_last zoom lo : 0 <= zoom <= 24 -> fin lo -> (-180 <= xr lo <= 180 - / 32768)%R -> column_of zoom lo <= 2 ^ zoom - 1.
Proof.
  intros Hz F B. pose proof (pow2_pos zoom ltac:(lia)) as P. destruct (column_of_spec zoom lo ltac:(lia) F ltac:(lra)) as [[_ A1] ->].
  assert (G : generic_format radix2 fexp32 (IZR 11796479 / IZR (2 ^ 15))) by (apply gen_dyadic; lia). change (2 ^ 15) with 32768 in G.
  assert (S : (rnd (xr lo + 180) <= 11796479 / 32768)%R) by (rewrite <- (rnd_gen _ G); apply rnd_mono; lra).
  set (a := rnd (rnd (xr lo + 180) / 360)) in *.
  assert (N : (a < 1)%R).
  { assert (A0 : (a <= rnd (11796479 / 32768 / 360))%R) by (apply rnd_mono; lra).
    pose proof (rnd_err (11796479 / 32768 / 360)) as E. rewrite (Rabs_pos_eq (11796479 / 32768 / 360)) in E by lra. rewrite ulp_half_val in E.
    pose proof bpow_m150. apply Rabs_le_inv in E. lra. }
  assert (L : (IZR (Zfloor (a * IZR (2 ^ zoom))) < IZR (2 ^ zoom))%R).
  { eapply Rle_lt_trans; [apply Zfloor_lb|]. rewrite <- (Rmult_1_l (IZR (2 ^ zoom))) at 2. apply Rmult_lt_compat_r; assumption. }
  apply lt_IZR in L. lia.
Qed.
Lemma to_position_lon chk m x y zoom : 0 <= zoom < 32 -> exists p, to_position chk m {| t_x := x; t_y := y; t_zoom := zoom |} = Ok p /\ lon p = column_deg zoom x.
Proof. intro H. unfold to_position. cbn [t_zoom t_x t_y]. rewrite pow2_small by exact H. cbn [obind]. eexists. split; reflexivity. Qed.
Lemma from_position_col chk m p zoom : 0 <= zoom < 32 -> exists t, from_position chk m p zoom = Ok t /\ t_x t = column_of zoom (lon p) /\ t_zoom t = zoom /\ 0 <= t_y t < 2 ^ 32.
Proof.
  intro H. unfold from_position. rewrite pow2_small by exact H. cbn [obind]. eexists. split; [reflexivity|]. split; [reflexivity|].
  split; [reflexivity|]. cbn [t_y]. unfold f_to_u32. match goal with |- context [f_to_int ?a ?b ?c] => pose proof (f_to_int_range a b c ltac:(lia)) end. lia.
Qed.

(** Rows: from north to south. *)
Definition row_deg (m : libm) (zoom y : Z) : f32 :=
  to_degrees (m_atan m (m_sinh m (fmul PI32 (fsub (f32_of_Z 1) (fdiv (fmul (f32_of_Z 2) (f32_of_Z y)) (f32_of_Z (2 ^ zoom))))))).
Lemma to_position_eq chk m x y zoom : 0 <= zoom < 32 ->
  to_position chk m {| t_x := x; t_y := y; t_zoom := zoom |} = Ok {| lat := row_deg m zoom y; lon := column_deg zoom x |}.
Proof. intro H. unfold to_position. cbn [t_zoom t_x t_y]. rewrite pow2_small by exact H. reflexivity. Qed.

(** ** C33: pixels *)
Lemma tile_row_spec {T} chk (value : lat_lon -> outcome (option T)) color_fn la lon0 lon_inc i js :
  let pos j := lat_lon_new la (fadd lon0 (fmul (f32_of_Z j) lon_inc)) in
  NoDup js -> forall d, drawable_ok d -> (forall j, In j js -> inside (d_w d) (d_h d) j i) ->
  (forall j, In j js -> pixel d j i = Some COLOR_TRANSPARENT) ->
  match tile_row chk value color_fn la lon0 lon_inc d i js with
  | Ok d' => drawable_ok d' /\ same_size d d' /\
      (forall j, In j js -> exists c, colour_at value color_fn (pos j) = Ok c /\ pixel d' j i = Some c) /\
      (forall x y, ~ (y = i /\ In x js) -> pixel d' x y = pixel d x y)
  | Err e => exists j, In j js /\ colour_at value color_fn (pos j) = Err e
  | Panic => exists j, In j js /\ colour_at value color_fn (pos j) = Panic
  end.
Proof.
  intro pos. induction js as [|j js IH]; intros N d K I Tr; cbn [tile_row].
  - split; [exact K|]. split; [split; reflexivity|]. split; [intros j []|]. reflexivity.
  - fold (pos j). inversion N as [|? ? Nj N']; subst.
    assert (Step : forall d1, drawable_ok d1 -> same_size d d1 ->
      (exists c, colour_at value color_fn (pos j) = Ok c /\ pixel d1 j i = Some c) ->
      (forall x y, ~ (y = i /\ x = j) -> pixel d1 x y = pixel d x y) ->
      match tile_row chk value color_fn la lon0 lon_inc d1 i js with
      | Ok d' => drawable_ok d' /\ same_size d d' /\
          (forall k, In k (j :: js) -> exists c, colour_at value color_fn (pos k) = Ok c /\ pixel d' k i = Some c) /\
          (forall x y, ~ (y = i /\ In x (j :: js)) -> pixel d' x y = pixel d x y)
      | Err e => exists k, In k (j :: js) /\ colour_at value color_fn (pos k) = Err e
      | Panic => exists k, In k (j :: js) /\ colour_at value color_fn (pos k) = Panic
      end).
    { intros d1 K1 [W1 H1] (c & Ec & Pc) Fr1. specialize (IH N' d1 K1).
      assert (I1 : forall k, In k js -> inside (d_w d1) (d_h d1) k i) by (intros k J; rewrite W1, H1; apply I; now right).
      assert (T1 : forall k, In k js -> pixel d1 k i = Some COLOR_TRANSPARENT).
      { intros k J. rewrite Fr1; [apply Tr; now right|]. intros [_ ->]. contradiction. }
      specialize (IH I1 T1). destruct (tile_row _ _ _ _ _ _ d1 i js) as [d'|e'|].
      - destruct IH as (K' & [W' H'] & At & Fr). split; [exact K'|]. split; [split; congruence|]. split.
        + intros k [<-|J]; [|apply At, J]. exists c. split; [exact Ec|]. rewrite Fr; [exact Pc|]. intros [_ J]. contradiction.
        + intros x y Q. rewrite Fr; [apply Fr1|]; intros [-> J]; apply Q; split; auto; [subst; now left|now right].
      - destruct IH as (k & J & E). exists k. split; [now right|exact E].
      - destruct IH as (k & J & E). exists k. split; [now right|exact E]. }
    destruct (value (pos j)) as [[v|]|e|] eqn:Ev; cbn [obind].
    + destruct (color_fn v) as [c|e|] eqn:Ec; cbn [obind].
      * destruct (draw_point_spec chk d j i c K (I j (or_introl eq_refl))) as (d1 & -> & K1 & S1 & P1 & F1). cbn [obind].
        apply Step; [exact K1|exact S1| |].
        -- exists c. unfold colour_at. rewrite Ev. cbn [obind]. auto.
        -- intros x y Q. apply F1. intro E. apply Q. split; congruence.
      * exists j. split; [now left|]. unfold colour_at. rewrite Ev. exact Ec.
      * exists j. split; [now left|]. unfold colour_at. rewrite Ev. exact Ec.
    + apply Step; [exact K|split; reflexivity| |reflexivity].
      exists COLOR_TRANSPARENT. unfold colour_at. rewrite Ev. split; [reflexivity|]. apply Tr. now left.
    + exists j. split; [now left|]. unfold colour_at. rewrite Ev. reflexivity.
    + exists j. split; [now left|]. unfold colour_at. rewrite Ev. reflexivity.
Qed.
Lemma seq_Z n k : In k (map Z.of_nat (seq 0 n)) <-> 0 <= k < Z.of_nat n.
Proof.
  rewrite in_map_iff. split; [intros (a & <- & J); apply in_seq in J; lia|].
  intro H. exists (Z.to_nat k). split; [lia|]. apply in_seq. lia.
Qed.
Lemma nodup_seq_Z n : NoDup (map Z.of_nat (seq 0 n)).
Proof. apply FinFun.Injective_map_NoDup; [intros x y H; lia|apply seq_NoDup]. Qed.
Lemma tile_rows_spec {T} chk (value : lat_lon -> outcome (option T)) color_fn lat0 lat_inc lon0 lon_inc is :
  let pos j i := lat_lon_new (fadd lat0 (fmul (f32_of_Z i) lat_inc)) (fadd lon0 (fmul (f32_of_Z j) lon_inc)) in
  NoDup is -> forall d, drawable_ok d -> d_w d = 256 -> d_h d = 256 -> (forall i, In i is -> 0 <= i < 256) ->
  (forall j i, In i is -> 0 <= j < 256 -> pixel d j i = Some COLOR_TRANSPARENT) ->
  match tile_rows chk value color_fn lat0 lat_inc lon0 lon_inc d is with
  | Ok d' => drawable_ok d' /\ same_size d d' /\
      (forall j i, In i is -> 0 <= j < 256 -> exists c, colour_at value color_fn (pos j i) = Ok c /\ pixel d' j i = Some c) /\
      (forall x y, ~ In y is -> pixel d' x y = pixel d x y)
  | Err e => exists j i, In i is /\ 0 <= j < 256 /\ colour_at value color_fn (pos j i) = Err e
  | Panic => exists j i, In i is /\ 0 <= j < 256 /\ colour_at value color_fn (pos j i) = Panic
  end.
Proof.
  intro pos. induction is as [|i is IH]; intros N d K W H I Tr; cbn [tile_rows].
  - split; [exact K|]. split; [split; reflexivity|]. split; [intros j i []|]. reflexivity.
  - inversion N as [|? ? Ni N']; subst. set (js := map Z.of_nat (seq 0 (Z.to_nat TILE_SIZE_PX))).
    assert (J : forall j, In j js <-> 0 <= j < 256) by (intro j; unfold js; rewrite seq_Z; change (Z.of_nat (Z.to_nat TILE_SIZE_PX)) with 256; reflexivity).
    pose proof (tile_row_spec chk value color_fn (fadd lat0 (fmul (f32_of_Z i) lat_inc)) lon0 lon_inc i js (nodup_seq_Z _) d K) as R.
    specialize (I i (or_introl eq_refl)) as Ii.
    assert (R1 : forall j, In j js -> inside (d_w d) (d_h d) j i) by (intros j Ij; apply J in Ij; rewrite W, H; unfold inside; lia).
    assert (R2 : forall j, In j js -> pixel d j i = Some COLOR_TRANSPARENT) by (intros j Ij; apply Tr; [now left|apply J, Ij]).
    specialize (R R1 R2). destruct (tile_row _ _ _ _ _ _ d i js) as [d1|e|]; cbn [obind].
    + destruct R as (K1 & [W1 H1] & At & Fr). specialize (IH N' d1 K1 ltac:(congruence) ltac:(congruence) (fun k Q => I k (or_intror Q))).
      assert (T1 : forall j k, In k is -> 0 <= j < 256 -> pixel d1 j k = Some COLOR_TRANSPARENT).
      { intros j k Q Qj. rewrite Fr; [apply Tr; [now right|exact Qj]|]. intros [-> _]. contradiction. }
      specialize (IH T1). destruct (tile_rows _ _ _ _ _ _ _ d1 is) as [d'|e|].
      * destruct IH as (K' & [W' H'] & At' & Fr'). split; [exact K'|]. split; [split; congruence|]. split.
        -- intros j k [<-|Q] Qj; [|apply At'; assumption]. destruct (At j) as (c & Ec & Pc); [apply J, Qj|]. exists c. split; [exact Ec|]. rewrite Fr' by exact Ni. exact Pc.
        -- intros x y Q. rewrite Fr' by (intro; apply Q; now right). apply Fr. intros [-> _]. apply Q. now left.
      * destruct IH as (j & k & Q & Qj & E). exists j, k. split; [now right|auto].
      * destruct IH as (j & k & Q & Qj & E). exists j, k. split; [now right|auto].
    + destruct R as (j & Q & E). exists j, i. split; [now left|]. split; [apply J, Q|exact E].
    + destruct R as (j & Q & E). exists j, i. split; [now left|]. split; [apply J, Q|exact E].
Qed.
(** The position of pixel (j,i) of a tile. *)
Definition pixel_pos (m : libm) (zoom x y j i : Z) : lat_lon :=
  let lat0 := row_deg m zoom y in let lat1 := row_deg m zoom (y + 1) in
  let lon0 := column_deg zoom x in let lon1 := column_deg zoom (x + 1) in
  lat_lon_new (fadd lat0 (fmul (f32_of_Z i) (fdiv (fsub lat1 lat0) (f32_of_Z 256))))
              (fadd lon0 (fmul (f32_of_Z j) (fdiv (fsub lon1 lon0) (f32_of_Z 256)))).
Lemma single_tile_spec {T} chk m (value : lat_lon -> outcome (option T)) color_fn zoom x y :
  0 <= zoom < 32 -> 0 <= x < 2 ^ 32 - 1 -> 0 <= y < 2 ^ 32 - 1 ->
  match create_single_tile chk m value color_fn {| t_x := x; t_y := y; t_zoom := zoom |} with
  | Ok d => drawable_ok d /\ d_w d = 256 /\ d_h d = 256 /\
      (forall j i, inside 256 256 j i -> exists c, colour_at value color_fn (pixel_pos m zoom x y j i) = Ok c /\ pixel d j i = Some c)
  | Err e => exists j i, inside 256 256 j i /\ colour_at value color_fn (pixel_pos m zoom x y j i) = Err e
  | Panic => exists j i, inside 256 256 j i /\ colour_at value color_fn (pixel_pos m zoom x y j i) = Panic
  end.
Proof.
  intros Hz Hx Hy. unfold create_single_tile.
  destruct (create_empty_spec chk TILE_SIZE_PX TILE_SIZE_PX) as (d0 & -> & K0 & W0 & H0 & T0); [unfold size_ok, TILE_SIZE_PX; lia|]. cbn [obind].
  rewrite to_position_eq by exact Hz. cbn [obind t_x t_y t_zoom]. unfold uwrap.
  destruct (Z.ltb_spec (x + 1) (2 ^ 32)); [|lia]. cbn [obind]. destruct (Z.ltb_spec (y + 1) (2 ^ 32)); [|lia]. cbn [obind].
  rewrite to_position_eq by exact Hz. cbn [obind lat lon]. change TILE_SIZE_PX with 256 in *.
  set (is := map Z.of_nat (seq 0 (Z.to_nat 256))).
  assert (J : forall j, In j is <-> 0 <= j < 256) by (intro j; unfold is; rewrite seq_Z; change (Z.of_nat (Z.to_nat 256)) with 256; reflexivity).
  pose proof (tile_rows_spec chk value color_fn (row_deg m zoom y) (fdiv (fsub (row_deg m zoom (y + 1)) (row_deg m zoom y)) (f32_of_Z 256))
    (column_deg zoom x) (fdiv (fsub (column_deg zoom (x + 1)) (column_deg zoom x)) (f32_of_Z 256)) is (nodup_seq_Z _) d0 K0 W0 H0) as R.
  specialize (R (fun i Q => proj1 (J i) Q)).
  assert (R1 : forall j i, In i is -> 0 <= j < 256 -> pixel d0 j i = Some COLOR_TRANSPARENT) by (intros j i Q Qj; apply T0; split; [exact Qj|apply J, Q]).
  specialize (R R1). destruct (tile_rows _ _ _ _ _ _ _ d0 is) as [d|e|].
  - destruct R as (K & [W H'] & At & _). split; [exact K|]. split; [congruence|]. split; [congruence|].
    intros j i [Qj Qi]. apply (At j i); [apply J, Qi|exact Qj].
  - destruct R as (j & i & Q & Qj & E). exists j, i. split; [split; [exact Qj|apply J, Q]|exact E].
  - destruct R as (j & i & Q & Qj & E). exists j, i. split; [split; [exact Qj|apply J, Q]|exact E].
Qed.
Lemma pixel_lon m zoom x y j i : 0 <= zoom <= 10 -> 0 <= x < 2 ^ zoom -> 0 <= j < 256 ->
  fin (lon (pixel_pos m zoom x y j i)) /\ xr (lon (pixel_pos m zoom x y j i)) = column_lon zoom (IZR x + IZR j / 256).
Proof.
  intros Hz Hx Hj. unfold pixel_pos, lat_lon_new. cbn [lon].
  destruct (column_deg_exact zoom x ltac:(lia) ltac:(lia)) as [F0 E0].
  destruct (column_deg_exact zoom (x + 1) ltac:(lia) ltac:(lia)) as [F1 E1].
  destruct (fin_Z 256 ltac:(lia)) as [F2 E2]. destruct (fin_Z j ltac:(lia)) as [Fj Ej].
  pose proof (pow2_le zoom 10 ltac:(lia)) as B. change (2 ^ 10) with 1024 in B. pose proof (pow2_pos zoom ltac:(lia)) as P.
  set (lon0 := column_deg zoom x) in *. set (lon1 := column_deg zoom (x + 1)) in *.
  assert (S1 : fin (fsub lon1 lon0) /\ xr (fsub lon1 lon0) = (360 / IZR (2 ^ zoom))%R).
  { pose proof (fin_sub _ _ F1 F0) as R. rewrite E0, E1 in R.
    replace (column_lon zoom (IZR (x + 1)) - column_lon zoom (IZR x))%R with (360 / IZR (2 ^ zoom))%R in R.
    - apply (exact_dyadic _ _ 360 zoom); [exact R|reflexivity|lia|lia].
    - unfold column_lon. rewrite plus_IZR. field. lra. }
  destruct S1 as [Fs Es].
  assert (S2 : fin (fdiv (fsub lon1 lon0) (f32_of_Z 256)) /\ xr (fdiv (fsub lon1 lon0) (f32_of_Z 256)) = (360 / IZR (2 ^ zoom) / 256)%R).
  { pose proof (fin_div _ _ Fs F2 ltac:(rewrite E2; lra)) as R. rewrite Es, E2 in R.
    apply (exact_dyadic _ _ 360 (zoom + 8)); [exact R| |lia|lia]. rewrite Z.pow_add_r by lia. rewrite mult_IZR. change (IZR (2 ^ 8)) with 256%R. field. lra. }
  destruct S2 as [Fi Ei].
  assert (S3 : fin (fmul (f32_of_Z j) (fdiv (fsub lon1 lon0) (f32_of_Z 256))) /\
    xr (fmul (f32_of_Z j) (fdiv (fsub lon1 lon0) (f32_of_Z 256))) = (IZR j * (360 / IZR (2 ^ zoom) / 256))%R).
  { pose proof (fin_mul _ _ Fj Fi) as R. rewrite Ej, Ei in R.
    apply (exact_dyadic _ _ (j * 360) (zoom + 8)); [exact R| |lia|lia]. rewrite Z.pow_add_r by lia. rewrite !mult_IZR. change (IZR (2 ^ 8)) with 256%R. field. lra. }
  destruct S3 as [Fm Em].
  set (lo := fadd lon0 (fmul (f32_of_Z j) (fdiv (fsub lon1 lon0) (f32_of_Z 256)))).
  assert (S4 : fin lo /\ xr lo = column_lon zoom (IZR x + IZR j / 256)).
  { pose proof (fin_add _ _ F0 Fm) as R. rewrite E0, Em in R. fold lo in R.
    replace (column_lon zoom (IZR x) + IZR j * (360 / IZR (2 ^ zoom) / 256))%R with (column_lon zoom (IZR x + IZR j / 256)) in R.
    2:{ unfold column_lon. field. lra. }
    apply (exact_dyadic _ _ (45 * (2 * (256 * x + j) - 2 ^ (zoom + 8))) (zoom + 6)); [exact R| | |lia].
    - unfold column_lon. rewrite mult_IZR, minus_IZR, mult_IZR, plus_IZR, mult_IZR. rewrite !Z.pow_add_r by lia. rewrite !mult_IZR.
      change (IZR (2 ^ 8)) with 256%R. change (IZR (2 ^ 6)) with 64%R. field. lra.
    - rewrite Z.pow_add_r by lia. change (2 ^ 8) with 256. lia. }
  destruct S4 as [Fl El]. rewrite normalize_id; [auto|exact Fl|]. rewrite El. unfold column_lon.
  assert (0 <= IZR x)%R by (apply IZR_le; lia). assert (0 <= IZR j <= 255)%R by (split; apply IZR_le; lia).
  assert (IZR x + 1 <= IZR (2 ^ zoom))%R by (rewrite <- plus_IZR; apply IZR_le; lia).
  assert (0 <= (IZR x + IZR j / 256) / IZR (2 ^ zoom))%R by (apply Rmult_le_pos; [lra|left; apply Rinv_0_lt_compat; lra]).
  assert ((IZR x + IZR j / 256) / IZR (2 ^ zoom) < 1)%R.
  { apply Rmult_lt_reg_r with (IZR (2 ^ zoom)); [exact P|]. unfold Rdiv at 1. rewrite Rmult_assoc, Rinv_l by lra. lra. }
  lra.
Qed.
Lemma pixel_lat m zoom x y j i : 0 <= i < 256 ->
  let lat0 := row_deg m zoom y in let lat1 := row_deg m zoom (y + 1) in
  fin lat0 -> fin lat1 -> (-90 <= xr lat1)%R -> (xr lat1 <= xr lat0)%R -> (xr lat0 <= 90)%R ->
  let p := pixel_pos m zoom x y j i in
  fin (lat p) /\ (Rabs (xr (lat p) - (xr lat0 + IZR i / 256 * (xr lat1 - xr lat0))) <= / 16384)%R.
Proof.
  intros Hi lat0 lat1 F0 F1 B1 B2 B3 p. unfold p, pixel_pos, lat_lon_new. cbn [lat]. fold lat0 lat1. clear p.
  destruct (fin_Z 256 ltac:(lia)) as [F2 E2]. destruct (fin_Z i ltac:(lia)) as [Fi Ei].
  assert (Bi : (0 <= IZR i <= 255)%R) by (split; apply IZR_le; lia).
  pose proof bpow_m150 as Z0.
  set (D := (xr lat1 - xr lat0)%R) in *. assert (BD : (-180 <= D <= 0)%R) by (unfold D; lra).
  assert (R1 : (-180 <= rnd D <= 0)%R).
  { split; [rewrite <- (rnd_gen (-180)) by (apply (gen_Z (-180)); lia); apply rnd_mono; lra|rewrite <- rnd_0; apply rnd_mono; lra]. }
  pose proof (rnd_err D) as E1. rewrite ulp_half_val in E1. rewrite (Rabs_left1 D) in E1 by lra. apply Rabs_le_inv in E1.
  assert (S1 : fin (fsub lat1 lat0) /\ xr (fsub lat1 lat0) = rnd D).
  { apply rounds_fin; [exact (fin_sub _ _ F1 F0)|]. lt_big. }
  destruct S1 as [Fs Es].
  set (I := rnd (rnd D / 256)).
  assert (R2 : (-1 <= I <= 0)%R).
  { unfold I. split; [rewrite <- (rnd_gen (-1)) by (apply (gen_Z (-1)); lia); apply rnd_mono; lra|rewrite <- rnd_0; apply rnd_mono; lra]. }
  pose proof (rnd_err (rnd D / 256)) as E2'. rewrite ulp_half_val in E2'. rewrite (Rabs_left1 (rnd D / 256)) in E2' by lra. apply Rabs_le_inv in E2'. fold I in E2'.
  assert (S2 : fin (fdiv (fsub lat1 lat0) (f32_of_Z 256)) /\ xr (fdiv (fsub lat1 lat0) (f32_of_Z 256)) = I).
  { pose proof (fin_div _ _ Fs F2 ltac:(rewrite E2; lra)) as R. rewrite Es, E2 in R. apply rounds_fin; [exact R|]. fold I. lt_big. }
  destruct S2 as [FI EI].
  assert (BiI : (-255 <= IZR i * I <= 0)%R). { split; nra. }
  set (M := rnd (IZR i * I)).
  assert (R3 : (-255 <= M <= 0)%R).
  { unfold M. split; [rewrite <- (rnd_gen (-255)) by (apply (gen_Z (-255)); lia); apply rnd_mono; lra|rewrite <- rnd_0; apply rnd_mono; lra]. }
  pose proof (rnd_err (IZR i * I)) as E3. rewrite ulp_half_val in E3. rewrite (Rabs_left1 (IZR i * I)) in E3 by lra. apply Rabs_le_inv in E3. fold M in E3.
  assert (S3 : fin (fmul (f32_of_Z i) (fdiv (fsub lat1 lat0) (f32_of_Z 256))) /\ xr (fmul (f32_of_Z i) (fdiv (fsub lat1 lat0) (f32_of_Z 256))) = M).
  { pose proof (fin_mul _ _ Fi FI) as R. rewrite Ei, EI in R. apply rounds_fin; [exact R|]. fold M. lt_big. }
  destruct S3 as [FM EM].
  (* the accumulated product *)
  set (eI := (I - D / 256)%R). assert (BeI : (Rabs eI <= / 8192 / 1024)%R) by (apply Rabs_le; unfold eI; lra).
  assert (Prod : (IZR i * I = IZR i / 256 * D + IZR i * eI)%R) by (unfold eI; field).
  assert (BP : (Rabs (IZR i * eI) <= / 32768)%R).
  { rewrite Rabs_mult, (Rabs_pos_eq (IZR i)) by lra. apply Rle_trans with (255 * (/ 8192 / 1024))%R; [|lra].
    apply Rmult_le_compat; [lra|apply Rabs_pos|lra|exact BeI]. }
  apply Rabs_le_inv in BP.
  assert (CV : (xr lat1 <= xr lat0 + IZR i / 256 * D <= xr lat0)%R) by (unfold D; split; nra).
  set (S := (xr lat0 + M)%R).
  assert (BS : (-91 <= S <= 91)%R) by (unfold S; lra).
  assert (R4 : (-91 <= rnd S <= 91)%R).
  { split; [rewrite <- (rnd_gen (-91)) by (apply (gen_Z (-91)); lia); apply rnd_mono; lra|
            rewrite <- (rnd_gen 91) by (apply (gen_Z 91); lia); apply rnd_mono; lra]. }
  pose proof (rnd_err S) as E4. rewrite ulp_half_val in E4.
  assert (Rabs S <= 91)%R by (apply Rabs_le; lra). apply Rabs_le_inv in E4.
  assert (S4 : fin (fadd lat0 (fmul (f32_of_Z i) (fdiv (fsub lat1 lat0) (f32_of_Z 256)))) /\
    xr (fadd lat0 (fmul (f32_of_Z i) (fdiv (fsub lat1 lat0) (f32_of_Z 256)))) = rnd S).
  { pose proof (fin_add _ _ F0 FM) as R. rewrite EM in R. fold S in R. apply rounds_fin; [exact R|]. lt_big. }
  destruct S4 as [F4 E5]. rewrite normalize_id; [|exact F4|rewrite E5; lra]. split; [exact F4|]. rewrite E5. apply Rabs_le. unfold S in *. lra.
Qed.
(** Rows go from north to south. *)
Lemma row_arg zoom y : 0 <= zoom <= 22 -> 0 <= y <= 2 ^ zoom ->
  let a := fmul PI32 (fsub (f32_of_Z 1) (fdiv (fmul (f32_of_Z 2) (f32_of_Z y)) (f32_of_Z (2 ^ zoom)))) in
  fin a /\ xr a = rnd (xr PI32 * (1 - 2 * IZR y / IZR (2 ^ zoom))) /\ (-4 <= xr a <= 4)%R.
Proof.
  intros Hz Hy a. pose proof (pow2_le zoom 22 ltac:(lia)) as B. change (2 ^ 22) with 4194304 in B. pose proof (pow2_pos zoom ltac:(lia)) as P.
  destruct (fin_pow2 zoom ltac:(lia)) as [Fn En]. destruct (fin_Z y ltac:(lia)) as [Fy Ey].
  destruct (fin_Z 2 ltac:(lia)) as [F2 E2]. destruct (fin_Z 1 ltac:(lia)) as [F1 E1].
  assert (S1 : fin (fmul (f32_of_Z 2) (f32_of_Z y)) /\ xr (fmul (f32_of_Z 2) (f32_of_Z y)) = (2 * IZR y)%R).
  { pose proof (fin_mul _ _ F2 Fy) as R. rewrite E2, Ey in R. apply (exact_dyadic _ _ (2 * y) 0); [exact R| |lia|lia].
    rewrite mult_IZR. change (IZR (2 ^ 0)) with 1%R. field. }
  destruct S1 as [Fm Em].
  assert (S2 : fin (fdiv (fmul (f32_of_Z 2) (f32_of_Z y)) (f32_of_Z (2 ^ zoom))) /\
    xr (fdiv (fmul (f32_of_Z 2) (f32_of_Z y)) (f32_of_Z (2 ^ zoom))) = (2 * IZR y / IZR (2 ^ zoom))%R).
  { pose proof (fin_div _ _ Fm Fn ltac:(rewrite En; lra)) as R. rewrite Em, En in R. apply (exact_dyadic _ _ (2 * y) zoom); [exact R| |lia|lia].
    rewrite mult_IZR. reflexivity. }
  destruct S2 as [Fd Ed].
  assert (S3 : fin (fsub (f32_of_Z 1) (fdiv (fmul (f32_of_Z 2) (f32_of_Z y)) (f32_of_Z (2 ^ zoom)))) /\
    xr (fsub (f32_of_Z 1) (fdiv (fmul (f32_of_Z 2) (f32_of_Z y)) (f32_of_Z (2 ^ zoom)))) = (1 - 2 * IZR y / IZR (2 ^ zoom))%R).
  { pose proof (fin_sub _ _ F1 Fd) as R. rewrite E1, Ed in R. apply (exact_dyadic _ _ (2 ^ zoom - 2 * y) zoom); [exact R| |lia|lia].
    rewrite minus_IZR, mult_IZR. field. lra. }
  destruct S3 as [Fs Es].
  assert (Bs : (-1 <= 1 - 2 * IZR y / IZR (2 ^ zoom) <= 1)%R).
  { assert (0 <= IZR y <= IZR (2 ^ zoom))%R by (split; apply IZR_le; lia).
    assert (0 <= IZR y / IZR (2 ^ zoom))%R by (apply Rmult_le_pos; [lra|left; apply Rinv_0_lt_compat; lra]).
    assert (IZR y / IZR (2 ^ zoom) <= 1)%R. { apply Rmult_le_reg_r with (IZR (2 ^ zoom)); [exact P|]. unfold Rdiv. rewrite Rmult_assoc, Rinv_l by lra. lra. }
    lra. }
  assert (FP : fin PI32) by (split; reflexivity).
  assert (EP : (0 <= xr PI32 <= 4)%R).
  { unfold PI32. rewrite xr_F2R, F2R_neg_exp by lia. cbn [cond_Zopp]. change (2 ^ - -22) with 4194304. lra. }
  set (q := (xr PI32 * (1 - 2 * IZR y / IZR (2 ^ zoom)))%R). assert (Bq : (-4 <= q <= 4)%R) by (unfold q; split; nra).
  assert (Br : (-4 <= rnd q <= 4)%R).
  { split; [rewrite <- (rnd_gen (-4)) by (apply (gen_Z (-4)); lia); apply rnd_mono; lra|
            rewrite <- (rnd_gen 4) by (apply (gen_Z 4); lia); apply rnd_mono; lra]. }
  assert (S4 : fin a /\ xr a = rnd q).
  { pose proof (fin_mul _ _ FP Fs) as R. rewrite Es in R. fold q a in R. apply rounds_fin; [exact R|]. lt_big. }
  destruct S4 as [Fa Ea]. split; [exact Fa|]. split; [exact Ea|]. rewrite Ea. exact Br.
Qed.
Lemma row_order m zoom y y' : libm_ok m -> 0 <= zoom <= 22 -> 0 <= y <= y' -> y' <= 2 ^ zoom ->
  fin (row_deg m zoom y) /\ fin (row_deg m zoom y') /\ (-90 <= xr (row_deg m zoom y'))%R /\
  (xr (row_deg m zoom y') <= xr (row_deg m zoom y))%R /\ (xr (row_deg m zoom y) <= 90)%R.
Proof.
  intros [Ms Ma] Hz Hy Hy'. pose proof (pow2_pos zoom ltac:(lia)) as P.
  destruct (row_arg zoom y Hz ltac:(lia)) as (F & E & B). destruct (row_arg zoom y' Hz ltac:(lia)) as (F' & E' & B').
  unfold row_deg. set (a := fmul PI32 _) in *. set (a' := fmul PI32 (fsub (f32_of_Z 1) (fdiv (fmul (f32_of_Z 2) (f32_of_Z y')) _))) in *.
  assert (L : (xr a' <= xr a)%R).
  { rewrite E, E'. apply rnd_mono. apply Rmult_le_compat_l.
    - unfold PI32. rewrite xr_F2R, F2R_neg_exp by lia. cbn [cond_Zopp]. change (2 ^ - -22) with 4194304. lra.
    - assert (IZR y <= IZR y')%R by (apply IZR_le; lia). assert (IZR y / IZR (2 ^ zoom) <= IZR y' / IZR (2 ^ zoom))%R.
      { apply Rmult_le_compat_r; [left; apply Rinv_0_lt_compat; lra|assumption]. }
      unfold Rdiv in *. rewrite !Rmult_assoc. lra. }
  destruct (Ms a' a F' F ltac:(lra) L ltac:(lra)) as (Fs' & Fs & Bs1 & Ls & Bs2).
  destruct (Ma _ _ Fs' Fs Bs1 Ls Bs2) as (Fa' & Fa & Ba1 & La & Ba2).
  set (C := S754_finite false 15019745 (-18)). assert (FC : fin C) by (split; reflexivity).
  assert (EC : xr C = (15019745 / 262144)%R) by (unfold C; rewrite xr_F2R, F2R_neg_exp by lia; reflexivity).
  assert (G : forall v, fin v -> (-(157 / 100) <= xr v <= 157 / 100)%R -> fin (to_degrees v) /\ xr (to_degrees v) = rnd (xr v * xr C) /\
    (-90 <= xr (to_degrees v) <= 90)%R).
  { intros v Fv Bv. pose proof (fin_mul _ _ Fv FC) as R. fold (to_degrees v) in R.
    assert (Br : (-90 <= rnd (xr v * xr C) <= 90)%R).
    { rewrite EC. split; [rewrite <- (rnd_gen (-90)) by (apply (gen_Z (-90)); lia); apply rnd_mono; lra|
            rewrite <- (rnd_gen 90) by (apply (gen_Z 90); lia); apply rnd_mono; lra]. }
    assert (S : fin (to_degrees v) /\ xr (to_degrees v) = rnd (xr v * xr C)) by (apply rounds_fin; [exact R|lt_big]).
    destruct S as [F1 E1]. rewrite E1. auto. }
  destruct (G _ Fa' ltac:(lra)) as (G1 & G2 & G3). destruct (G _ Fa ltac:(lra)) as (G4 & G5 & G6).
  split; [exact G4|]. split; [exact G1|]. split; [lra|]. split; [|lra]. rewrite G2, G5. apply rnd_mono. apply Rmult_le_compat_r; [rewrite EC; lra|exact La].
Qed.

Lemma c32_complete_proof : forall T chk m e zl zh (value : lat_lon -> outcome (option T)) color_fn tr,
  create_all_tiles chk m e (zl, zh) value color_fn observe tr (Ok tt) ->
  NoDup (map place tr) /\ (forall z x y, In (z, x, y) (map place tr) <-> zl <= z <= zh /\ covers chk m e z x y) /\
  Forall (fun s => create_single_tile chk m value color_fn {| t_x := s_x s; t_y := s_y s; t_zoom := s_zoom s |} = Ok (s_content s)) tr.
Proof.
  intros T chk m e zl zh value color_fn tr R. pose proof (all_ok _ _ _ _ _ _ _ _ R) as P. split; [|split].
  - eapply Permutation_NoDup; [symmetry; exact P|apply nodup_all].
  - intros z x y. rewrite <- in_all. split; intro I; [rewrite <- P|rewrite P]; exact I.
  - exact (all_content _ _ _ _ _ _ _ _ _ R).
Qed.

Lemma c32_any_end_proof : forall T chk m e zl zh (value : lat_lon -> outcome (option T)) color_fn tr r,
  create_all_tiles chk m e (zl, zh) value color_fn observe tr r ->
  NoDup (map place tr) /\ (forall z x y, In (z, x, y) (map place tr) -> zl <= z <= zh /\ covers chk m e z x y) /\
  Forall (fun s => create_single_tile chk m value color_fn {| t_x := s_x s; t_y := s_y s; t_zoom := s_zoom s |} = Ok (s_content s)) tr.
Proof.
  intros T chk m e zl zh value color_fn tr r R. destruct (all_any _ _ _ _ _ _ _ _ _ R) as (rest & P). split; [|split].
  - assert (N : NoDup (map place tr ++ rest)) by (eapply Permutation_NoDup; [symmetry; exact P|apply nodup_all]).
    revert N. generalize (map place tr). induction l as [|a l IH]; intro N; [constructor|]. inversion N; subst. constructor; [|auto].
    intro I. apply H1, in_or_app. now left.
  - intros z x y I. rewrite <- in_all, <- P. apply in_or_app. now left.
  - exact (all_content _ _ _ _ _ _ _ _ _ R).
Qed.

Lemma c32_failure_proof : forall T chk m e zl zh (value : lat_lon -> outcome (option T)) color_fn tr r,
  create_all_tiles chk m e (zl, zh) value color_fn observe tr r -> r <> Ok tt ->
  r = Panic /\ exists z, zl <= z <= zh /\ ((chk = true /\ 32 <= z) \/
    exists x y, covers chk m e z x y /\ forall d, create_single_tile chk m value color_fn {| t_x := x; t_y := y; t_zoom := z |} <> Ok d).
Proof. intros T chk m e zl zh value color_fn. exact (all_fail chk m e value color_fn zl zh). Qed.

Lemma c32_ends_proof : forall T chk m e zl zh (value : lat_lon -> outcome (option T)) color_fn,
  exists tr r, create_all_tiles chk m e (zl, zh) value color_fn observe tr r.
Proof. intros T chk m e zl zh value color_fn. exact (all_runs chk m e value color_fn zl zh). Qed.

Lemma c33_any_tile_proof : forall chk m zoom x y, 0 <= zoom < 32 -> 0 <= x < 2 ^ 32 - 1 -> 0 <= y < 2 ^ 32 - 1 ->
  exists pos : Z -> Z -> lat_lon, forall T (value : lat_lon -> outcome (option T)) color_fn,
  match create_single_tile chk m value color_fn {| t_x := x; t_y := y; t_zoom := zoom |} with
  | Ok d => drawable_ok d /\ d_w d = 256 /\ d_h d = 256 /\
      forall j i, inside 256 256 j i -> exists c, colour_at value color_fn (pos j i) = Ok c /\ pixel d j i = Some c
  | Err e => exists j i, inside 256 256 j i /\ colour_at value color_fn (pos j i) = Err e
  | Panic => exists j i, inside 256 256 j i /\ colour_at value color_fn (pos j i) = Panic
  end.
Proof.
  intros chk m zoom x y Hz Hx Hy. exists (pixel_pos m zoom x y). intros T value color_fn. apply single_tile_spec; assumption.
Qed.

Lemma c33_pixels_proof : forall chk m zoom x y, libm_ok m -> 0 <= zoom <= 10 -> 0 <= x < 2 ^ zoom -> 0 <= y < 2 ^ zoom ->
  exists (pos : Z -> Z -> lat_lon) p0 p1,
    to_position chk m {| t_x := x; t_y := y; t_zoom := zoom |} = Ok p0 /\
    to_position chk m {| t_x := x + 1; t_y := y + 1; t_zoom := zoom |} = Ok p1 /\
    (forall j i, inside 256 256 j i ->
      fin (lon (pos j i)) /\ xr (lon (pos j i)) = column_lon zoom (IZR x + IZR j / 256) /\
      fin (lat (pos j i)) /\ (Rabs (xr (lat (pos j i)) - (xr (lat p0) + IZR i / 256 * (xr (lat p1) - xr (lat p0)))) <= / 16384)%R) /\
  forall T (value : lat_lon -> outcome (option T)) color_fn,
  match create_single_tile chk m value color_fn {| t_x := x; t_y := y; t_zoom := zoom |} with
  | Ok d => drawable_ok d /\ d_w d = 256 /\ d_h d = 256 /\
      forall j i, inside 256 256 j i -> exists c, colour_at value color_fn (pos j i) = Ok c /\ pixel d j i = Some c
  | Err e => exists j i, inside 256 256 j i /\ colour_at value color_fn (pos j i) = Err e
  | Panic => exists j i, inside 256 256 j i /\ colour_at value color_fn (pos j i) = Panic
  end.
Proof.
  intros chk m zoom x y M Hz Hx Hy. pose proof (pow2_le zoom 10 Hz) as B. change (2 ^ 10) with 1024 in B.
  exists (pixel_pos m zoom x y), {| lat := row_deg m zoom y; lon := column_deg zoom x |}, {| lat := row_deg m zoom (y + 1); lon := column_deg zoom (x + 1) |}.
  split; [apply to_position_eq; lia|]. split; [apply to_position_eq; lia|]. split.
  - intros j i [Ij Ii]. destruct (pixel_lon m zoom x y j i Hz Hx Ij) as [F E]. split; [exact F|]. split; [exact E|].
    destruct (row_order m zoom y (y + 1) M ltac:(lia) ltac:(lia) ltac:(lia)) as (F0 & F1 & B1 & L & B2). cbn [lat].
    apply pixel_lat; assumption.
  - intros T value color_fn. apply single_tile_spec; lia.
Qed.

Lemma c34_position_proof : forall chk m zoom x y, 0 <= zoom <= 18 -> 0 <= x <= 2 ^ zoom ->
  exists p, to_position chk m {| t_x := x; t_y := y; t_zoom := zoom |} = Ok p /\ fin (lon p) /\ xr (lon p) = column_lon zoom (IZR x).
Proof.
  intros chk m zoom x y Hz Hx. rewrite to_position_eq by lia. eexists. split; [reflexivity|]. apply column_deg_exact; assumption.
Qed.

Lemma c34_column_proof : forall chk m p zoom x, 0 <= zoom <= 18 -> 0 <= x < 2 ^ zoom -> fin (lon p) ->
  (column_lon zoom (IZR x) <= xr (lon p) <= column_lon zoom (IZR x + 1) - / 16384)%R ->
  exists t, from_position chk m p zoom = Ok t /\ t_x t = x.
Proof.
  intros chk m p zoom x Hz Hx F B. destruct (from_position_col chk m p zoom ltac:(lia)) as (t & E & X & _).
  exists t. split; [exact E|]. rewrite X. apply column_cell; assumption.
Qed.

Lemma c34_round_trip_proof : forall chk m zoom x y p, 0 <= zoom <= 18 -> 0 <= x <= 2 ^ zoom ->
  to_position chk m {| t_x := x; t_y := y; t_zoom := zoom |} = Ok p -> exists t, from_position chk m p zoom = Ok t /\ t_x t = x.
Proof.
  intros chk m zoom x y p Hz Hx E. rewrite to_position_eq in E by lia. injection E as <-.
  destruct (from_position_col chk m {| lat := row_deg m zoom y; lon := column_deg zoom x |} zoom ltac:(lia)) as (t & E & X & _).
  exists t. split; [exact E|]. rewrite X. destruct (column_deg_exact zoom x Hz Hx) as [F Q]. apply column_back; assumption.
Qed.

Lemma c34_columns_proof : forall chk m zoom p q, 0 <= zoom <= 24 -> fin (lon p) -> fin (lon q) ->
  (-180 <= xr (lon p))%R -> (xr (lon p) <= xr (lon q))%R -> (xr (lon q) <= 180)%R ->
  exists s t, from_position chk m p zoom = Ok s /\ from_position chk m q zoom = Ok t /\
    0 <= t_x s /\ t_x s <= t_x t <= 2 ^ zoom /\ ((xr (lon q) <= 180 - / 32768)%R -> t_x t < 2 ^ zoom).
Proof.
  intros chk m zoom p q Hz Fp Fq B1 L B2. destruct (from_position_col chk m p zoom ltac:(lia)) as (s & Es & Xs & _).
  destruct (from_position_col chk m q zoom ltac:(lia)) as (t & Et & Xt & _). exists s, t. split; [exact Es|]. split; [exact Et|].
  rewrite Xs, Xt. pose proof (column_range zoom (lon p) Hz Fp ltac:(lra)). pose proof (column_range zoom (lon q) Hz Fq ltac:(lra)).
  pose proof (column_mono zoom (lon p) (lon q) Hz Fp Fq B1 L B2). split; [lia|]. split; [lia|].
  intro K. pose proof (column_last zoom (lon q) Hz Fq ltac:(lra)). lia.
Qed.

Lemma c34_rows_proof : forall chk m zoom x x' y y', libm_ok m -> 0 <= zoom <= 22 -> 0 <= y <= y' -> y' <= 2 ^ zoom ->
  exists p p', to_position chk m {| t_x := x; t_y := y; t_zoom := zoom |} = Ok p /\ to_position chk m {| t_x := x'; t_y := y'; t_zoom := zoom |} = Ok p' /\
    fin (lat p) /\ fin (lat p') /\ (-90 <= xr (lat p'))%R /\ (xr (lat p') <= xr (lat p))%R /\ (xr (lat p) <= 90)%R.
Proof.
  intros chk m zoom x x' y y' M Hz Hy Hy'. rewrite !to_position_eq by lia. eexists. eexists. split; [reflexivity|]. split; [reflexivity|].
  cbn [lat]. apply row_order; assumption.
Qed.
