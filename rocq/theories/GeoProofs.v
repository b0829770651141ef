(** Proofs about coordinates, extents and regular grids (C12-C17, C21). *)
From Coq Require Import ZArith Reals Psatz Bool List Lia Lra.
From Coq Require Import Floats.SpecFloat.
From Flocq Require Import Core.Core Sterbenz.
From Verif Require Import Base F32 F32Facts Grib2Model GeoModel GeoSpec.
Import ListNotations.
Open Scope Z_scope.

Lemma fin_nan x : fin x -> fis_nan x = false.
Proof. intros [_ H]. destruct x; try discriminate; reflexivity. Qed.
Lemma fin_Z z : Z.abs z <= 2 ^ 24 -> fin (f32_of_Z z) /\ xr (f32_of_Z z) = IZR z.
Proof. intro H. destruct (f32_of_Z_exact z H). split; [split; [apply f32_of_Z_valid|assumption]|assumption]. Qed.
Lemma flt_fin x y : fin x -> fin y -> (flt x y = true <-> (xr x < xr y)%R).
Proof. intros Hx Hy. apply flt_xr; try apply fin_nan; try assumption; [apply Hx|apply Hy]. Qed.
Lemma fle_fin x y : fin x -> fin y -> (fle x y = true <-> (xr x <= xr y)%R).
Proof. intros Hx Hy. apply fle_xr; try apply fin_nan; try assumption; [apply Hx|apply Hy]. Qed.
Lemma fge_fin x y : fin x -> fin y -> (fge x y = true <-> (xr y <= xr x)%R).
Proof. intros Hx Hy. apply (fle_fin y x); assumption. Qed.
Lemma fgt_fin x y : fin x -> fin y -> (fgt x y = true <-> (xr y < xr x)%R).
Proof. intros Hx Hy. apply (flt_fin y x); assumption. Qed.
Lemma flt_false x y : fin x -> fin y -> (flt x y = false <-> (xr y <= xr x)%R).
Proof.
  intros Hx Hy. pose proof (flt_fin x y Hx Hy) as H. destruct (flt x y).
  - split; [discriminate|]. intro. apply proj1 in H. specialize (H eq_refl). lra.
  - split; [|reflexivity]. intros _. apply Rnot_lt_le. intro K. apply H in K. discriminate.
Qed.
Lemma fle_false x y : fin x -> fin y -> (fle x y = false <-> (xr y < xr x)%R).
Proof.
  intros Hx Hy. pose proof (fle_fin x y Hx Hy) as H. destruct (fle x y).
  - split; [discriminate|]. intro. apply proj1 in H. specialize (H eq_refl). lra.
  - split; [|reflexivity]. intros _. apply Rnot_le_lt. intro K. apply H in K. discriminate.
Qed.
Lemma fge_false x y : fin x -> fin y -> (fge x y = false <-> (xr x < xr y)%R).
Proof. intros Hx Hy. apply (fle_false y x); assumption. Qed.
Lemma fgt_false x y : fin x -> fin y -> (fgt x y = false <-> (xr x <= xr y)%R).
Proof. intros Hx Hy. apply (flt_false y x); assumption. Qed.
Lemma fin_bound x : fin x -> (Rabs (xr x) < big)%R.
Proof. intros [V F]. apply xr_bound; assumption. Qed.
Lemma fin_gen x : fin x -> generic_format radix2 fexp32 (xr x).
Proof. intros [V F]. apply xr_gen; assumption. Qed.
Lemma exact_fin z r : rounds_to z r -> generic_format radix2 fexp32 r -> (Rabs r < big)%R -> fin z /\ xr z = r.
Proof. intros R G B. destruct (rounds_exact z r R G B) as (V & F & E). split; [split; assumption|exact E]. Qed.
Lemma rounds_fin z r : rounds_to z r -> (Rabs (rnd r) < big)%R -> fin z /\ xr z = rnd r.
Proof. intros R B. destruct (rounds_finite z r R B) as [F E]. split; [split; [apply R|exact F]|exact E]. Qed.
Lemma fin_add x y : fin x -> fin y -> rounds_to (fadd x y) (xr x + xr y).
Proof. intros [] []. apply fadd_rounds; assumption. Qed.
Lemma fin_sub x y : fin x -> fin y -> rounds_to (fsub x y) (xr x - xr y).
Proof. intros [] []. apply fsub_rounds; assumption. Qed.
Lemma fin_mul x y : fin x -> fin y -> rounds_to (fmul x y) (xr x * xr y).
Proof. intros [] []. apply fmul_rounds; assumption. Qed.
Lemma fin_div x y : fin x -> fin y -> xr y <> 0%R -> rounds_to (fdiv x y) (xr x / xr y).
Proof. intros [] []. apply fdiv_rounds; assumption. Qed.
Lemma big_gt : (IZR (2 ^ 127) < big)%R.
Proof. unfold big. change (bpow radix2 128) with (IZR (2 ^ 128)). apply IZR_lt. lia. Qed.
Ltac lt_big := eapply Rle_lt_trans; [|exact big_gt]; apply Rabs_le;
  assert (1000000 <= IZR (2 ^ 127))%R by (apply IZR_le; lia); try lra.

(** ** C12: normalisation *)
Lemma sub360 x : fin x -> (180 <= xr x <= 720)%R ->
  fin (fsub x (f32_of_Z 360)) /\ xr (fsub x (f32_of_Z 360)) = (xr x - 360)%R.
Proof.
  intros Hx B. destruct (fin_Z 360 ltac:(lia)) as [F E].
  pose proof (fin_sub x _ Hx F) as R. rewrite E in R.
  apply exact_fin; [exact R| |lt_big].
  apply (sterbenz radix2 fexp32); [apply fin_gen; exact Hx|rewrite <- E; apply fin_gen; exact F|lra].
Qed.
Lemma normalize_id x : fin x -> (-180 <= xr x < 180)%R -> normalize_deg x = x.
Proof.
  intros Hx B. unfold normalize_deg.
  destruct (fin_Z 360 ltac:(lia)) as [F3 E3]. destruct (fin_Z 180 ltac:(lia)) as [F1 E1].
  destruct (fin_Z (-180) ltac:(lia)) as [F2 E2].
  assert (fge x (f32_of_Z 360) = false) as -> by (apply fge_false; try assumption; lra).
  assert (flt x (f32_of_Z (-180)) = false) as -> by (apply flt_false; try assumption; lra).
  cbn [orb]. assert (fge x (f32_of_Z 180) = false) as -> by (apply fge_false; try assumption; lra).
  reflexivity.
Qed.
(** A finite value of magnitude at least 2^k is a multiple of 2^(k-23). *)
Lemma multiple_of x k : fin x -> -126 <= k -> (bpow radix2 k <= Rabs (xr x))%R ->
  exists m, xr x = (IZR m * bpow radix2 (k - 23))%R.
Proof.
  intros Hx Hk B. pose proof (fin_gen x Hx) as G. unfold generic_format in G. 
  unfold F2R in G. cbn [Fnum Fexp] in G.
  assert (Hm : k < mag radix2 (xr x)) by (apply mag_gt_bpow; exact B).
  assert (Hc : k - 23 <= cexp radix2 fexp32 (xr x)).
  { unfold cexp, SpecFloat.fexp, SpecFloat.emin. lia. }
  set (c := cexp radix2 fexp32 (xr x)) in *. set (t := Ztrunc _) in G. clearbody c t.
  exists (t * 2 ^ (c - (k - 23))). rewrite G, mult_IZR, Rmult_assoc. f_equal.
  change (2 ^ (c - (k - 23))) with (Zpower radix2 (c - (k - 23))).
  rewrite IZR_Zpower by lia. rewrite <- bpow_plus. f_equal. lia.
Qed.
Lemma gen_multiple m e : -149 <= e -> (Rabs (IZR m * bpow radix2 e) <= bpow radix2 (e + 24))%R ->
  generic_format radix2 fexp32 (IZR m * bpow radix2 e).
Proof.
  intros He B. apply (gen_F2R m e); [|exact He].
  rewrite Rabs_mult, (Rabs_pos_eq (bpow radix2 e)), bpow_plus, Rmult_comm in B by apply bpow_ge_0.
  apply Rmult_le_reg_l in B; [|apply bpow_gt_0].
  rewrite <- abs_IZR in B. apply le_IZR. exact B.
Qed.
Lemma Ztrunc_cases r : (0 <= r)%R /\ (IZR (Ztrunc r) <= r < IZR (Ztrunc r) + 1)%R \/
  (r < 0)%R /\ (IZR (Ztrunc r) - 1 < r <= IZR (Ztrunc r))%R.
Proof.
  destruct (Rle_or_lt 0 r) as [H|H].
  - left. split; [exact H|]. rewrite Ztrunc_floor by exact H. pose proof (Zfloor_lb r). pose proof (Zfloor_ub r). lra.
  - right. split; [exact H|]. rewrite Ztrunc_ceil by lra. pose proof (Zceil_ub r). pose proof (Zceil_lb r). lra.
Qed.

Lemma normalize_spec x : fin x ->
  fin (normalize_deg x) /\ (-180 <= xr (normalize_deg x) < 180)%R /\
  exists k, xr (normalize_deg x) = (xr x - 360 * IZR k)%R.
Proof.
  intro Hx. destruct (fin_Z 360 ltac:(lia)) as [F3 E3]. destruct (fin_Z 180 ltac:(lia)) as [F1 E1].
  destruct (fin_Z (-180) ltac:(lia)) as [F2 E2].
  assert (F0 : fin fzero) by (split; reflexivity).
  destruct (Rlt_or_le (xr x) 180) as [Hlt|Hge]; [destruct (Rle_or_lt (-180) (xr x)) as [Hm|Hm]|].
  - rewrite normalize_id by (try assumption; lra). split; [exact Hx|]. split; [lra|]. exists 0. ring.
  - (* below -180 *)
    unfold normalize_deg.
    assert (flt x (f32_of_Z (-180)) = true) as -> by (apply flt_fin; try assumption; lra).
    rewrite orb_true_r. unfold frem_euclid.
    destruct (frem_xr x (f32_of_Z 360)) as (Vr & Fr & Er); try (apply Hx); try (apply F3); [rewrite E3; lra|].
    assert (Hr : fin (frem x (f32_of_Z 360))) by (split; assumption).
    rewrite E3 in Er. set (r := frem x (f32_of_Z 360)) in *.
    set (q := (xr x / 360)%R) in *. assert (Hq : (xr x = q * 360)%R) by (unfold q; field).
    set (n := Ztrunc q) in *.
    destruct (Ztrunc_cases q) as [[Q _]|[_ Q]]; [lra|]. fold n in Q.
    assert (Rr : (-360 < xr r <= 0)%R) by lra.
    assert (D : fin (if flt r fzero then fadd r (SFabs (f32_of_Z 360)) else r) /\
                exists k, xr (if flt r fzero then fadd r (SFabs (f32_of_Z 360)) else r) = (xr x - 360 * IZR k)%R /\
                  (0 <= xr x - 360 * IZR k < 360)%R).
    { destruct (flt r fzero) eqn:Z.
      - apply flt_fin in Z; try assumption. change (xr fzero) with 0%R in Z.
        assert (SFabs (f32_of_Z 360) = f32_of_Z 360) as -> by reflexivity.
        pose proof (fin_add r _ Hr F3) as A. rewrite E3 in A.
        apply exact_fin in A.
        + destruct A as [A1 A2]. split; [exact A1|]. exists (n - 1). rewrite minus_IZR. split; [rewrite A2, Er; ring|].
          rewrite Er in *. lra.
        + destruct (Rle_or_lt (xr x) (-256)) as [S|S].
          * destruct (multiple_of x 8 Hx ltac:(lia)) as [m Em].
            { change (bpow radix2 8) with 256%R. rewrite Rabs_left by lra. lra. }
            assert (xr r + 360 = IZR (m - 360 * (n - 1) * 2 ^ 15) * bpow radix2 (8 - 23))%R as ->.
            { rewrite Er, Em. change (8 - 23) with (-15).
              rewrite minus_IZR, !mult_IZR, minus_IZR. 
              assert (IZR (2 ^ 15) * bpow radix2 (-15) = 1)%R as P by (cbn; lra).
              replace ((IZR m - 360 * (IZR n - 1) * IZR (2 ^ 15)) * bpow radix2 (-15))%R
                with (IZR m * bpow radix2 (-15) - 360 * (IZR n - 1) * (IZR (2 ^ 15) * bpow radix2 (-15)))%R by ring.
              rewrite P. ring. }
            apply gen_multiple; [lia|].
            assert (IZR (m - 360 * (n - 1) * 2 ^ 15) * bpow radix2 (8 - 23) = xr r + 360)%R as ->.
            { rewrite Er, Em. change (8 - 23) with (-15).
              rewrite minus_IZR, !mult_IZR, minus_IZR. 
              assert (IZR (2 ^ 15) * bpow radix2 (-15) = 1)%R as P by (cbn; lra).
              replace ((IZR m - 360 * (IZR n - 1) * IZR (2 ^ 15)) * bpow radix2 (-15))%R
                with (IZR m * bpow radix2 (-15) - 360 * (IZR n - 1) * (IZR (2 ^ 15) * bpow radix2 (-15)))%R by ring.
              rewrite P. ring. }
            change (8 - 23 + 24) with 9. change (bpow radix2 9) with 512%R. apply Rabs_le. lra.
          * (* the remainder is x itself *)
            assert (n = 0) as N0.
            { unfold n. apply Ztrunc_small. apply Rabs_lt. lra. }
            rewrite N0 in Er. rewrite Er.
            replace (xr x - 360 * 0 + 360)%R with (- (- xr x - 360))%R by ring.
            apply generic_format_opp. apply (sterbenz radix2 fexp32).
            -- apply generic_format_opp, fin_gen, Hx.
            -- rewrite <- E3. apply fin_gen, F3.
            -- lra.
        + lt_big.
      - apply flt_false in Z; try assumption. change (xr fzero) with 0%R in Z.
        split; [exact Hr|]. exists n. split; [exact Er|]. lra. }
    destruct D as [D1 (k & D2 & D3)]. set (x1 := if flt r fzero then _ else r) in *.
    destruct (fge x1 (f32_of_Z 180)) eqn:Z.
    + apply fge_fin in Z; try assumption. rewrite E1 in Z.
      destruct (sub360 x1 D1 ltac:(lra)) as [S1 S2]. split; [exact S1|]. rewrite S2, D2. split; [lra|].
      exists (k + 1). rewrite plus_IZR. ring.
    + apply fge_false in Z; try assumption. rewrite E1 in Z. split; [exact D1|]. rewrite D2. split; [lra|].
      exists k. reflexivity.
  - (* at least 180 *)
    unfold normalize_deg.
    assert (flt x (f32_of_Z (-180)) = false) as -> by (apply flt_false; try assumption; lra).
    rewrite orb_false_r.
    destruct (fge x (f32_of_Z 360)) eqn:Z.
    + apply fge_fin in Z; try assumption. rewrite E3 in Z. unfold frem_euclid.
      destruct (frem_xr x (f32_of_Z 360)) as (Vr & Fr & Er); try (apply Hx); try (apply F3); [rewrite E3; lra|].
      assert (Hr : fin (frem x (f32_of_Z 360))) by (split; assumption).
      rewrite E3 in Er. set (r := frem x (f32_of_Z 360)) in *.
      set (q := (xr x / 360)%R) in *. assert (Hq : (xr x = q * 360)%R) by (unfold q; field).
      set (n := Ztrunc q) in *.
      destruct (Ztrunc_cases q) as [[_ Q]|[Q _]]; [|lra]. fold n in Q.
      assert (Rr : (0 <= xr r < 360)%R) by lra.
      assert (flt r fzero = false) as -> by (apply flt_false; try assumption; change (xr fzero) with 0%R; lra).
      destruct (fge r (f32_of_Z 180)) eqn:Z1.
      * apply fge_fin in Z1; try assumption. rewrite E1 in Z1.
        destruct (sub360 r Hr ltac:(lra)) as [S1 S2]. split; [exact S1|]. rewrite S2, Er. split; [lra|].
        exists (n + 1). rewrite plus_IZR. ring.
      * apply fge_false in Z1; try assumption. rewrite E1 in Z1. split; [exact Hr|]. rewrite Er. split; [lra|].
        exists n. reflexivity.
    + apply fge_false in Z; try assumption. rewrite E3 in Z.
      assert (fge x (f32_of_Z 180) = true) as -> by (apply fge_fin; try assumption; lra).
      destruct (sub360 x Hx ltac:(lra)) as [S1 S2]. split; [exact S1|]. rewrite S2. split; [lra|].
      exists 1. ring.
Qed.

(** ** C13: extents *)
Lemma extent_new_spec a b : fin_coord a -> fin_coord b ->
  ((xr (lat a) <= xr (lat b))%R /\ (xr (lon a) <= xr (lon b))%R ->
   extent_new a b = Ok {| min_coord := a; max_coord := b |}) /\
  (~ ((xr (lat a) <= xr (lat b))%R /\ (xr (lon a) <= xr (lon b))%R) -> extent_new a b = Panic).
Proof.
  intros [A1 A2] [B1 B2]. unfold extent_new. split; intro H.
  - assert (fgt (lat a) (lat b) = false) as -> by (apply fgt_false; tauto).
    assert (fgt (lon a) (lon b) = false) as -> by (apply fgt_false; tauto). reflexivity.
  - destruct (fgt (lat a) (lat b)) eqn:E1; [reflexivity|].
    destruct (fgt (lon a) (lon b)) eqn:E2; [reflexivity|]. exfalso. apply H.
    apply fgt_false in E1, E2; try assumption. split; assumption.
Qed.
Lemma is_inside_spec e p : fin_extent e -> fin_coord p ->
  (is_inside e p = true <->
   (xr (lat (min_coord e)) <= xr (lat p) < xr (lat (max_coord e)))%R /\
   (xr (lon (min_coord e)) <= xr (lon p) < xr (lon (max_coord e)))%R).
Proof.
  intros [[A1 A2] [B1 B2]] [C1 C2]. unfold is_inside. rewrite !andb_true_iff.
  rewrite !fge_fin, !flt_fin by assumption. tauto.
Qed.
Lemma half_between a b : fin a -> fin b -> (xr a <= xr b)%R -> (Rabs (xr a) <= bpow radix2 126)%R ->
  (Rabs (xr b) <= bpow radix2 126)%R ->
  fin (fdiv (fadd a b) (f32_of_Z 2)) /\ (xr a <= xr (fdiv (fadd a b) (f32_of_Z 2)) <= xr b)%R.
Proof.
  intros Ha Hb L Ba Bb. destruct (fin_Z 2 ltac:(lia)) as [F2 E2].
  assert (G2 : forall x, fin x -> (Rabs (xr x) <= bpow radix2 126)%R -> generic_format radix2 fexp32 (2 * xr x)).
  { intros x Hx _. destruct (Req_dec (xr x) 0) as [Z|Z].
    - rewrite Z, Rmult_0_r. apply (gen_Z 0). lia.
    - pose proof (fin_gen x Hx) as G. apply (FLT_format_generic radix2 (-149) 24) in G.
      destruct G as [[m e] Hx1 Hm He]. apply (generic_format_FLT radix2 (-149) 24).
      exists (Float radix2 m (e + 1)); [|exact Hm|cbn in *; lia].
      rewrite Hx1. unfold F2R. cbn [Fnum Fexp]. rewrite bpow_plus. change (bpow radix2 1) with 2%R. ring. }
  assert (P : (bpow radix2 126 * 2 < big)%R).
  { unfold big. change 2%R with (bpow radix2 1). rewrite <- bpow_plus. apply bpow_lt. lia. }
  apply Rabs_le_inv in Ba as Ba'. apply Rabs_le_inv in Bb as Bb'.
  assert (S : (2 * xr a <= rnd (xr a + xr b) <= 2 * xr b)%R).
  { apply rnd_between; [apply G2; assumption|apply G2; assumption|lra]. }
  destruct (rounds_fin _ _ (fin_add a b Ha Hb)) as [Fs Es].
  { apply Rabs_lt. lra. }
  assert (D : (xr a <= rnd (rnd (xr a + xr b) / 2) <= xr b)%R).
  { apply rnd_between; [apply fin_gen; assumption|apply fin_gen; assumption|lra]. }
  pose proof (fin_div (fadd a b) _ Fs F2 ltac:(rewrite E2; lra)) as R. rewrite Es, E2 in R.
  destruct (rounds_fin _ _ R) as [Fd Ed].
  { apply Rabs_lt. lra. }
  split; [exact Fd|]. rewrite Ed. exact D.
Qed.

Section Bounding.
  (** One of the four accumulators. *)
  Lemma fold_min (f : lat_lon -> f32) cs a : Forall (fun c => fin (f c)) cs -> fin a ->
    let r := fold_left (fun a c => if flt (f c) a then f c else a) cs a in
    fin r /\ (r = a \/ exists c, In c cs /\ r = f c) /\ (xr r <= xr a)%R /\
    Forall (fun c => (xr r <= xr (f c))%R) cs.
  Proof.
    intro H. revert a. induction H as [|c cs Hc H IH]; intros a Ha r.
    - subst r. cbn. auto with real.
    - subst r. cbn [fold_left]. set (a1 := if flt (f c) a then f c else a).
      assert (Ha1 : fin a1) by (unfold a1; destruct (flt (f c) a); assumption).
      assert (L : (xr a1 <= xr a)%R /\ (xr a1 <= xr (f c))%R).
      { unfold a1. destruct (flt (f c) a) eqn:E.
        - apply flt_fin in E; try assumption. lra.
        - apply flt_false in E; try assumption. lra. }
      destruct (IH a1 Ha1) as (F & O & L1 & L2). split; [exact F|]. split; [|split; [lra|]].
      + destruct O as [O|(c' & O1 & O2)].
        * rewrite O. unfold a1. destruct (flt (f c) a); [right; exists c; split; [left; reflexivity|reflexivity]|left; reflexivity].
        * right. exists c'. split; [right; exact O1|exact O2].
      + constructor; [lra|exact L2].
  Qed.
  Lemma fold_max (f : lat_lon -> f32) cs a : Forall (fun c => fin (f c)) cs -> fin a ->
    let r := fold_left (fun a c => if fgt (f c) a then f c else a) cs a in
    fin r /\ (r = a \/ exists c, In c cs /\ r = f c) /\ (xr a <= xr r)%R /\
    Forall (fun c => (xr (f c) <= xr r)%R) cs.
  Proof.
    intro H. revert a. induction H as [|c cs Hc H IH]; intros a Ha r.
    - subst r. cbn. auto with real.
    - subst r. cbn [fold_left]. set (a1 := if fgt (f c) a then f c else a).
      assert (Ha1 : fin a1) by (unfold a1; destruct (fgt (f c) a); assumption).
      assert (L : (xr a <= xr a1)%R /\ (xr (f c) <= xr a1)%R).
      { unfold a1. destruct (fgt (f c) a) eqn:E.
        - apply fgt_fin in E; try assumption. lra.
        - apply fgt_false in E; try assumption. lra. }
      destruct (IH a1 Ha1) as (F & O & L1 & L2). split; [exact F|]. split; [|split; [lra|]].
      + destruct O as [O|(c' & O1 & O2)].
        * rewrite O. unfold a1. destruct (fgt (f c) a); [right; exists c; split; [left; reflexivity|reflexivity]|left; reflexivity].
        * right. exists c'. split; [right; exact O1|exact O2].
      + constructor; [lra|exact L2].
  Qed.
  Lemma fold_split cs a b c d :
    fold_left bounding_step cs (a, b, c, d) =
    (fold_left (fun a c => if flt (lat c) a then lat c else a) cs a,
     fold_left (fun a c => if fgt (lat c) a then lat c else a) cs b,
     fold_left (fun a c => if flt (lon c) a then lon c else a) cs c,
     fold_left (fun a c => if fgt (lon c) a then lon c else a) cs d).
  Proof. revert a b c d. induction cs as [|x cs IH]; intros; [reflexivity|]. cbn [fold_left bounding_step]. apply IH. Qed.
End Bounding.

Lemma bounding_spec cs : cs <> [] -> Forall fgeo cs -> exists e, bounding_extent cs = Ok e /\
  fin_extent e /\
  Forall (fun c => (xr (lat (min_coord e)) <= xr (lat c) <= xr (lat (max_coord e)))%R /\
                   (xr (lon (min_coord e)) <= xr (lon c) <= xr (lon (max_coord e)))%R) cs /\
  (exists c, In c cs /\ xr (lat c) = xr (lat (min_coord e))) /\
  (exists c, In c cs /\ xr (lat c) = xr (lat (max_coord e))) /\
  (exists c, In c cs /\ xr (lon c) = xr (lon (min_coord e))) /\
  (exists c, In c cs /\ xr (lon c) = xr (lon (max_coord e))).
Proof.
  intros N H. unfold bounding_extent. rewrite fold_split.
  assert (Hla : Forall (fun c => fin (lat c)) cs) by (eapply Forall_impl; [|exact H]; intros c [[K _] _]; exact K).
  assert (Hlo : Forall (fun c => fin (lon c)) cs) by (eapply Forall_impl; [|exact H]; intros c [[_ K] _]; exact K).
  destruct (fin_Z 90 ltac:(lia)) as [F1 E1]. destruct (fin_Z (-90) ltac:(lia)) as [F2 E2].
  destruct (fin_Z 180 ltac:(lia)) as [F3 E3]. destruct (fin_Z (-180) ltac:(lia)) as [F4 E4].
  destruct (fold_min lat cs MAX_LAT Hla F1) as (A1 & A2 & A3 & A4).
  destruct (fold_max lat cs MIN_LAT Hla F2) as (B1 & B2 & B3 & B4).
  destruct (fold_min lon cs MAX_LON Hlo F3) as (C1 & C2 & C3 & C4).
  destruct (fold_max lon cs MIN_LON Hlo F4) as (D1 & D2 & D3 & D4).
  cbv zeta in *.
  set (mnla := fold_left _ cs MAX_LAT) in *. set (mxla := fold_left _ cs MIN_LAT) in *.
  set (mnlo := fold_left _ cs MAX_LON) in *. set (mxlo := fold_left _ cs MIN_LON) in *.
  change (xr MAX_LAT) with (xr (f32_of_Z 90)) in *. change (xr MIN_LAT) with (xr (f32_of_Z (-90))) in *.
  change (xr MAX_LON) with (xr (f32_of_Z 180)) in *. change (xr MIN_LON) with (xr (f32_of_Z (-180))) in *.
  destruct cs as [|c0 cs0]; [congruence|]. set (cs := c0 :: cs0) in *.
  assert (H0 : fgeo c0) by (apply Forall_inv in H; exact H).
  assert (I0 : In c0 cs) by (left; reflexivity).
  rewrite Forall_forall in H, A4, B4, C4, D4.
  assert (TA : exists c, In c cs /\ xr (lat c) = xr mnla).
  { destruct A2 as [A2|(c & I & A2)]; [|exists c; rewrite A2; auto].
    exists c0. split; [exact I0|]. specialize (A4 c0 I0). rewrite A2 in *.
    change (xr MAX_LAT) with (xr (f32_of_Z 90)) in *. destruct H0 as (_ & B & _). rewrite E1 in *. lra. }
  assert (TB : exists c, In c cs /\ xr (lat c) = xr mxla).
  { destruct B2 as [A2'|(c & I & A2')]; [|exists c; rewrite A2'; auto].
    exists c0. split; [exact I0|]. specialize (B4 c0 I0). rewrite A2' in *.
    change (xr MIN_LAT) with (xr (f32_of_Z (-90))) in *. destruct H0 as (_ & B & _). rewrite E2 in *. lra. }
  assert (TC : exists c, In c cs /\ xr (lon c) = xr mnlo).
  { destruct C2 as [A2'|(c & I & A2')]; [|exists c; rewrite A2'; auto].
    exfalso. specialize (C4 c0 I0). rewrite A2' in *.
    change (xr MAX_LON) with (xr (f32_of_Z 180)) in *. destruct H0 as (_ & _ & B). rewrite E3 in *. lra. }
  assert (TD : exists c, In c cs /\ xr (lon c) = xr mxlo).
  { destruct D2 as [A2'|(c & I & A2')]; [|exists c; rewrite A2'; auto].
    exists c0. split; [exact I0|]. specialize (D4 c0 I0). rewrite A2' in *.
    change (xr MIN_LON) with (xr (f32_of_Z (-180))) in *. destruct H0 as (_ & _ & B). rewrite E4 in *. lra. }
  assert (R : forall x, (exists c, In c cs /\ xr (lat c) = xr x) \/ (exists c, In c cs /\ xr (lon c) = xr x) -> fin x ->
    normalize_deg x = x).
  { intros x O Fx. apply normalize_id; [exact Fx|]. destruct O as [(c & I & O)|(c & I & O)]; destruct (H c I) as (_ & K1 & K2); lra. }
  unfold lat_lon_new. rewrite !R by auto.
  eexists. split; [|split].
  - apply extent_new_spec; [split; assumption|split; assumption|]. cbn [lat lon].
    specialize (A4 c0 I0). specialize (B4 c0 I0). specialize (C4 c0 I0). specialize (D4 c0 I0). lra.
  - split; split; assumption.
  - cbn [min_coord max_coord lat lon]. split; [|split; [exact TA|split; [exact TB|split; [exact TC|exact TD]]]].
    apply Forall_forall. intros c I. specialize (A4 c I). specialize (B4 c I). specialize (C4 c I). specialize (D4 c I). lra.
Qed.

(** ** C14: index bijection *)
Lemma index_spec g x y : 0 <= x -> 0 <= y ->
  (index_by_xy g x y <> None <-> x < g_w g /\ y < g_h g) /\
  (forall i, index_by_xy g x y = Some i -> i = y * g_w g + x /\ 0 <= i < g_w g * g_h g).
Proof.
  intros Hx Hy. unfold index_by_xy.
  destruct (Z.leb_spec (g_w g) x), (Z.leb_spec (g_h g) y); cbn [orb]; (split; [|let i := fresh in intros i E; inversion E; subst; clear E]); try (split; [congruence|lia]); try (split; [lia|congruence]); nia.
Qed.

(** ** C15: fractional cell coordinates along one axis *)
(** Error of one rounding, also in the subnormal range. *)
Lemma rnd_err r : (Rabs (rnd r - r) <= ulp_half * Rabs r + bpow radix2 (-150))%R.
Proof.
  destruct (Rle_or_lt (bpow radix2 (-126)) (Rabs r)) as [L|L].
  - pose proof (rnd_rel r L). pose proof (bpow_ge_0 radix2 (-150)). lra.
  - assert (U : (Rabs (rnd r - r) <= / 2 * ulp radix2 fexp32 r)%R) by (apply error_le_half_ulp; apply fexp32_valid).
    assert (E : (ulp radix2 fexp32 r = bpow radix2 (-149))%R).
    { change fexp32 with (FLT_exp (-149) 24). apply ulp_FLT_small.
      - constructor.
      - eapply Rlt_le_trans; [exact L|]. apply bpow_le. lia. }
    rewrite E in U. assert (/ 2 * bpow radix2 (-149) = bpow radix2 (-150))%R as K.
    { change (-149) with (-150 + 1). rewrite bpow_plus. change (bpow radix2 1) with 2%R. field. }
    rewrite K in U. assert (0 <= ulp_half * Rabs r)%R; [|lra].
    apply Rmult_le_pos; [apply bpow_ge_0|apply Rabs_pos].
Qed.
Section Axis.
  Variables (mn mx : f32) (n : Z).
  Hypothesis Fmn : fin mn.
  Hypothesis Fmx : fin mx.
  Hypothesis Hn : 1 <= n <= 2 ^ 24.
  Hypothesis Hlo : (bpow radix2 (-100) <= xr mx - xr mn)%R.
  Hypothesis Hhi : (xr mx - xr mn <= bpow radix2 100)%R.
  Let inc := fdiv (fsub mx mn) (f32_of_Z n).
  Definition axis_coord (p : f32) : f32 := fdiv (fsub p mn) inc.

  Lemma gen_bpow k : -149 <= k -> generic_format radix2 fexp32 (bpow radix2 k).
  Proof. intro H. pose proof (gen_F2R 1 k ltac:(lia) H) as G. unfold F2R in G. cbn [Fnum Fexp] in G. rewrite Rmult_1_l in G. exact G. Qed.
  Lemma bpow_big k : k < 128 -> (bpow radix2 k < big)%R.
  Proof. intro H. apply bpow_lt. exact H. Qed.

  Lemma axis_extent : fin (fsub mx mn) /\ xr (fsub mx mn) = rnd (xr mx - xr mn) /\
    (bpow radix2 (-100) <= rnd (xr mx - xr mn) <= bpow radix2 100)%R.
  Proof.
    assert (B : (bpow radix2 (-100) <= rnd (xr mx - xr mn) <= bpow radix2 100)%R).
    { apply rnd_between; [apply gen_bpow; lia|apply gen_bpow; lia|lra]. }
    pose proof (bpow_gt_0 radix2 (-100)). pose proof (bpow_big 100 ltac:(lia)).
    destruct (rounds_fin _ _ (fin_sub mx mn Fmx Fmn)) as [F E].
    { rewrite Rabs_pos_eq; lra. }
    auto.
  Qed.
  Lemma axis_inc : fin inc /\ (0 < xr inc)%R /\
    (xr (fsub mx mn) / IZR n * (1 - / 16777216) <= xr inc <= xr (fsub mx mn) / IZR n * (1 + / 16777216))%R /\
    (bpow radix2 (-125) <= xr inc <= bpow radix2 100)%R.
  Proof.
    destruct axis_extent as (F & E & B). rewrite <- E in B. clear E.
    destruct (fin_Z n ltac:(lia)) as [Fn En].
    assert (N1 : (1 <= IZR n <= 16777216)%R) by (split; apply IZR_le; lia).
    set (D := xr (fsub mx mn)) in *.
    assert (B1 : (bpow radix2 (-125) <= D / IZR n <= bpow radix2 100)%R).
    { pose proof (bpow_gt_0 radix2 (-100)). split.
      - apply Rmult_le_reg_r with (IZR n); [lra|]. replace (D / IZR n * IZR n)%R with D by (field; lra).
        apply Rle_trans with (bpow radix2 (-125) * 16777216)%R; [apply Rmult_le_compat_l; [apply bpow_ge_0|lra]|].
        apply Rle_trans with (bpow radix2 (-101)); [|apply Rle_trans with (bpow radix2 (-100)); [apply bpow_le; lia|lra]].
        change 16777216%R with (bpow radix2 24). rewrite <- bpow_plus. apply Rle_refl.
      - apply Rmult_le_reg_r with (IZR n); [lra|]. replace (D / IZR n * IZR n)%R with D by (field; lra).
        pose proof (bpow_gt_0 radix2 100). nra. }
    assert (B2 : (bpow radix2 (-125) <= rnd (D / IZR n) <= bpow radix2 100)%R).
    { apply rnd_between; [apply gen_bpow; lia|apply gen_bpow; lia|exact B1]. }
    pose proof (fin_div _ _ F Fn ltac:(rewrite En; lra)) as R. rewrite En in R. fold D in R.
    pose proof (bpow_gt_0 radix2 (-125)) as P0. pose proof (bpow_big 100 ltac:(lia)) as P1.
    destruct (rounds_fin _ _ R) as [Fi Ei].
    { rewrite Rabs_pos_eq; lra. }
    fold inc in Fi, Ei. split; [exact Fi|]. rewrite Ei. split; [lra|]. split; [|exact B2].
    pose proof (rnd_rel (D / IZR n)) as Q.
    assert (Hu : (ulp_half = / 16777216)%R) by (unfold ulp_half; cbn; lra). rewrite Hu in Q.
    rewrite (Rabs_pos_eq (D / IZR n)) in Q by lra.
    assert (bpow radix2 (-126) <= D / IZR n)%R as L.
    { apply Rle_trans with (bpow radix2 (-125)); [apply bpow_le; lia|lra]. }
    specialize (Q L). apply Rabs_le_inv in Q. lra.
  Qed.
  Lemma axis_coord_spec p : fin p -> (xr mn <= xr p < xr mx)%R ->
    fin (axis_coord p) /\ xr (axis_coord p) = rnd (rnd (xr p - xr mn) / xr inc) /\
    (0 <= xr (axis_coord p) <= IZR n * (1 + bpow radix2 (-22)))%R.
  Proof.
    intros Fp Hp. destruct axis_extent as (Fe & Ee & Be). destruct axis_inc as (Fi & Pi & Ri & Bi).
    assert (N1 : (1 <= IZR n <= 16777216)%R) by (split; apply IZR_le; lia).
    assert (Q1 : (0 <= rnd (xr p - xr mn) <= rnd (xr mx - xr mn))%R).
    { split; [rewrite <- rnd_0 at 1; apply rnd_mono; lra|apply rnd_mono; lra]. }
    pose proof (bpow_gt_0 radix2 (-100)) as P0. pose proof (bpow_big 100 ltac:(lia)) as P1.
    destruct (rounds_fin _ _ (fin_sub p mn Fp Fmn)) as [F E].
    { rewrite Rabs_pos_eq; lra. }
    rewrite <- Ee in Q1. set (D := xr (fsub mx mn)) in *.
    pose proof (fin_div _ _ F Fi ltac:(lra)) as R. rewrite E in R.
    set (q := (rnd (xr p - xr mn) / xr inc)%R) in *.
    assert (B : (0 <= q <= IZR n * (1 + / 8388608 + / 8388608 * / 8388608))%R).
    { unfold q. split.
      - apply Rmult_le_pos; [lra|]. apply Rlt_le, Rinv_0_lt_compat, Pi.
      - apply Rmult_le_reg_r with (xr inc); [exact Pi|].
        replace (rnd (xr p - xr mn) / xr inc * xr inc)%R with (rnd (xr p - xr mn)) by (field; lra).
        apply Rle_trans with D; [lra|].
        apply Rle_trans with (IZR n * (1 + / 8388608 + / 8388608 * / 8388608) * (D / IZR n * (1 - / 16777216)))%R.
        + replace (IZR n * (1 + / 8388608 + / 8388608 * / 8388608) * (D / IZR n * (1 - / 16777216)))%R
            with (D * ((1 + / 8388608 + / 8388608 * / 8388608) * (1 - / 16777216)))%R by (field; lra).
          assert (0 <= D)%R by lra. nra.
        + apply Rmult_le_compat_l; [|lra]. nra. }
    assert (Qb : (Rabs (rnd q - q) <= / 16777216 * q + bpow radix2 (-149))%R \/ True) by (right; exact I).
    assert (Rb : (0 <= rnd q <= IZR n * (1 + bpow radix2 (-22)))%R).
    { split.
      - rewrite <- rnd_0 at 1. apply rnd_mono. lra.
      - assert (H22 : (bpow radix2 (-22) = / 4194304)%R) by (cbn; lra). rewrite H22.
        destruct (Rle_or_lt (bpow radix2 (-126)) q) as [L|L].
        + pose proof (rnd_rel q) as RR. rewrite (Rabs_pos_eq q) in RR by lra. specialize (RR L).
          assert (Hu : (ulp_half = / 16777216)%R) by (unfold ulp_half; cbn; lra). rewrite Hu in RR.
          apply Rabs_le_inv in RR. nra.
        + apply Rle_trans with 1%R; [|nra]. rewrite <- (rnd_gen 1) by (apply (gen_Z 1); lia). apply rnd_mono.
          apply Rlt_le. eapply Rlt_trans; [exact L|]. change 1%R with (bpow radix2 0). apply bpow_lt. lia. }
    destruct (rounds_fin _ _ R) as [Fa Ea].
    { assert (H22 : (bpow radix2 (-22) <= 1)%R) by (change 1%R with (bpow radix2 0); apply bpow_le; lia).
      rewrite Rabs_pos_eq by lra. eapply Rle_lt_trans; [apply Rb|].
      apply Rle_lt_trans with (bpow radix2 25); [|apply bpow_big; lia].
      change (bpow radix2 25) with 33554432%R. nra. }
    fold (axis_coord p) in Fa, Ea. split; [exact Fa|]. rewrite Ea. split; [reflexivity|exact Rb].
  Qed.
  Lemma axis_coord_mono p p' : fin p -> fin p' -> (xr mn <= xr p)%R -> (xr p <= xr p')%R -> (xr p' < xr mx)%R ->
    (xr (axis_coord p) <= xr (axis_coord p'))%R.
  Proof.
    intros Fp Fp' H1 H2 H3. destruct axis_inc as (_ & Pi & _).
    destruct (axis_coord_spec p Fp ltac:(lra)) as (_ & -> & _).
    destruct (axis_coord_spec p' Fp' ltac:(lra)) as (_ & -> & _).
    apply rnd_mono. apply Rmult_le_compat_r; [apply Rlt_le, Rinv_0_lt_compat, Pi|]. apply rnd_mono. lra.
  Qed.
  (** Distance from the exact fractional coordinate. *)
  Lemma axis_coord_err p : fin p -> (xr mn <= xr p < xr mx)%R ->
    (Rabs (xr (axis_coord p) - IZR n * ((xr p - xr mn) / (xr mx - xr mn))) <= IZR n * bpow radix2 (-21))%R.
  Proof.
    intros Fp Hp. destruct axis_extent as (Fe & Ee & Be). destruct axis_inc as (Fi & Pi & Ri & Bi).
    destruct (axis_coord_spec p Fp Hp) as (_ & -> & _).
    assert (N1 : (1 <= IZR n <= 16777216)%R) by (split; apply IZR_le; lia).
    assert (Hu : (ulp_half = / 16777216)%R) by (unfold ulp_half; cbn; lra).
    set (a := (xr p - xr mn)%R). set (E := (xr mx - xr mn)%R) in *. assert (Ba : (0 <= a <= E)%R) by (unfold a, E; lra).
    pose proof (bpow_gt_0 radix2 (-100)) as P0.
    assert (S150 : (bpow radix2 (-150) <= E * / 1073741824)%R).
    { apply Rle_trans with (bpow radix2 (-100) * bpow radix2 (-30))%R; [rewrite <- bpow_plus; apply bpow_le; lia|].
      change (bpow radix2 (-30)) with (/ 1073741824)%R. lra. }
    assert (S150' : (bpow radix2 (-150) <= / 1073741824)%R).
    { change (/ 1073741824)%R with (bpow radix2 (-30)). apply bpow_le. lia. }
    assert (K1 : (Rabs (rnd a - a) <= E * / 16000000)%R).
    { pose proof (rnd_err a) as Q. rewrite Hu, (Rabs_pos_eq a) in Q by lra. lra. }
    assert (K2 : (Rabs (rnd E - E) <= E * / 16777216)%R).
    { pose proof (rnd_rel E) as Q. rewrite Hu, (Rabs_pos_eq E) in Q by lra. rewrite Rmult_comm. apply Q.
      apply Rle_trans with (bpow radix2 (-100)); [apply bpow_le; lia|lra]. }
    rewrite Ee in Ri. set (I := (xr inc * IZR n)%R).
    apply Rabs_le_inv in K1, K2.
    assert (K3 : (E * (1 - / 8000000) <= I <= E * (1 + / 8000000))%R).
    { unfold I. assert (J : (rnd E * (1 - / 16777216) <= xr inc * IZR n <= rnd E * (1 + / 16777216))%R).
      { destruct Ri as [R1 R2]. apply Rmult_le_compat_r with (r := IZR n) in R1; [|lra].
        apply Rmult_le_compat_r with (r := IZR n) in R2; [|lra].
        replace (rnd E / IZR n * (1 - / 16777216) * IZR n)%R with (rnd E * (1 - / 16777216))%R in R1 by (field; lra).
        replace (rnd E / IZR n * (1 + / 16777216) * IZR n)%R with (rnd E * (1 + / 16777216))%R in R2 by (field; lra). lra. }
      lra. }
    set (T := (IZR n * (a / E))%R). set (q := (rnd a / xr inc)%R).
    assert (P1 : (0 < E)%R) by lra. assert (P2 : (0 < I)%R) by lra.
    assert (Eq : (q - T = IZR n * (((rnd a - a) * E - a * (I - E)) / (I * E)))%R).
    { unfold q, T, I. field. lra. }
    assert (K4 : (Rabs ((rnd a - a) * E - a * (I - E)) <= E * E * (/ 16000000 + / 8000000))%R).
    { apply Rabs_le. assert (- (E * / 16000000) * E <= (rnd a - a) * E <= E * / 16000000 * E)%R by (split; apply Rmult_le_compat_r; lra).
      assert (- (E * (E * / 8000000)) <= a * (I - E) <= E * (E * / 8000000))%R.
      { assert (Rabs (a * (I - E)) <= E * (E * / 8000000))%R as W; [|apply Rabs_le_inv in W; lra].
        rewrite Rabs_mult. apply Rmult_le_compat; try apply Rabs_pos; [rewrite Rabs_pos_eq; lra|]. apply Rabs_le. lra. }
      lra. }
    assert (K5 : (Rabs (q - T) <= IZR n * / 5000000)%R).
    { rewrite Eq, Rabs_mult, (Rabs_pos_eq (IZR n)) by lra. apply Rmult_le_compat_l; [lra|].
      unfold Rdiv. rewrite Rabs_mult, Rabs_inv, (Rabs_pos_eq (I * E)) by (apply Rmult_le_pos; lra).
      apply Rmult_le_reg_r with (I * E)%R; [apply Rmult_lt_0_compat; lra|]. rewrite Rmult_assoc, Rinv_l, Rmult_1_r by (apply Rgt_not_eq, Rmult_lt_0_compat; lra).
      eapply Rle_trans; [exact K4|].
      assert (E * (1 - / 8000000) * E <= I * E)%R by (apply Rmult_le_compat_r; lra). assert (0 <= E * E)%R by nra. lra. }
    assert (BT : (0 <= T <= IZR n)%R).
    { unfold T. assert (0 <= a / E <= 1)%R; [|nra]. split; [apply Rmult_le_pos; [lra|apply Rlt_le, Rinv_0_lt_compat; lra]|].
      apply Rmult_le_reg_r with E; [lra|]. unfold Rdiv. rewrite Rmult_assoc, Rinv_l by lra. lra. }
    apply Rabs_le_inv in K5.
    pose proof (rnd_err q) as Q. rewrite Hu in Q.
    assert (Rabs q <= IZR n * (1 + / 5000000))%R by (apply Rabs_le; lra).
    assert (Q' : (Rabs (rnd q - q) <= IZR n * / 15000000)%R) by lra.
    apply Rabs_le_inv in Q'. apply Rabs_le. assert (H21 : (bpow radix2 (-21) = / 2097152)%R) by (cbn; lra). rewrite H21. lra.
  Qed.
End Axis.
