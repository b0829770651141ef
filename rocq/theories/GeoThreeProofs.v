(** Proofs about values with three neighbours (C20). *)
From Coq Require Import ZArith Reals Psatz Bool List Lia Lra.
From Coq Require Import Floats.SpecFloat.
From Flocq Require Import Core.Core Relative.
From Verif Require Import Base F32 F32Facts Grib2Model GeoModel GeoSpec GeoProofs GeoValueProofs.
Import ListNotations.
Open Scope R_scope.

Definition tiny : R := / 2 ^ 150.
Lemma tiny_bpow : bpow radix2 (-150) = tiny.
Proof.
  unfold tiny. change (-150)%Z with (Z.opp 150). rewrite bpow_opp. f_equal. rewrite <- (IZR_Zpower radix2) by lia.
  rewrite (pow_IZR 2 150). f_equal.
Qed.
Lemma tiny_pos : 0 < tiny.
Proof. apply Rinv_0_lt_compat, pow_lt. lra. Qed.
Lemma rnd_close r : Rabs (rnd r - r) <= Rabs r / 16777216 + tiny.
Proof.
  rewrite <- tiny_bpow.
  destruct (error_N_FLT radix2 (-149) 24 eq_refl (fun z => negb (Z.even z)) r) as (eps & eta & H1 & H2 & _ & E).
  unfold rnd. change (round radix2 fexp32 ZnearestE r) with (round radix2 (FLT_exp (-149) 24) ZnearestE r). rewrite E.
  replace (r * (1 + eps) + eta - r) with (r * eps + eta) by ring. eapply Rle_trans; [apply Rabs_triang|]. rewrite Rabs_mult.
  apply Rplus_le_compat.
  - unfold Rdiv. apply Rmult_le_compat_l; [apply Rabs_pos|]. eapply Rle_trans; [exact H1|]. cbn. lra.
  - eapply Rle_trans; [exact H2|]. cbn. lra.
Qed.
Lemma two_big k : (k <= 126)%nat -> 2 ^ k * 2 < big.
Proof.
  intro H. apply Rle_lt_trans with (2 ^ 127).
  - rewrite Rmult_comm. change (2 * 2 ^ k) with (2 ^ S k). apply Rle_pow; [lra|lia].
  - rewrite (pow_IZR 2 127). unfold big. rewrite <- (IZR_Zpower radix2) by lia. apply IZR_lt. reflexivity.
Qed.
(** A rounded result of moderate size is finite and close. *)
Lemma close_fin z r B : rounds_to z r -> Rabs r <= B -> 1 <= B <= 2 ^ 126 -> fin z /\ Rabs (xr z - r) <= Rabs r / 16777216 + tiny.
Proof.
  intros R L H. pose proof (rnd_close r) as C. pose proof (two_big 126 ltac:(lia)) as T. pose proof (Rabs_pos r).
  assert (tiny <= / 2). { unfold tiny. apply Rinv_le_contravar; [lra|]. apply Rle_trans with (2 ^ 1); [lra|apply Rle_pow; [lra|lia]]. }
  assert (A : Rabs (rnd r) < big).
  { replace (rnd r) with ((rnd r - r) + r) by ring. eapply Rle_lt_trans; [apply Rabs_triang|]. lra. }
  destruct (rounds_fin z r R A) as [F E]. split; [exact F|]. rewrite E. exact C.
Qed.

(** ** Sums *)
Section Sums.
Variable A : Type.
Variable f : A -> list f32.
Variable r b : A -> R.
Variable delta eta : R.
Hypothesis D : 0 <= delta <= / 65536.
Hypothesis N : 2 * tiny <= eta <= 1.
Definition term_ok (a : A) : Prop :=
  0 <= b a /\ Rabs (r a) <= b a /\
  ((f a = [] /\ r a = 0) \/ (exists x, f a = [x] /\ fin x /\ Rabs (xr x - r a) <= delta * b a + eta)).
Lemma sum_close : forall (l : list A) (acc : f32) (R0 B0 : R) (k : nat),
  Forall term_ok l -> fin acc -> Rabs R0 <= B0 -> Rabs (xr acc - R0) <= (delta + INR k / 8388608) * B0 + INR k * (2 * eta) ->
  (k + length l <= 8)%nat -> B0 + real_sum (map b l) <= 2 ^ 110 ->
  exists z, fold_left fadd (flat_map f l) acc = z /\ fin z /\
    Rabs (xr z - (R0 + real_sum (map r l))) <= (delta + INR (k + length l) / 8388608) * (B0 + real_sum (map b l)) + INR (k + length l) * (2 * eta).
Proof.
  induction l as [|a l IH]; intros acc R0 B0 k F Fa RB H K B; cbn [map real_sum fold_right flat_map fold_left length] in *.
  - rewrite !Rplus_0_r, Nat.add_0_r. exists acc. auto.
  - inversion F as [|? ? T F']; subst. destruct T as (P & Q & S).
    fold (real_sum (map r l)) in *. fold (real_sum (map b l)) in *.
    assert (BS : 0 <= real_sum (map b l)).
    { clear -F'. induction F' as [|c l T _ IH]; cbn [map real_sum fold_right]; [lra|]. destruct T. fold (real_sum (map b l)). lra. }
    pose proof tiny_pos as TP. assert (B0p : 0 <= B0) by (pose proof (Rabs_pos R0); lra).
    assert (KR : 0 <= INR k <= 8). { split; [apply pos_INR|]. replace 8 with (INR 8) by (cbn; lra). apply le_INR. lia. }
    destruct S as [[-> R0a]|(x & -> & Fx & X)].
    + cbn [app]. destruct (IH acc R0 (B0 + b a) k F' Fa ltac:(lra)) as (z & E & Fz & Z).
      * eapply Rle_trans; [exact H|]. apply Rplus_le_compat_r. apply Rmult_le_compat_l; [|lra]. lra.
      * lia.
      * lra.
      * exists z. split; [exact E|]. split; [exact Fz|]. rewrite R0a. replace (R0 + (0 + real_sum (map r l))) with (R0 + real_sum (map r l)) by ring.
        eapply Rle_trans; [exact Z|]. replace (k + S (length l))%nat with (S (k + length l)) by lia. rewrite S_INR.
        pose proof (pos_INR (k + length l)). pose proof tiny_pos. apply Rplus_le_compat; [|nra].
        replace (B0 + (b a + real_sum (map b l))) with (B0 + b a + real_sum (map b l)) by ring. apply Rmult_le_compat_r; lra.
    + cbn [app fold_left]. pose proof (fin_add acc x Fa Fx) as RD.
      assert (TS : Rabs (xr acc + xr x - (R0 + r a)) <= (delta + INR k / 8388608) * B0 + INR k * (2 * eta) + (delta * b a + eta)).
      { replace (xr acc + xr x - (R0 + r a)) with ((xr acc - R0) + (xr x - r a)) by ring. eapply Rle_trans; [apply Rabs_triang|]. lra. }
      assert (TR : Rabs (R0 + r a) <= B0 + b a) by (eapply Rle_trans; [apply Rabs_triang|]; lra).
      assert (TA : Rabs (xr acc + xr x) <= (B0 + b a) * (1 + / 32768) + 17 * eta).
      { replace (xr acc + xr x) with ((xr acc + xr x - (R0 + r a)) + (R0 + r a)) by ring. eapply Rle_trans; [apply Rabs_triang|].
        assert ((delta + INR k / 8388608) * B0 <= / 32768 * B0) by (apply Rmult_le_compat_r; lra).
        assert (delta * b a <= / 32768 * b a) by (apply Rmult_le_compat_r; lra). assert (INR k * (2 * eta) <= 8 * (2 * eta)) by (apply Rmult_le_compat_r; lra). lra. }
      destruct (close_fin _ _ (2 ^ 120) RD) as [Fz Z].
      { eapply Rle_trans; [exact TA|]. assert (2 ^ 120 = 1024 * 2 ^ 110) by (replace 1024 with (2 ^ 10) by (simpl; lra); rewrite <- pow_add; reflexivity).
        assert (1 <= 2 ^ 110) by (apply pow_R1_Rle; lra). lra. }
      { split; [apply pow_R1_Rle; lra|apply Rle_pow; [lra|lia]]. }
      destruct (IH (fadd acc x) (R0 + r a) (B0 + b a) (S k) F' Fz TR) as (z & E & Fz' & Z').
      * replace (xr (fadd acc x) - (R0 + r a)) with ((xr (fadd acc x) - (xr acc + xr x)) + (xr acc + xr x - (R0 + r a))) by ring.
        eapply Rle_trans; [apply Rabs_triang|]. rewrite S_INR. set (q := INR k) in *. clearbody q.
        assert (Rabs (xr acc + xr x) / 16777216 <= (B0 + b a) / 8388608 + eta / 2) by lra.
        replace ((delta + (q + 1) / 8388608) * (B0 + b a) + (q + 1) * (2 * eta)) with
          ((delta + q / 8388608) * B0 + (delta * b a + q / 8388608 * b a) + (B0 + b a) / 8388608 + q * (2 * eta) + 2 * eta) by field.
        assert (0 <= q / 8388608 * b a) by (apply Rmult_le_pos; lra). lra.
      * lia.
      * lra.
      * exists z. split; [exact E|]. split; [exact Fz'|].
        replace (R0 + (r a + real_sum (map r l))) with (R0 + r a + real_sum (map r l)) by ring.
        replace (B0 + (b a + real_sum (map b l))) with (B0 + b a + real_sum (map b l)) by ring.
        replace (k + S (length l))%nat with (S k + length l)%nat by lia. exact Z'.
Qed.
End Sums.

(** ** Distances and weights *)
Lemma pow_100 : 2 ^ 100 = 2 ^ 50 * 2 ^ 50.
Proof. rewrite <- pow_add. reflexivity. Qed.
Lemma pow50 : 1 <= 2 ^ 50. Proof. apply pow_R1_Rle. lra. Qed.
Lemma distance_bounds cd : proper_distance cd -> / 2 ^ 50 <= distance cd <= 2 ^ 50.
Proof.
  intros (_ & L & U). pose proof pow50. unfold distance. rewrite pow_100 in L, U. rewrite Rinv_mult in L. split.
  - rewrite <- (sqrt_square (/ 2 ^ 50)); [apply sqrt_le_1_alt; exact L|]. apply Rlt_le, Rinv_0_lt_compat. lra.
  - rewrite <- (sqrt_square (2 ^ 50)) by lra. apply sqrt_le_1_alt. exact U.
Qed.
Lemma tiny_50 : 1024 * 1024 * 1024 * 1024 * tiny <= / 2 ^ 50 /\ 1 * tiny * 2 ^ 100 <= / 1024 /\ 1024 * tiny <= / 2 ^ 140.
Proof.
  unfold tiny. assert (E : 2 ^ 150 = 1024 * 2 ^ 140) by (replace 1024 with (2 ^ 10) by (simpl; lra); rewrite <- pow_add; reflexivity).
  assert (E2 : 2 ^ 140 = 2 ^ 50 * (2 ^ 50 * 2 ^ 40)) by (rewrite <- !pow_add; reflexivity).
  pose proof pow50. assert (P4 : 2 ^ 40 = 1024 * 1024 * 1024 * 1024) by (simpl; lra). split; [|split].
  - rewrite E, E2, P4. set (p := 2 ^ 50) in *. rewrite !Rinv_mult. assert (0 < / p <= 1) by (split; [apply Rinv_0_lt_compat; lra|rewrite <- Rinv_1; apply Rinv_le_contravar; lra]).
    assert (/ p * / p <= / p) by nra. lra.
  - rewrite E, E2, pow_100, P4. set (p := 2 ^ 50) in *. replace (1 * / (1024 * (p * (p * (1024 * 1024 * 1024 * 1024)))) * (p * p)) with (/ (1024 * (1024 * 1024 * 1024 * 1024))) by (field; lra). lra.
  - rewrite E, Rinv_mult. assert (0 < / 2 ^ 140) by (apply Rinv_0_lt_compat, pow_lt; lra). lra.
Qed.
Lemma sqrt_close cd : proper_distance cd ->
  fin (fsqrt (snd cd)) /\ Rabs (xr (fsqrt (snd cd)) - distance cd) <= distance cd / 16777216 + tiny.
Proof.
  intro H. destruct (distance_bounds cd H) as [L U]. destruct H as ((V & F) & Lo & Hi).
  assert (P : 0 < / 2 ^ 100) by (apply Rinv_0_lt_compat, pow_lt; lra).
  pose proof (fsqrt_rounds (snd cd) V F ltac:(lra)) as R. fold (distance cd) in R.
  assert (D0 : 0 <= distance cd) by apply sqrt_pos. pose proof pow50.
  destruct (close_fin _ _ (2 ^ 50) R) as [G C]; [rewrite Rabs_pos_eq by exact D0; exact U|split; [lra|apply Rle_pow; [lra|lia]]|].
  rewrite (Rabs_pos_eq (distance cd)) in C by exact D0. auto.
Qed.
Lemma map_flat {A B} (g : A -> B) l : map g l = flat_map (fun a => [g a]) l.
Proof. induction l; cbn; congruence. Qed.
Lemma total_close ds : ds <> [] -> (length ds <= 3)%nat -> Forall proper_distance ds ->
  let Q := real_sum (map distance ds) in let T := fsum (map (fun cd : coord_dist => fsqrt (snd cd)) ds) in
  / 2 ^ 50 <= Q <= 3 * 2 ^ 50 /\ fin T /\ Rabs (xr T - Q) <= Q / 2097152.
Proof.
  intros Ne L F Q T. pose proof pow50. destruct tiny_50 as (T1 & _ & _). pose proof tiny_pos as TP.
  assert (LQ : / 2 ^ 50 <= Q /\ Q <= INR (length ds) * 2 ^ 50).
  { destruct ds as [|cd ds]; [contradiction|]. inversion F as [|? ? P F']; subst. destruct (distance_bounds cd P) as [A B]. unfold Q. cbn [map real_sum fold_right length].
    fold (real_sum (map distance ds)). rewrite S_INR. assert (G : 0 <= real_sum (map distance ds) <= INR (length ds) * 2 ^ 50).
    { clear -F'. induction F' as [|c l P _ IH]; cbn [map real_sum fold_right length]; [cbn; lra|]. fold (real_sum (map distance l)). rewrite S_INR.
      destruct (distance_bounds c P) as [A B]. assert (0 <= distance c) by apply sqrt_pos. lra. }
    lra. }
  assert (L3 : INR (length ds) <= 3) by (replace 3 with (INR 3) by (cbn; lra); apply le_INR; exact L). pose proof (pos_INR (length ds)) as L0.
  assert (QB : / 2 ^ 50 <= Q <= 3 * 2 ^ 50) by (split; [apply LQ|]; apply Rle_trans with (INR (length ds) * 2 ^ 50); [apply LQ|apply Rmult_le_compat_r; lra]).
  assert (Q0 : 0 < Q) by (assert (0 < / 2 ^ 50) by (apply Rinv_0_lt_compat; lra); lra).
  split; [exact QB|].
  destruct (sum_close coord_dist (fun cd => [fsqrt (snd cd)]) distance distance (/ 16777216) (2 * tiny) ltac:(lra)) with (l := ds) (acc := fzero) (R0 := 0) (B0 := 0) (k := 0%nat) as (z & E & Fz & Z).
  - split; [lra|]. assert (tiny <= / 2) by (unfold tiny; apply Rinv_le_contravar; [lra|]; apply Rle_trans with (2 ^ 1); [lra|apply Rle_pow; [lra|lia]]). lra.
  - eapply Forall_impl; [|exact F]. intros cd P. assert (0 <= distance cd) by apply sqrt_pos. unfold term_ok.
    split; [assumption|]. split; [rewrite Rabs_pos_eq by assumption; lra|]. right. destruct (sqrt_close cd P) as [A B].
    exists (fsqrt (snd cd)). split; [reflexivity|]. split; [exact A|]. lra.
  - split; reflexivity.
  - rewrite Rabs_R0. lra.
  - cbn. replace (0 - 0) with 0 by ring. rewrite Rabs_R0. lra.
  - lia.
  - fold Q. assert (2 ^ 52 <= 2 ^ 110) by (apply Rle_pow; [lra|lia]). assert (2 ^ 52 = 4 * 2 ^ 50) by (replace 4 with (2 ^ 2) by (simpl; lra); rewrite <- pow_add; reflexivity). lra.
  - unfold T, fsum. rewrite map_flat, E. split; [exact Fz|]. fold Q in Z. rewrite !Rplus_0_l in Z. cbn [plus] in Z.
    eapply Rle_trans; [exact Z|]. assert (INR (length ds) * (2 * (2 * tiny)) <= 3 * (2 * (2 * tiny))) by (apply Rmult_le_compat_r; lra).
    assert ((/ 16777216 + INR (length ds) / 8388608) * Q <= 7 / 16777216 * Q) by (apply Rmult_le_compat_r; lra). lra.
Qed.
Lemma weight_close ds cd : In cd ds -> (length ds <= 3)%nat -> Forall proper_distance ds ->
  let w := fdiv (fsqrt (snd cd)) (fsum (map (fun cd : coord_dist => fsqrt (snd cd)) ds)) in
  0 < weight ds cd <= 1 /\ fin w /\ Rabs (xr w - weight ds cd) <= weight ds cd * (7 / 8388608) + tiny.
Proof.
  intros I L F w. assert (Ne : ds <> []) by (intros ->; destruct I).
  destruct (total_close ds Ne L F) as (QB & FT & TC). set (T := fsum _) in *. set (Q := real_sum (map distance ds)) in *.
  assert (P : proper_distance cd) by (rewrite Forall_forall in F; exact (F cd I)).
  destruct (distance_bounds cd P) as [DL DU]. destruct (sqrt_close cd P) as [Fs S]. set (s := fsqrt (snd cd)) in *. set (d := distance cd) in *.
  pose proof pow50. assert (P5 : 0 < / 2 ^ 50) by (apply Rinv_0_lt_compat; lra). destruct tiny_50 as (T1 & _ & _). pose proof tiny_pos as TP.
  assert (DQ : d <= Q).
  { unfold d, Q. clear -I. induction ds as [|c l IH]; [destruct I|]. cbn [map real_sum fold_right]. fold (real_sum (map distance l)).
    assert (0 <= real_sum (map distance l)). { clear. induction l as [|c l IH]; cbn [map real_sum fold_right]; [lra|]. fold (real_sum (map distance l)). assert (0 <= distance c) by apply sqrt_pos. lra. }
    destruct I as [->|I]; [lra|]. specialize (IH I). assert (0 <= distance c) by apply sqrt_pos. lra. }
  assert (d0 : 0 < d) by lra. assert (Q0 : 0 < Q) by lra.
  assert (S' : Rabs (xr s - d) <= d / 8388608) by lra.
  apply Rabs_le_inv in TC. apply Rabs_le_inv in S'. assert (T0 : 0 < xr T) by lra.
  assert (W : 0 < d / Q <= 1).
  { split; [apply Rdiv_lt_0_compat; assumption|]. apply (Rmult_le_reg_r Q); [exact Q0|]. unfold Rdiv. rewrite Rmult_assoc, Rinv_l by lra. lra. }
  unfold weight. fold Q d. split; [exact W|]. set (q := d / Q) in *. assert (Dq : d = q * Q) by (unfold q; field; lra).
  pose proof (fin_div s T Fs FT ltac:(lra)) as R.
  assert (X : Rabs (xr s / xr T - q) <= q * (6 / 8388608)).
  { replace (xr s / xr T - q) with ((xr s - q * xr T) / xr T) by (field; lra). unfold Rdiv. rewrite Rabs_mult, (Rabs_pos_eq (/ xr T)) by (apply Rlt_le, Rinv_0_lt_compat; lra).
    apply (Rmult_le_reg_r (xr T)); [exact T0|]. rewrite Rmult_assoc, Rinv_l, Rmult_1_r by lra.
    replace (xr s - q * xr T) with ((xr s - d) + q * (Q - xr T)) by (rewrite Dq; ring).
    eapply Rle_trans; [apply Rabs_triang|]. rewrite Rabs_mult, (Rabs_pos_eq q) by lra.
    assert (A1 : Rabs (xr s - d) <= q * Q / 8388608) by (apply Rabs_le; rewrite <- Dq; lra).
    assert (A2 : Rabs (Q - xr T) <= Q / 2097152) by (apply Rabs_le; lra).
    assert (A3 : q * Rabs (Q - xr T) <= q * (Q / 2097152)) by (apply Rmult_le_compat_l; lra).
    assert (A4 : q * (Q * (1 - / 2097152)) <= q * xr T) by (apply Rmult_le_compat_l; lra). assert (0 < q * Q) by (apply Rmult_lt_0_compat; lra). lra. }
  assert (Y : Rabs (xr s / xr T) <= q * (1 + 6 / 8388608)).
  { replace (xr s / xr T) with ((xr s / xr T - q) + q) by ring. eapply Rle_trans; [apply Rabs_triang|]. rewrite (Rabs_pos_eq q) by lra. lra. }
  destruct (close_fin _ _ 2 R) as [Fw C]; [lra|split; [lra|]; apply Rle_trans with (2 ^ 1); [lra|apply Rle_pow; [lra|lia]]|].
  split; [exact Fw|]. fold w in C. replace (xr w - q) with ((xr w - xr s / xr T) + (xr s / xr T - q)) by ring.
  eapply Rle_trans; [apply Rabs_triang|]. lra.
Qed.
Lemma real_sum_scale {A} (l : list A) (g : A -> R) c : real_sum (map (fun a => c * g a) l) = c * real_sum (map g l).
Proof. induction l as [|a l IH]; cbn [map real_sum fold_right]; [ring|]. fold (real_sum (map (fun a => c * g a) l)). fold (real_sum (map g l)). rewrite IH. ring. Qed.
Lemma real_sum_ext {A} (l : list A) (g h : A -> R) : (forall a, In a l -> g a = h a) -> real_sum (map g l) = real_sum (map h l).
Proof.
  intro E. induction l as [|a l IH]; [reflexivity|]. cbn [map real_sum fold_right]. rewrite (E a) by now left. f_equal.
  apply IH. intros; apply E; now right.
Qed.
Lemma weights_sum ds : 0 < real_sum (map distance ds) -> real_sum (map (weight ds) ds) = 1.
Proof.
  intro P. unfold weight. set (Q := real_sum (map distance ds)) in *.
  rewrite (real_sum_ext ds _ (fun cd => / Q * distance cd)) by (intros; unfold Rdiv; ring). rewrite real_sum_scale. fold Q. field. lra.
Qed.

Lemma cell_value_run (V : value_type) sum u vals missing x y t :
  (0 <= x < g_w (ug_grid u))%Z -> (0 <= y < g_h (ug_grid u))%Z ->
  nth_error (ug_map u) (Z.to_nat (y * g_w (ug_grid u) + x)) = Some t -> triple_dists t <> [] ->
  let ds := triple_dists t in
  unstructured_value_by_xy1 V sum {| uv_grid := u; uv_values := vals; uv_missing := missing |} x y =
  omap Some (sum (flat_map (fun cd : coord_dist =>
    match nth_error vals (Z.to_nat (fst cd)) with
    | Some v => if v_eqb V v missing then []
                else [v_scale V v (fdiv (fsqrt (snd cd)) (fsum (map (fun cd : coord_dist => fsqrt (snd cd)) ds)))]
    | None => []
    end) ds)).
Proof.
  intros Hx Hy E Ne ds. unfold unstructured_value_by_xy1, index_by_xy. cbn [uv_grid uv_values uv_missing].
  destruct (Z.leb_spec (g_w (ug_grid u)) x); [lia|]. destruct (Z.leb_spec (g_h (ug_grid u)) y); [lia|]. cbn [orb].
  rewrite (Z.add_comm x). unfold index_vec. rewrite E. cbn [obind]. fold ds in Ne |- *. destruct ds; [contradiction|reflexivity].
Qed.

Lemma c20_three_mean_proof : forall u vals missing x y t M,
  (0 <= x < g_w (ug_grid u))%Z -> (0 <= y < g_h (ug_grid u))%Z ->
  nth_error (ug_map u) (Z.to_nat (y * g_w (ug_grid u) + x)) = Some t ->
  let ds := triple_dists t in
  ds <> [] -> (length ds <= 3)%nat -> Forall proper_distance ds ->
  0 <= M <= 2 ^ 100 -> (forall cd v, In cd ds -> nth_error vals (Z.to_nat (fst cd)) = Some v -> fin v /\ Rabs (xr v) <= M) ->
  exists r, unstructured_value_by_xy1 f32_type f32_sum {| uv_grid := u; uv_values := vals; uv_missing := missing |} x y = Ok (Some r) /\
    fin r /\ Rabs (xr r - weighted_mean ds (contribution vals missing)) <= M / 2 ^ 19 + / 2 ^ 140.
Proof.
  intros u vals missing x y t M Hx Hy E ds Ne L F HM HV.
  pose proof (cell_value_run f32_type f32_sum u vals missing x y t Hx Hy E Ne) as CR. cbv zeta in CR. fold ds in CR.
  set (T := fsum (map (fun cd : coord_dist => fsqrt (snd cd)) ds)).
  destruct (total_close ds Ne L F) as (QB & _ & _). pose proof pow50. assert (P5 : 0 < / 2 ^ 50) by (apply Rinv_0_lt_compat; lra).
  destruct tiny_50 as (_ & T2 & T3). pose proof tiny_pos as TP.
  assert (MT : M * tiny <= / 1024) by (eapply Rle_trans; [|exact T2]; rewrite Rmult_comm; replace (1 * tiny * 2 ^ 100) with (tiny * 2 ^ 100) by ring; apply Rmult_le_compat_l; lra).
  assert (MT0 : 0 <= M * tiny) by (apply Rmult_le_pos; lra).
  assert (TS : tiny <= / 1024). { unfold tiny. apply Rinv_le_contravar; [lra|]. apply Rle_trans with (2 ^ 10); [simpl; lra|apply Rle_pow; [lra|lia]]. }
  assert (W1 : real_sum (map (fun cd => M * weight ds cd) ds) = M) by (rewrite (real_sum_scale ds (weight ds) M), weights_sum by lra; ring).
  destruct (sum_close coord_dist (fun cd : coord_dist => match nth_error vals (Z.to_nat (fst cd)) with
      | Some v => if feq v missing then [] else [fmul v (fdiv (fsqrt (snd cd)) T)] | None => [] end)
    (fun cd => weight ds cd * contribution vals missing cd) (fun cd => M * weight ds cd) (8 / 8388608) (2 * (M * tiny) + 2 * tiny) ltac:(lra) ltac:(lra))
    with (l := ds) (acc := fzero) (R0 := 0) (B0 := 0) (k := 0%nat) as (z & Ez & Fz & Z).
  - apply Forall_forall. intros cd I. destruct (weight_close ds cd I L F) as (W & Fw & C). fold T in Fw, C. set (w := fdiv _ T) in *. set (q := weight ds cd) in *.
    assert (Mq : 0 <= M * q) by (apply Rmult_le_pos; lra). unfold term_ok. fold q. split; [exact Mq|]. unfold contribution.
    destruct (nth_error vals (Z.to_nat (fst cd))) as [v|] eqn:Ev; [|rewrite Rmult_0_r, Rabs_R0; split; [exact Mq|left; split; reflexivity]].
    destruct (feq v missing); [rewrite Rmult_0_r, Rabs_R0; split; [exact Mq|left; split; reflexivity]|].
    destruct (HV cd v I Ev) as [Fv Bv]. pose proof (Rabs_pos (xr v)) as V0.
    split; [rewrite Rabs_mult, (Rabs_pos_eq q), Rmult_comm by lra; apply Rmult_le_compat_r; lra|]. right. exists (fmul v w). split; [reflexivity|].
    pose proof (fin_mul v w Fv Fw) as R. assert (Wb : Rabs (xr w) <= q * (1 + 7 / 8388608) + tiny).
    { replace (xr w) with ((xr w - q) + q) by ring. eapply Rle_trans; [apply Rabs_triang|]. rewrite (Rabs_pos_eq q) by lra. lra. }
    assert (PB : Rabs (xr v * xr w) <= M * q * (1 + 7 / 8388608) + M * tiny).
    { rewrite Rabs_mult. apply Rle_trans with (M * (q * (1 + 7 / 8388608) + tiny)); [apply Rmult_le_compat; try lra; apply Rabs_pos|lra]. }
    assert (MqM : M * q <= M) by (rewrite <- (Rmult_1_r M) at 2; apply Rmult_le_compat_l; lra).
    destruct (close_fin _ _ (2 ^ 102) R) as [Fp Cp].
    { assert (2 ^ 102 = 4 * 2 ^ 100) by (replace 4 with (2 ^ 2) by (simpl; lra); rewrite <- pow_add; reflexivity). assert (1 <= 2 ^ 100) by (apply pow_R1_Rle; lra). lra. }
    { split; [apply pow_R1_Rle; lra|apply Rle_pow; [lra|lia]]. }
    split; [exact Fp|]. replace (xr (fmul v w) - q * xr v) with ((xr (fmul v w) - xr v * xr w) + xr v * (xr w - q)) by ring.
    eapply Rle_trans; [apply Rabs_triang|]. rewrite (Rabs_mult (xr v)).
    assert (Rabs (xr v) * Rabs (xr w - q) <= M * (q * (7 / 8388608) + tiny)) by (apply Rmult_le_compat; try lra; apply Rabs_pos). lra.
  - split; reflexivity.
  - rewrite Rabs_R0. lra.
  - cbn. replace (0 - 0) with 0 by ring. rewrite Rabs_R0. lra.
  - lia.
  - rewrite W1. assert (2 ^ 100 <= 2 ^ 110) by (apply Rle_pow; [lra|lia]). lra.
  - exists z. split; [etransitivity; [exact CR|]; exact (f_equal (fun r => Ok (Some r)) Ez)|]. split; [exact Fz|]. rewrite W1 in Z. rewrite !Rplus_0_l in Z. unfold weighted_mean.
    eapply Rle_trans; [exact Z|]. cbn [plus]. assert (L3 : INR (length ds) <= 3) by (replace 3 with (INR 3) by (cbn; lra); apply le_INR; exact L).
    assert (INR (length ds) * (2 * (2 * (M * tiny) + 2 * tiny)) <= 3 * (2 * (2 * (M * tiny) + 2 * tiny))) by (apply Rmult_le_compat_r; lra).
    assert ((8 / 8388608 + INR (length ds) / 8388608) * M <= 11 / 8388608 * M) by (apply Rmult_le_compat_r; lra).
    assert (S5 : 2 ^ 19 = 524288) by (simpl; lra). rewrite S5.
    assert (M * tiny <= M / 10485760000). { unfold Rdiv. apply Rmult_le_compat_l; [lra|]. unfold tiny. apply Rinv_le_contravar; [lra|]. apply Rle_trans with (2 ^ 34); [simpl; lra|apply Rle_pow; [lra|lia]]. } lra.
Qed.

(** ** Bytes *)
Fixpoint z_sum (l : list Z) : Z := match l with [] => 0%Z | a :: r => (a + z_sum r)%Z end.
Lemma u8_sum_panic (chk : bool) l : fold_left (fun (acc : outcome Z) (v : Z) => obind acc (fun a =>
    if 255 <? a + v then (if chk then Panic else Ok ((a + v) mod 256)) else Ok (a + v)))%Z l Panic = Panic.
Proof. induction l; cbn; auto. Qed.
Lemma u8_sum_from (chk : bool) l : Forall (fun k => 0 <= k <= 255)%Z l -> forall a, (0 <= a <= 255)%Z ->
  fold_left (fun (acc : outcome Z) (v : Z) => obind acc (fun a =>
    if 255 <? a + v then (if chk then Panic else Ok ((a + v) mod 256)) else Ok (a + v)))%Z l (Ok a) =
  if (a + z_sum l <=? 255)%Z then Ok (a + z_sum l)%Z else if chk then Panic else Ok ((a + z_sum l) mod 256)%Z.
Proof.
  induction 1 as [|k l K F IH]; intros a A; cbn [fold_left z_sum].
  - rewrite Z.add_0_r. destruct (Z.leb_spec a 255); [reflexivity|lia].
  - cbn [obind]. assert (S : (0 <= z_sum l)%Z) by (clear -F; induction F; cbn; lia).
    destruct (Z.ltb_spec 255 (a + k)).
    + destruct (Z.leb_spec (a + (k + z_sum l)) 255); [lia|]. destruct chk; [exact (u8_sum_panic true l)|].
      rewrite IH by (pose proof (Z.mod_pos_bound (a + k) 256 eq_refl); lia).
      rewrite Z.add_assoc. destruct (Z.leb_spec ((a + k) mod 256 + z_sum l) 255).
      * f_equal. rewrite <- (Z.add_mod_idemp_l (a + k) (z_sum l)) by lia. symmetry. apply Z.mod_small.
        pose proof (Z.mod_pos_bound (a + k) 256 eq_refl). lia.
      * rewrite Z.add_mod_idemp_l by lia. reflexivity.
    + rewrite IH by lia. rewrite Z.add_assoc. reflexivity.
Qed.
Lemma clamp255_lip a b : 0 <= b <= 255 -> Rabs (clamp255 a - b) <= Rabs (a - b).
Proof.
  intro H. unfold clamp255, Rmax, Rmin. destruct (Rle_dec 255 a); [destruct (Rle_dec 0 255)|destruct (Rle_dec 0 a)]; try lra;
  unfold Rabs; repeat destruct (Rcase_abs _); lra.
Qed.
Lemma z_sum_flat {A} (g : A -> list Z) (h : A -> Z) l : (forall a, In a l -> (g a = [] /\ h a = 0%Z) \/ g a = [h a]) ->
  z_sum (flat_map g l) = z_sum (map h l).
Proof.
  induction l as [|a l IH]; intro H; [reflexivity|]. cbn [flat_map map z_sum]. rewrite <- IH by (intros; apply H; now right).
  destruct (H a ltac:(now left)) as [[-> ->]| ->]; reflexivity.
Qed.
Lemma c20_three_u8_proof : forall chk u vals missing x y t,
  (0 <= x < g_w (ug_grid u))%Z -> (0 <= y < g_h (ug_grid u))%Z ->
  nth_error (ug_map u) (Z.to_nat (y * g_w (ug_grid u) + x)) = Some t ->
  let ds := triple_dists t in
  ds <> [] -> (length ds <= 3)%nat -> Forall proper_distance ds ->
  (forall v, In v vals -> 0 <= v <= 255)%Z ->
  exists ks, Forall2 (fun cd k => (0 <= k <= 255)%Z /\ Rabs (IZR k - weight ds cd * contribution_u8 vals missing cd) <= / 2 + / 2048) ds ks /\
    let s := fold_right Z.add 0%Z ks in
    unstructured_value_by_xy1 u8_type (u8_sum chk) {| uv_grid := u; uv_values := vals; uv_missing := missing |} x y =
    if (s <=? 255)%Z then Ok (Some s) else if chk then Panic else Ok (Some (s mod 256)%Z).
Proof.
  intros chk u vals missing x y t Hx Hy E ds Ne L F HV.
  pose proof (cell_value_run u8_type (u8_sum chk) u vals missing x y t Hx Hy E Ne) as CR. cbv zeta in CR. fold ds in CR.
  set (T := fsum (map (fun cd : coord_dist => fsqrt (snd cd)) ds)).
  set (g := fun cd : coord_dist => match nth_error vals (Z.to_nat (fst cd)) with
      | Some v => if (v =? missing)%Z then [] else [u8_scale v (fdiv (fsqrt (snd cd)) T)] | None => [] end).
  set (h := fun cd : coord_dist => match nth_error vals (Z.to_nat (fst cd)) with
      | Some v => if (v =? missing)%Z then 0%Z else u8_scale v (fdiv (fsqrt (snd cd)) T) | None => 0%Z end).
  assert (GH : forall a, In a ds -> (g a = [] /\ h a = 0%Z) \/ g a = [h a]).
  { intros a _. unfold g, h. destruct (nth_error vals _) as [v|]; [destruct (v =? missing)%Z|]; auto. }
  assert (H255 : forall a, In a ds -> (0 <= h a <= 255)%Z /\ Rabs (IZR (h a) - weight ds a * contribution_u8 vals missing a) <= / 2 + / 2048).
  { intros a I. unfold h, contribution_u8. destruct (nth_error vals (Z.to_nat (fst a))) as [v|] eqn:Ev; [|split; [lia|rewrite Rmult_0_r, Rminus_0_r, Rabs_R0; lra]].
    destruct (v =? missing)%Z; [split; [lia|rewrite Rmult_0_r, Rminus_0_r, Rabs_R0; lra]|].
    destruct (weight_close ds a I L F) as (W & Fw & C). fold T in Fw, C. set (w := fdiv _ T) in *. set (q := weight ds a) in *.
    assert (V : (0 <= v <= 255)%Z) by (apply HV; eapply nth_error_In; exact Ev).
    assert (VR : 0 <= IZR v <= 255) by (split; apply IZR_le; lia).
    destruct (u8_scale_error v w V Fw) as [B D]. split; [exact B|].
    replace (IZR (u8_scale v w) - q * IZR v) with ((IZR (u8_scale v w) - clamp255 (IZR v * xr w)) + (clamp255 (IZR v * xr w) - q * IZR v)) by ring.
    eapply Rle_trans; [apply Rabs_triang|].
    assert (QV : 0 <= q * IZR v <= 255) by (split; [apply Rmult_le_pos; lra|]; apply Rle_trans with (1 * 255); [apply Rmult_le_compat; lra|lra]).
    pose proof (clamp255_lip (IZR v * xr w) (q * IZR v) QV) as K.
    assert (TS : tiny <= / 1048576). { unfold tiny. apply Rinv_le_contravar; [lra|]. apply Rle_trans with (2 ^ 20); [simpl; lra|apply Rle_pow; [lra|lia]]. }
    assert (X : Rabs (IZR v * xr w - q * IZR v) <= 255 * (7 / 8388608 + / 1048576)).
    { replace (IZR v * xr w - q * IZR v) with (IZR v * (xr w - q)) by ring. rewrite Rabs_mult, (Rabs_pos_eq (IZR v)) by lra.
      apply Rmult_le_compat; try lra. apply Rabs_pos. }
    lra. }
  exists (map h ds). split.
  { clear -H255. revert H255. generalize (weight ds). intro wt. clearbody h. revert wt. clear T. intro wt. induction ds as [|a l IH]; intro H; cbn [map]; constructor; [apply H; now left|]. apply IH. intros b Hb. apply H. now right. }
  cbv zeta. assert (ZS : fold_right Z.add 0%Z (map h ds) = z_sum (flat_map g ds)).
  { rewrite (z_sum_flat g h ds GH). generalize (map h ds). intro l. induction l; cbn; congruence. }
  rewrite ZS. etransitivity; [exact CR|]. change (omap Some (u8_sum chk (flat_map g ds)) = if (z_sum (flat_map g ds) <=? 255)%Z then Ok (Some (z_sum (flat_map g ds))) else if chk then Panic else Ok (Some (z_sum (flat_map g ds) mod 256)%Z)).
  unfold u8_sum. rewrite u8_sum_from; [|apply Forall_forall; intros k I; apply in_flat_map in I; destruct I as (a & Ia & Ik);
    destruct (GH a Ia) as [[G _]|G]; rewrite G in Ik; [destruct Ik|destruct Ik as [<-|[]]; apply H255; exact Ia]|lia].
  rewrite Z.add_0_l. destruct (_ <=? 255)%Z; [reflexivity|]. destruct chk; reflexivity.
Qed.
