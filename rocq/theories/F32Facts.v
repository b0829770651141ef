(** Facts about the f32 operations of F32.v, obtained from Flocq's [BinarySingleNaN]:
    every operation on valid operands is the correctly rounded real operation, saturating to
    the infinities.  (The first lemmas follow Flocq's IEEE754/PrimFloat.v, which states the
    same correspondence for Coq's primitive 64-bit floats.) *)
From Coq Require Import ZArith Reals Psatz Bool Lia.
From Coq Require Import Floats.SpecFloat.
From Flocq Require Import Core.Core IEEE754.BinarySingleNaN Relative Div_sqrt_error.
From Verif Require Import Base F32.
Open Scope Z_scope.

#[global] Instance Hprec32 : Prec_gt_0 24 := eq_refl.
#[global] Instance Hmax32 : Prec_lt_emax 24 128 := eq_refl.
Notation b32 := (binary_float 24 128).
Notation fexp32 := (SpecFloat.fexp 24 128).
#[global] Instance fexp32_valid : Valid_exp fexp32 := fexp_correct 24 128 _.
#[global] Instance fexp32_mono : Monotone_exp fexp32 := fexp_monotone 24 128.

(** Rounding to nearest, ties to even, in the binary32 format with unbounded exponent. *)
Definition rnd (r : R) : R := round radix2 fexp32 ZnearestE r.
Definition big : R := bpow radix2 128.

Definition tob (x : f32) (H : f32_valid x) : b32 := SF2B x H.
Lemma B2SF_tob x H : B2SF (tob x H) = x.
Proof. apply B2SF_SF2B. Qed.

(** ** Correspondence of the operations *)
Lemma round_nearest_even_equiv s m l :
  round_nearest_even m l = choice_mode mode_NE s m l.
Proof.
  case l; [reflexivity|intro c]. case c; [ | reflexivity..].
  now simpl; unfold Round.cond_incr; case Z.even.
Qed.
Lemma binary_round_aux_equiv p q sx mx ex lx :
  SpecFloat.binary_round_aux p q sx mx ex lx
  = BinarySingleNaN.binary_round_aux p q mode_NE sx mx ex lx.
Proof.
  unfold SpecFloat.binary_round_aux, BinarySingleNaN.binary_round_aux.
  set (mrse' := shr_fexp _ _ _ _ _). case mrse'; intros mrs' e'; simpl.
  now rewrite (round_nearest_even_equiv sx).
Qed.
Lemma binary_round_equiv p q s m e :
  SpecFloat.binary_round p q s m e = BinarySingleNaN.binary_round p q mode_NE s m e.
Proof.
  unfold SpecFloat.binary_round, BinarySingleNaN.binary_round, shl_align_fexp.
  set (mez := shl_align _ _ _); case mez as [mz ez]. apply binary_round_aux_equiv.
Qed.
Lemma binary_normalize_equiv m e szero :
  SpecFloat.binary_normalize 24 128 m e szero
  = B2SF (BinarySingleNaN.binary_normalize 24 128 Hprec32 Hmax32 mode_NE m e szero).
Proof.
  case m as [ | p | p].
  - now simpl.
  - simpl; rewrite B2SF_SF2B; apply binary_round_equiv.
  - simpl; rewrite B2SF_SF2B; apply binary_round_equiv.
Qed.
Lemma fadd_equiv (x y : b32) : fadd (B2SF x) (B2SF y) = B2SF (Bplus mode_NE x y).
Proof.
  unfold fadd. case x as [sx|sx| |sx mx ex Bx]; case y as [sy|sy| |sy my ey By];
  [now (trivial || simpl; case Bool.eqb).. | ].
  apply binary_normalize_equiv.
Qed.
Lemma fsub_equiv (x y : b32) : fsub (B2SF x) (B2SF y) = B2SF (Bminus mode_NE x y).
Proof.
  unfold fsub. case x as [sx|sx| |sx mx ex Bx]; case y as [sy|sy| |sy my ey By];
  [now (trivial || simpl; case Bool.eqb).. | ].
  simpl. unfold Zminus. rewrite <- cond_Zopp_negb. apply binary_normalize_equiv.
Qed.
Lemma fmul_equiv (x y : b32) : fmul (B2SF x) (B2SF y) = B2SF (Bmult mode_NE x y).
Proof.
  unfold fmul. case x as [sx|sx| |sx mx ex Bx]; case y as [sy|sy| |sy my ey By];
  [now trivial.. | ].
  simpl. rewrite B2SF_SF2B. apply binary_round_aux_equiv.
Qed.
Lemma fdiv_equiv (x y : b32) : fdiv (B2SF x) (B2SF y) = B2SF (Bdiv mode_NE x y).
Proof.
  unfold fdiv. case x as [sx|sx| |sx mx ex Bx]; case y as [sy|sy| |sy my ey By];
  [now (trivial || simpl; case Bool.eqb).. | ].
  simpl. rewrite B2SF_SF2B. set (melz := SFdiv_core_binary _ _ _ _ _ _).
  case melz as [[mz ez] lz]. apply binary_round_aux_equiv.
Qed.
Lemma fsqrt_equiv (x : b32) : fsqrt (B2SF x) = B2SF (Bsqrt mode_NE x).
Proof.
  unfold fsqrt. case x as [sx|sx| |sx mx ex Bx]; [now (trivial || case sx).. | ].
  case sx; [reflexivity | ].
  simpl. rewrite B2SF_SF2B. set (melz := SFsqrt_core_binary _ _ _ _).
  case melz as [[mz ez] lz]. apply binary_round_aux_equiv.
Qed.

(** ** Validity is preserved by every operation *)
Lemma fadd_valid x y : f32_valid x -> f32_valid y -> f32_valid (fadd x y).
Proof.
  intros Hx Hy. rewrite <- (B2SF_tob x Hx), <- (B2SF_tob y Hy), fadd_equiv. apply valid_binary_B2SF.
Qed.
Lemma fsub_valid x y : f32_valid x -> f32_valid y -> f32_valid (fsub x y).
Proof.
  intros Hx Hy. rewrite <- (B2SF_tob x Hx), <- (B2SF_tob y Hy), fsub_equiv. apply valid_binary_B2SF.
Qed.
Lemma fmul_valid x y : f32_valid x -> f32_valid y -> f32_valid (fmul x y).
Proof.
  intros Hx Hy. rewrite <- (B2SF_tob x Hx), <- (B2SF_tob y Hy), fmul_equiv. apply valid_binary_B2SF.
Qed.
Lemma fdiv_valid x y : f32_valid x -> f32_valid y -> f32_valid (fdiv x y).
Proof.
  intros Hx Hy. rewrite <- (B2SF_tob x Hx), <- (B2SF_tob y Hy), fdiv_equiv. apply valid_binary_B2SF.
Qed.
Lemma fsqrt_valid x : f32_valid x -> f32_valid (fsqrt x).
Proof. intros Hx. rewrite <- (B2SF_tob x Hx), fsqrt_equiv. apply valid_binary_B2SF. Qed.
Lemma binary_normalize_valid m e s : f32_valid (SpecFloat.binary_normalize 24 128 m e s).
Proof. rewrite binary_normalize_equiv. apply valid_binary_B2SF. Qed.
Lemma f32_of_Z_valid z : f32_valid (f32_of_Z z).
Proof. apply binary_normalize_valid. Qed.
Lemma f32_lit_valid p q : f32_valid (f32_lit p q).
Proof. apply fdiv_valid; apply f32_of_Z_valid. Qed.
Lemma f_integral_valid g x : f32_valid x -> f32_valid (f_integral g x).
Proof.
  intro H. unfold f_integral. destruct x as [s|s| |s m e]; try exact H.
  destruct (0 <=? e); [exact H|apply binary_normalize_valid].
Qed.
Lemma frem_valid x y : f32_valid x -> f32_valid (frem x y).
Proof.
  intro H. unfold frem. destruct x as [s|s| |s m e], y as [s'|s'| |s' m' e']; try reflexivity; try exact H.
  apply binary_normalize_valid.
Qed.
Lemma SFabs_valid x : f32_valid x -> f32_valid (SFabs x).
Proof. destruct x; exact (fun H => H). Qed.
Lemma SFopp_valid x : f32_valid x -> f32_valid (SFopp x).
Proof. destruct x; exact (fun H => H). Qed.
Lemma fmin_valid x y : f32_valid x -> f32_valid y -> f32_valid (fmin x y).
Proof. intros Hx Hy. unfold fmin. destruct x, y; try assumption; destruct (flt _ _); assumption. Qed.
Lemma fmax_valid x y : f32_valid x -> f32_valid y -> f32_valid (fmax x y).
Proof. intros Hx Hy. unfold fmax. destruct x, y; try assumption; destruct (flt _ _); assumption. Qed.

(** ** The real number denoted by a float, the infinities being +-2^128 *)
Definition xr (x : f32) : R :=
  match x with
  | S754_infinity s => if s then (- big)%R else big
  | _ => SF2R radix2 x
  end.
(** Saturation at the infinities. *)
Definition sat (r : R) : R := Rmax (- big) (Rmin big r).

Lemma big_pos : (0 < big)%R.
Proof. apply bpow_gt_0. Qed.
Lemma sat_id r : (Rabs r <= big)%R -> sat r = r.
Proof.
  intro H. apply Rabs_le_inv in H. unfold sat. rewrite Rmin_right by lra. rewrite Rmax_right by lra. reflexivity.
Qed.
Lemma sat_mono a b : (a <= b)%R -> (sat a <= sat b)%R.
Proof. intro H. unfold sat. apply Rle_max_compat_l. apply Rle_min_compat_l. exact H. Qed.
Lemma sat_hi r : (big <= r)%R -> sat r = big.
Proof. pose proof big_pos. intro H1. unfold sat. rewrite Rmin_left by lra. rewrite Rmax_right by lra. reflexivity. Qed.
Lemma sat_lo r : (r <= - big)%R -> sat r = (- big)%R.
Proof. pose proof big_pos. intro H1. unfold sat. rewrite Rmin_right by lra. rewrite Rmax_left by lra. reflexivity. Qed.

Lemma rnd_mono a b : (a <= b)%R -> (rnd a <= rnd b)%R.
Proof. intro H. apply round_le; [apply fexp32_valid|apply valid_rnd_N|exact H]. Qed.
Lemma rnd_0 : rnd 0 = 0%R.
Proof. apply round_0. apply valid_rnd_N. Qed.
Lemma rnd_opp r : rnd (- r) = (- rnd r)%R.
Proof. apply round_NE_opp. Qed.
Lemma rnd_gen r : generic_format radix2 fexp32 r -> rnd r = r.
Proof. intro H. apply round_generic; [apply valid_rnd_N|exact H]. Qed.
Lemma gen_rnd r : generic_format radix2 fexp32 (rnd r).
Proof. apply generic_format_round; [apply fexp32_valid|apply valid_rnd_N]. Qed.

Lemma xr_finite x : fis_finite x = true -> xr x = SF2R radix2 x.
Proof. destruct x as [s|s| |s m e]; try discriminate; reflexivity. Qed.
Lemma xr_B2R (x : b32) : BinarySingleNaN.is_finite x = true -> xr (B2SF x) = B2R x.
Proof. destruct x as [s|s| |s m e H]; try discriminate; reflexivity. Qed.
Lemma finite_B x : fis_finite (B2SF x) = @BinarySingleNaN.is_finite 24 128 x.
Proof. destruct x; reflexivity. Qed.
Lemma nan_B x : fis_nan (B2SF x) = @BinarySingleNaN.is_nan 24 128 x.
Proof. destruct x; reflexivity. Qed.

Lemma xr_gen x : f32_valid x -> fis_finite x = true -> generic_format radix2 fexp32 (xr x).
Proof.
  intros Hx Hf. rewrite <- (B2SF_tob x Hx) in *. rewrite finite_B in Hf.
  rewrite xr_B2R by exact Hf. apply generic_format_B2R.
Qed.
Lemma xr_bound x : f32_valid x -> fis_finite x = true -> (Rabs (xr x) < big)%R.
Proof.
  intros Hx Hf. rewrite <- (B2SF_tob x Hx) in *. rewrite finite_B in Hf.
  rewrite xr_B2R by exact Hf. apply (abs_B2R_lt_emax 24 128).
Qed.
Lemma xr_big x : f32_valid x -> (Rabs (xr x) <= big)%R.
Proof.
  intros Hx. pose proof big_pos. destruct (fis_finite x) eqn:E.
  - apply Rlt_le. apply xr_bound; assumption.
  - destruct x as [s|[|]| |s m e]; try discriminate E; cbn [xr SF2R].
    + rewrite Rabs_Ropp, Rabs_pos_eq; lra.
    + rewrite Rabs_pos_eq; lra.
    + rewrite Rabs_R0. lra.
Qed.

(** Result of an operation: [r] is the exact real result. *)
Definition rounds_to (z : f32) (r : R) : Prop :=
  f32_valid z /\ fis_nan z = false /\ xr z = sat (rnd r).

Lemma rounds_finite z r : rounds_to z r -> (Rabs (rnd r) < big)%R -> fis_finite z = true /\ xr z = rnd r.
Proof.
  intros (Hv & Hn & Hx) Hr. rewrite sat_id in Hx by lra.
  split; [|exact Hx]. destruct z as [s|s| |s m e]; try reflexivity; try discriminate.
  exfalso. rewrite <- Hx in Hr. cbn [xr] in Hr. pose proof big_pos.
  destruct s; [rewrite Rabs_Ropp in Hr|]; rewrite Rabs_pos_eq in Hr; lra.
Qed.

Lemma overflow_xr (z : f32) s r : z = binary_overflow 24 128 mode_NE s ->
  (big <= Rabs (rnd r))%R -> (if s then (rnd r <= 0)%R else (0 <= rnd r)%R) ->
  f32_valid z -> rounds_to z r.
Proof.
  intros -> Hb Hs Hv. pose proof big_pos. split; [exact Hv|]. split; [reflexivity|].
  unfold binary_overflow, overflow_to_inf. cbn [xr]. destruct s.
  - rewrite Rabs_left1 in Hb by exact Hs. rewrite sat_lo by lra. reflexivity.
  - rewrite Rabs_pos_eq in Hb by exact Hs. rewrite sat_hi by lra. reflexivity.
Qed.

Lemma rounds_of_correct (z : b32) r s :
  (if Rlt_bool (Rabs (rnd r)) big
   then B2R z = rnd r /\ BinarySingleNaN.is_finite z = true
   else B2SF z = binary_overflow 24 128 mode_NE s) ->
  (if s then (r <= 0)%R else (0 <= r)%R) ->
  rounds_to (B2SF z) r.
Proof.
  intros H Hs. destruct (Rlt_bool_spec (Rabs (rnd r)) big) as [Hb|Hb].
  - destruct H as [H1 H2]. split; [apply valid_binary_B2SF|]. split.
    + destruct z; try discriminate H2; reflexivity.
    + rewrite xr_B2R by exact H2. rewrite H1. rewrite sat_id by lra. reflexivity.
  - apply (overflow_xr _ s); [exact H|exact Hb| |apply valid_binary_B2SF].
    destruct s; rewrite <- rnd_0; apply rnd_mono; exact Hs.
Qed.

Lemma sign_B2R (x : b32) : BinarySingleNaN.is_finite x = true -> if Bsign x then (B2R x <= 0)%R else (0 <= B2R x)%R.
Proof.
  destruct x as [s|s| |s m e H]; try discriminate; intros _; cbn [Bsign B2R].
  - destruct s; lra.
  - destruct s; cbn [cond_Zopp].
    + apply F2R_le_0. cbn. lia.
    + apply F2R_ge_0. cbn. lia.
Qed.

Ltac to_b x Hx := let E := fresh in
  pose proof (B2SF_tob x Hx) as E; rewrite <- E in *; clear E; generalize dependent (tob x Hx); clear x Hx; intros x; intros.

Lemma fadd_rounds x y : f32_valid x -> f32_valid y -> fis_finite x = true -> fis_finite y = true ->
  rounds_to (fadd x y) (xr x + xr y).
Proof.
  intros Hx Hy Fx Fy. rewrite <- (B2SF_tob x Hx), <- (B2SF_tob y Hy) in *.
  set (a := tob x Hx) in *. set (b := tob y Hy) in *. clearbody a b.
  rewrite finite_B in Fx, Fy. rewrite fadd_equiv, !xr_B2R by assumption.
  pose proof (Bplus_correct 24 128 _ _ mode_NE a b Fx Fy) as C.
  pose proof (sign_B2R a Fx) as Sa. pose proof (sign_B2R b Fy) as Sb.
  apply (rounds_of_correct _ _ (Rlt_bool (B2R a + B2R b) 0)).
  - unfold rnd, big. change ZnearestE with (round_mode mode_NE).
    destruct (Rlt_bool_spec (Rabs (round radix2 fexp32 (round_mode mode_NE) (B2R a + B2R b))) (bpow radix2 128)) as [Hb|Hb].
    + tauto.
    + destruct C as [C1 C2]. rewrite C1. f_equal. rewrite <- C2 in Sb.
      destruct (Rlt_bool_spec (B2R a + B2R b) 0) as [Hs|Hs], (Bsign a); try reflexivity; exfalso; [lra|].
      assert (B2R a + B2R b = 0)%R as E by lra. rewrite E in Hb.
      change (round_mode mode_NE) with ZnearestE in Hb. fold (rnd 0) in Hb. rewrite rnd_0, Rabs_R0 in Hb.
      pose proof big_pos. unfold big in *. lra.
  - destruct (Rlt_bool_spec (B2R a + B2R b) 0); lra.
Qed.

Lemma fsub_rounds x y : f32_valid x -> f32_valid y -> fis_finite x = true -> fis_finite y = true ->
  rounds_to (fsub x y) (xr x - xr y).
Proof.
  intros Hx Hy Fx Fy. rewrite <- (B2SF_tob x Hx), <- (B2SF_tob y Hy) in *.
  set (a := tob x Hx) in *. set (b := tob y Hy) in *. clearbody a b.
  rewrite finite_B in Fx, Fy. rewrite fsub_equiv, !xr_B2R by assumption.
  pose proof (Bminus_correct 24 128 _ _ mode_NE a b Fx Fy) as C.
  pose proof (sign_B2R a Fx) as Sa. pose proof (sign_B2R b Fy) as Sb.
  apply (rounds_of_correct _ _ (Rlt_bool (B2R a - B2R b) 0)).
  - unfold rnd, big. change ZnearestE with (round_mode mode_NE).
    destruct (Rlt_bool_spec (Rabs (round radix2 fexp32 (round_mode mode_NE) (B2R a - B2R b))) (bpow radix2 128)) as [Hb|Hb].
    + tauto.
    + destruct C as [C1 C2]. rewrite C1. f_equal.
      destruct (Rlt_bool_spec (B2R a - B2R b) 0) as [Hs|Hs], (Bsign a), (Bsign b); try reflexivity; try discriminate C2; exfalso; [lra|].
      assert (B2R a - B2R b = 0)%R as E by lra. rewrite E in Hb.
      change (round_mode mode_NE) with ZnearestE in Hb. fold (rnd 0) in Hb. rewrite rnd_0, Rabs_R0 in Hb.
      pose proof big_pos. unfold big in *. lra.
  - destruct (Rlt_bool_spec (B2R a - B2R b) 0); lra.
Qed.

Lemma sign_mul (a b : bool) (p q : R) :
  (if a then (p <= 0)%R else (0 <= p)%R) -> (if b then (q <= 0)%R else (0 <= q)%R) ->
  if xorb a b then (p * q <= 0)%R else (0 <= p * q)%R.
Proof. destruct a, b; cbn [xorb]; intros; nra. Qed.

Lemma fmul_rounds x y : f32_valid x -> f32_valid y -> fis_finite x = true -> fis_finite y = true ->
  rounds_to (fmul x y) (xr x * xr y).
Proof.
  intros Hx Hy Fx Fy. rewrite <- (B2SF_tob x Hx), <- (B2SF_tob y Hy) in *.
  set (a := tob x Hx) in *. set (b := tob y Hy) in *. clearbody a b.
  rewrite finite_B in Fx, Fy. rewrite fmul_equiv, !xr_B2R by assumption.
  pose proof (Bmult_correct 24 128 _ _ mode_NE a b) as C.
  apply (rounds_of_correct _ _ (xorb (Bsign a) (Bsign b))).
  - unfold rnd, big. change ZnearestE with (round_mode mode_NE).
    destruct (Rlt_bool _ _); [|exact C]. destruct C as (C1 & C2 & _). rewrite Fx, Fy in C2. auto.
  - apply sign_mul; apply sign_B2R; assumption.
Qed.

Lemma fdiv_rounds x y : f32_valid x -> f32_valid y -> fis_finite x = true -> fis_finite y = true ->
  xr y <> 0%R -> rounds_to (fdiv x y) (xr x / xr y).
Proof.
  intros Hx Hy Fx Fy. rewrite <- (B2SF_tob x Hx), <- (B2SF_tob y Hy) in *.
  set (a := tob x Hx) in *. set (b := tob y Hy) in *. clearbody a b.
  rewrite finite_B in Fx, Fy. rewrite fdiv_equiv, !xr_B2R by assumption. intro Nz.
  pose proof (Bdiv_correct 24 128 _ _ mode_NE a b Nz) as C.
  apply (rounds_of_correct _ _ (xorb (Bsign a) (Bsign b))).
  - unfold rnd, big. change ZnearestE with (round_mode mode_NE).
    destruct (Rlt_bool _ _); [|exact C]. destruct C as (C1 & C2 & _). rewrite Fx in C2. auto.
  - unfold Rdiv. apply sign_mul; [apply sign_B2R; assumption|].
    pose proof (sign_B2R b Fy) as S. destruct (Bsign b).
    + apply Rlt_le, Rinv_lt_0_compat. lra.
    + apply Rlt_le, Rinv_0_lt_compat. lra.
Qed.

Lemma fsqrt_rounds x : f32_valid x -> fis_finite x = true -> (0 <= xr x)%R ->
  rounds_to (fsqrt x) (sqrt (xr x)).
Proof.
  intros Hx Fx. rewrite <- (B2SF_tob x Hx) in *. set (a := tob x Hx) in *. clearbody a.
  rewrite finite_B in Fx. rewrite fsqrt_equiv, !xr_B2R by assumption. intro Nz.
  destruct (Bsqrt_correct 24 128 _ _ mode_NE a) as (C1 & C2 & _).
  assert (F : BinarySingleNaN.is_finite (Bsqrt mode_NE a) = true).
  { rewrite C2. destruct a as [s|s| |[|] m e H]; try discriminate; try reflexivity.
    exfalso. cbn [B2R cond_Zopp] in Nz. apply (Rlt_irrefl 0). eapply Rle_lt_trans; [exact Nz|].
    apply F2R_lt_0. cbn. lia. }
  assert (Hr : B2R (Bsqrt mode_NE a) = rnd (sqrt (B2R a))) by exact C1.
  split; [apply valid_binary_B2SF|]. split.
  - destruct (Bsqrt mode_NE a); try discriminate F; reflexivity.
  - rewrite xr_B2R by exact F. rewrite Hr, sat_id; [reflexivity|].
    rewrite <- Hr. apply Rlt_le, (abs_B2R_lt_emax 24 128).
Qed.

Lemma normalize_rounds m e s :
  rounds_to (SpecFloat.binary_normalize 24 128 m e s) (F2R (Float radix2 m e)).
Proof.
  rewrite binary_normalize_equiv.
  pose proof (binary_normalize_correct 24 128 _ _ mode_NE m e s) as C. cbv zeta in C.
  apply (rounds_of_correct _ _ (Rlt_bool (F2R (Float radix2 m e)) 0)).
  - unfold rnd, big. change ZnearestE with (round_mode mode_NE).
    destruct (Rlt_bool (Rabs _) _); [tauto|exact C].
  - destruct (Rlt_bool_spec (F2R (Float radix2 m e)) 0); lra.
Qed.
Lemma f32_of_Z_rounds z : rounds_to (f32_of_Z z) (IZR z).
Proof.
  replace (IZR z) with (F2R (Float radix2 z 0)); [apply normalize_rounds|].
  unfold F2R. cbn. lra.
Qed.

(** ** Comparisons *)
Lemma SFcompare_xr x y : f32_valid x -> f32_valid y -> fis_nan x = false -> fis_nan y = false ->
  SFcompare x y = Some (Rcompare (xr x) (xr y)).
Proof.
  intros Hx Hy Nx Ny. pose proof big_pos as HB.
  destruct (fis_finite x) eqn:Fx, (fis_finite y) eqn:Fy.
  - rewrite <- (B2SF_tob x Hx), <- (B2SF_tob y Hy) in *.
    set (a := tob x Hx) in *. set (b := tob y Hy) in *. clearbody a b.
    rewrite finite_B in Fx, Fy. rewrite !xr_B2R by assumption.
    exact (Bcompare_correct 24 128 a b Fx Fy).
  - pose proof (xr_bound x Hx Fx) as B. apply Rabs_lt_inv in B.
    destruct y as [s|[|]| |s m e]; try discriminate Fy; try discriminate Ny.
    + rewrite Rcompare_Gt by (cbn [xr]; lra). destruct x as [?|?| |[|] ? ?]; try discriminate Fx; reflexivity.
    + rewrite Rcompare_Lt by (cbn [xr]; lra). destruct x as [?|?| |[|] ? ?]; try discriminate Fx; reflexivity.
  - pose proof (xr_bound y Hy Fy) as B. apply Rabs_lt_inv in B.
    destruct x as [s|[|]| |s m e]; try discriminate Fx; try discriminate Nx.
    + rewrite Rcompare_Lt by (cbn [xr]; lra). destruct y as [?|?| |[|] ? ?]; try discriminate Fy; reflexivity.
    + rewrite Rcompare_Gt by (cbn [xr]; lra). destruct y as [?|?| |[|] ? ?]; try discriminate Fy; reflexivity.
  - destruct x as [s|[|]| |s m e]; try discriminate Fx; try discriminate Nx;
    destruct y as [s'|[|]| |s' m' e']; try discriminate Fy; try discriminate Ny; cbn [xr SFcompare];
    [rewrite Rcompare_Eq|rewrite Rcompare_Lt|rewrite Rcompare_Gt|rewrite Rcompare_Eq]; try reflexivity; lra.
Qed.
Lemma flt_xr x y : f32_valid x -> f32_valid y -> fis_nan x = false -> fis_nan y = false ->
  (flt x y = true <-> (xr x < xr y)%R).
Proof.
  intros Hx Hy Nx Ny. unfold flt, SFltb. rewrite SFcompare_xr by assumption.
  destruct (Rcompare_spec (xr x) (xr y)); split; try discriminate; try reflexivity; lra.
Qed.
Lemma fle_xr x y : f32_valid x -> f32_valid y -> fis_nan x = false -> fis_nan y = false ->
  (fle x y = true <-> (xr x <= xr y)%R).
Proof.
  intros Hx Hy Nx Ny. unfold fle, SFleb. rewrite SFcompare_xr by assumption.
  destruct (Rcompare_spec (xr x) (xr y)); split; try discriminate; try reflexivity; lra.
Qed.
Lemma feq_xr x y : f32_valid x -> f32_valid y -> fis_nan x = false -> fis_nan y = false ->
  (feq x y = true <-> (xr x = xr y)%R).
Proof.
  intros Hx Hy Nx Ny. unfold feq, SFeqb. rewrite SFcompare_xr by assumption.
  destruct (Rcompare_spec (xr x) (xr y)); split; try discriminate; try reflexivity; lra.
Qed.
Lemma flt_nan_l y : flt S754_nan y = false. Proof. reflexivity. Qed.
Lemma flt_nan_r x : flt x S754_nan = false. Proof. destruct x; reflexivity. Qed.
Lemma fle_nan_l y : fle S754_nan y = false. Proof. reflexivity. Qed.
Lemma fle_nan_r x : fle x S754_nan = false. Proof. destruct x; reflexivity. Qed.

(** ** Integers and small dyadic numbers are represented exactly *)
Lemma gen_F2R m e : Z.abs m <= 2 ^ 24 -> -149 <= e -> generic_format radix2 fexp32 (F2R (Float radix2 m e)).
Proof.
  intros Hm He. destruct (Z.eq_dec (Z.abs m) (2 ^ 24)) as [Em|Nm].
  - replace (F2R (Float radix2 m e)) with (F2R (Float radix2 (Z.sgn m) (e + 24))).
    + apply generic_format_F2R. intros _. unfold cexp.
      assert (Z.sgn m = 1 \/ Z.sgn m = -1) as [E|E] by lia; rewrite E.
      * rewrite F2R_bpow, mag_bpow. unfold SpecFloat.fexp, SpecFloat.emin. lia.
      * change (-1) with (- (1)). rewrite F2R_Zopp, mag_opp, F2R_bpow, mag_bpow.
        unfold SpecFloat.fexp, SpecFloat.emin. lia.
    + assert (m = Z.sgn m * 2 ^ 24) as -> by lia.
      assert (Z.sgn (Z.sgn m * 2 ^ 24) = Z.sgn m) as -> by lia.
      unfold F2R. cbn [Fnum Fexp]. rewrite mult_IZR, bpow_plus. change (bpow radix2 24) with (IZR (2 ^ 24)). ring.
  - apply generic_format_FLT. exists (Float radix2 m e); [reflexivity| |exact He].
    cbn [Fnum]. change (Z.pow_pos 2 24) with (2 ^ 24). change (radix_val radix2) with 2. lia.
Qed.
Lemma gen_Z z : Z.abs z <= 2 ^ 24 -> generic_format radix2 fexp32 (IZR z).
Proof.
  intro H. replace (IZR z) with (F2R (Float radix2 z 0)) by (unfold F2R; cbn; ring).
  apply gen_F2R; lia.
Qed.
Lemma Z_lt_big z : Z.abs z < 2 ^ 128 -> (Rabs (IZR z) < big)%R.
Proof.
  intro H. rewrite <- abs_IZR. unfold big. change (bpow radix2 128) with (IZR (2 ^ 128)).
  apply IZR_lt. exact H.
Qed.
Lemma f32_of_Z_exact z : Z.abs z <= 2 ^ 24 -> fis_finite (f32_of_Z z) = true /\ xr (f32_of_Z z) = IZR z.
Proof.
  intro H. pose proof (f32_of_Z_rounds z) as R. pose proof (gen_Z z H) as G.
  pose proof (rounds_finite _ _ R) as F. rewrite (rnd_gen _ G) in F. apply F. apply Z_lt_big. lia.
Qed.
Lemma rounds_exact z r : rounds_to z r -> generic_format radix2 fexp32 r -> (Rabs r < big)%R ->
  f32_valid z /\ fis_finite z = true /\ xr z = r.
Proof.
  intros R G B. pose proof (rounds_finite z r R) as F. rewrite (rnd_gen _ G) in F.
  destruct (F B). destruct R. auto.
Qed.

(** ** Integer parts *)
Lemma xr_F2R s m e : xr (S754_finite s m e) = F2R (Float radix2 (cond_Zopp s (Zpos m)) e).
Proof. reflexivity. Qed.
Lemma F2R_nonneg_exp z e : 0 <= e -> F2R (Float radix2 z e) = IZR (z * 2 ^ e).
Proof. intro H. unfold F2R. cbn [Fnum Fexp]. rewrite mult_IZR, <- IZR_Zpower by exact H. reflexivity. Qed.
Lemma F2R_neg_exp z e : e < 0 -> F2R (Float radix2 z e) = (IZR z / IZR (2 ^ (- e)))%R.
Proof.
  intro H. unfold F2R. cbn [Fnum Fexp]. unfold Rdiv. f_equal.
  replace e with (- (- e)) at 1 by lia. rewrite bpow_opp. f_equal.
  rewrite <- IZR_Zpower by lia. reflexivity.
Qed.
Lemma sf_floor_xr s m e : sf_floor s m e = Zfloor (xr (S754_finite s m e)).
Proof.
  rewrite xr_F2R. unfold sf_floor. destruct (Z.leb_spec 0 e) as [H|H].
  - rewrite F2R_nonneg_exp by exact H. now rewrite Zfloor_IZR.
  - rewrite F2R_neg_exp by exact H. rewrite Zfloor_div; [reflexivity|lia].
Qed.
Lemma xr_opp x : xr (SFopp x) = (- xr x)%R.
Proof.
  destruct x as [s|[|]| |s m e]; cbn [SFopp xr negb]; try (unfold SF2R; ring).
  - cbn [SF2R]. rewrite <- F2R_Zopp. f_equal. f_equal. destruct s; reflexivity.
Qed.
Lemma sf_ceil_xr s m e : sf_ceil s m e = Zceil (xr (S754_finite s m e)).
Proof.
  unfold sf_ceil. rewrite sf_floor_xr. unfold Zceil. f_equal. f_equal.
  apply (xr_opp (S754_finite s m e)).
Qed.
Lemma Ztrunc_opp' r : Ztrunc (- r) = - Ztrunc r.
Proof. apply Ztrunc_opp. Qed.
Lemma sf_trunc_xr s m e : sf_trunc s m e = Ztrunc (xr (S754_finite s m e)).
Proof.
  assert (P : sf_trunc false m e = Ztrunc (xr (S754_finite false m e))).
  { rewrite Ztrunc_floor.
    - rewrite <- sf_floor_xr. reflexivity.
    - rewrite xr_F2R. apply F2R_ge_0. cbn. lia. }
  destruct s; [|exact P].
  change (S754_finite true m e) with (SFopp (S754_finite false m e)).
  rewrite xr_opp, Ztrunc_opp, <- P. reflexivity.
Qed.
(** Rounding half away from zero. *)
Definition Zround (r : R) : Z := if Rle_bool 0 r then Zfloor (r + /2) else - Zfloor (- r + /2).
Lemma Zround_opp r : Zround (- r) = - Zround r.
Proof.
  unfold Zround. destruct (Rle_bool_spec 0 (- r)), (Rle_bool_spec 0 r); rewrite ?Ropp_involutive; try lia; try lra.
  assert (r = 0)%R as -> by lra. rewrite Ropp_0, Rplus_0_l.
  assert (Zfloor (/2) = 0) as ->; [|reflexivity]. apply Zfloor_imp. cbn. lra.
Qed.
Lemma sf_round_xr s m e : sf_round s m e = Zround (xr (S754_finite s m e)).
Proof.
  assert (P : sf_round false m e = Zround (xr (S754_finite false m e))).
  { unfold Zround. rewrite Rle_bool_true by (rewrite xr_F2R; apply F2R_ge_0; cbn; lia).
    rewrite xr_F2R. unfold sf_round. cbn [cond_Zopp]. destruct (Z.leb_spec 0 e) as [H|H].
    - rewrite F2R_nonneg_exp by exact H. symmetry. apply Zfloor_imp. rewrite plus_IZR. lra.
    - rewrite F2R_neg_exp by exact H.
      assert (0 < 2 ^ (- e)) as Hp by lia.
      rewrite <- Zfloor_div by lia. f_equal. rewrite plus_IZR, !mult_IZR. field.
      apply not_0_IZR. lia. }
  destruct s; [|exact P].
  change (S754_finite true m e) with (SFopp (S754_finite false m e)).
  rewrite xr_opp, Zround_opp, <- P. reflexivity.
Qed.

(** The mantissa of a valid float has at most 24 bits. *)
Lemma valid_mantissa s m e : f32_valid (S754_finite s m e) -> Zpos m < 2 ^ 24 /\ -149 <= e.
Proof.
  unfold f32_valid. cbn [valid_binary]. unfold bounded, canonical_mantissa. intro H.
  apply andb_prop in H as [H _]. apply Zeq_bool_eq in H.
  rewrite Digits.Zpos_digits2_pos in H. unfold SpecFloat.fexp, SpecFloat.emin in H. split; [|lia].
  assert (Digits.Zdigits radix2 (Zpos m) <= 24) as D by lia.
  pose proof (Digits.Zpower_gt_Zdigits radix2 24 (Zpos m) D) as P. cbn [Z.abs] in P. exact P.
Qed.

Lemma integral_bound s m e g : f32_valid (S754_finite s m e) -> e < 0 ->
  (g = sf_floor \/ g = sf_ceil \/ g = sf_round \/ g = sf_trunc) -> Z.abs (g s m e) <= 2 ^ 24.
Proof.
  intros Hv He Hg. apply valid_mantissa in Hv as [Hm _].
  assert (2 <= 2 ^ (- e)) as Hp.
  { change 2 with (2 ^ 1) at 1. apply Z.pow_le_mono_r; lia. }
  set (p := 2 ^ (- e)) in *.
  assert (0 <= Zpos m / p <= Zpos m) by (split; [apply Z.div_pos; lia|apply Z.div_le_upper_bound; nia]).
  assert (- Zpos m <= - Zpos m / p <= 0).
  { split; [apply Z.div_le_lower_bound; nia|apply Z.div_le_upper_bound; nia]. }
  assert (0 <= (2 * Zpos m + p) / (2 * p) <= Zpos m).
  { split; [apply Z.div_pos; lia|]. apply Z.div_le_upper_bound; nia. }
  destruct Hg as [->|[->|[->| ->]]].
  - unfold sf_floor. destruct (Z.leb_spec 0 e); [lia|]. fold p.
    destruct s; cbn [cond_Zopp]; [change (Z.opp (Zpos m)) with (- Zpos m) in *|]; lia.
  - unfold sf_ceil, sf_floor. destruct (Z.leb_spec 0 e); [lia|]. fold p.
    destruct s; cbn [negb cond_Zopp]; lia.
  - unfold sf_round. destruct (Z.leb_spec 0 e); [lia|]. fold p.
    destruct s; cbn [cond_Zopp]; lia.
  - unfold sf_trunc. destruct (Z.leb_spec 0 e); [lia|]. fold p.
    destruct s; cbn [cond_Zopp]; lia.
Qed.

Definition is_int_part (g : bool -> positive -> Z -> Z) (G : R -> Z) : Prop :=
  (g = sf_floor /\ G = Zfloor) \/ (g = sf_ceil /\ G = Zceil) \/ (g = sf_round /\ G = Zround).
Lemma int_part_xr g G s m e : is_int_part g G -> g s m e = G (xr (S754_finite s m e)).
Proof.
  intros [[-> ->]|[[-> ->]|[-> ->]]]; [apply sf_floor_xr|apply sf_ceil_xr|apply sf_round_xr].
Qed.
Lemma Zround_IZR z : Zround (IZR z) = z.
Proof.
  unfold Zround. destruct (Rle_bool_spec 0 (IZR z)) as [H|H].
  - apply Zfloor_imp. rewrite plus_IZR. lra.
  - rewrite <- opp_IZR. assert (Zfloor (IZR (- z) + /2) = - z) as ->; [|lia].
    apply Zfloor_imp. rewrite plus_IZR. lra.
Qed.
Lemma int_part_IZR g G z : is_int_part g G -> G (IZR z) = z.
Proof.
  intros [[_ ->]|[[_ ->]|[_ ->]]]; [apply Zfloor_IZR|apply Zceil_IZR|apply Zround_IZR].
Qed.
Lemma f_integral_xr g G x : is_int_part g G -> f32_valid x -> fis_finite x = true ->
  f32_valid (f_integral g x) /\ fis_finite (f_integral g x) = true /\ xr (f_integral g x) = IZR (G (xr x)).
Proof.
  intros HG Hv Hf. destruct x as [s|s| |s m e]; try discriminate Hf.
  - cbn [f_integral xr SF2R fis_finite]. rewrite (int_part_IZR g G 0 HG). auto.
  - unfold f_integral. rewrite <- (int_part_xr g G s m e HG). destruct (Z.leb_spec 0 e) as [He|He].
    + split; [exact Hv|]. split; [reflexivity|]. rewrite (int_part_xr g G s m e HG).
      rewrite xr_F2R, F2R_nonneg_exp by exact He. now rewrite (int_part_IZR g G _ HG).
    + set (z := g s m e).
      assert (Z.abs z <= 2 ^ 24) as Hz.
      { apply integral_bound; [exact Hv|exact He|]. destruct HG as [[-> _]|[[-> _]|[-> _]]]; auto. }
      assert (F2R (Float radix2 z 0) = IZR z) as E by (unfold F2R; cbn [Fnum Fexp bpow]; ring).
      rewrite <- E. apply rounds_exact; [apply normalize_rounds|apply gen_F2R; lia|].
      rewrite E. apply Z_lt_big. lia.
Qed.
Lemma ffloor_xr x : f32_valid x -> fis_finite x = true ->
  f32_valid (ffloor x) /\ fis_finite (ffloor x) = true /\ xr (ffloor x) = IZR (Zfloor (xr x)).
Proof. apply f_integral_xr. left; auto. Qed.
Lemma fceil_xr x : f32_valid x -> fis_finite x = true ->
  f32_valid (fceil x) /\ fis_finite (fceil x) = true /\ xr (fceil x) = IZR (Zceil (xr x)).
Proof. apply f_integral_xr. right; left; auto. Qed.
Lemma fround_xr x : f32_valid x -> fis_finite x = true ->
  f32_valid (fround x) /\ fis_finite (fround x) = true /\ xr (fround x) = IZR (Zround (xr x)).
Proof. apply f_integral_xr. right; right; auto. Qed.
Lemma Zround_nearest r : (Rabs (IZR (Zround r) - r) <= /2)%R.
Proof.
  unfold Zround. destruct (Rle_bool_spec 0 r) as [H|H].
  - pose proof (Zfloor_lb (r + /2)). pose proof (Zfloor_ub (r + /2)). apply Rabs_le. lra.
  - rewrite opp_IZR. pose proof (Zfloor_lb (- r + /2)). pose proof (Zfloor_ub (- r + /2)). apply Rabs_le. lra.
Qed.
Lemma Zround_le r s : (r <= s)%R -> (Zround r <= Zround s)%Z.
Proof.
  intro H. unfold Zround. destruct (Rle_bool_spec 0 r) as [Hr|Hr], (Rle_bool_spec 0 s) as [Hs|Hs].
  - apply Zfloor_le. lra.
  - lra.
  - assert (0 <= Zfloor (- r + /2)) by (apply Zfloor_lub; cbn; lra).
    assert (0 <= Zfloor (s + /2)) by (apply Zfloor_lub; cbn; lra). lia.
  - assert (Zfloor (- s + /2) <= Zfloor (- r + /2)) by (apply Zfloor_le; lra). lia.
Qed.

(** ** Casts *)
Lemma f_to_int_xr lo hi x : f32_valid x -> fis_nan x = false -> - 2 ^ 128 <= lo <= 0 -> 0 <= hi <= 2 ^ 128 ->
  f_to_int lo hi x = Z.max lo (Z.min hi (Ztrunc (xr x))).
Proof.
  intros Hv Hn Hlo Hhi. destruct x as [s|s| |s m e]; try discriminate Hn; cbn [f_to_int].
  - cbn [xr SF2R]. rewrite Ztrunc_IZR. lia.
  - cbn [xr]. unfold big. change (bpow radix2 128) with (IZR (2 ^ 128)). rewrite <- opp_IZR.
    destruct s; rewrite Ztrunc_IZR; lia.
  - now rewrite sf_trunc_xr.
Qed.
Lemma f_to_int_range lo hi x : lo <= 0 <= hi -> lo <= f_to_int lo hi x <= hi.
Proof. intro H. unfold f_to_int. destruct x as [s|[|]| |s m e]; lia. Qed.
Lemma Ztrunc_le' a b : (a <= b)%R -> Ztrunc a <= Ztrunc b.
Proof. apply Ztrunc_le. Qed.

(** ** Remainder *)
Lemma Ztrunc_small r : (Rabs r < 1)%R -> Ztrunc r = 0.
Proof.
  intro H. apply Rabs_lt_inv in H. destruct (Rle_or_lt 0 r) as [P|P].
  - rewrite Ztrunc_floor by exact P. apply Zfloor_imp. cbn. lra.
  - rewrite Ztrunc_ceil by lra. apply Zceil_imp. cbn. lra.
Qed.
Lemma frem_xr x y : f32_valid x -> f32_valid y -> fis_finite x = true -> fis_finite y = true -> xr y <> 0%R ->
  f32_valid (frem x y) /\ fis_finite (frem x y) = true /\
  xr (frem x y) = (xr x - xr y * IZR (Ztrunc (xr x / xr y)))%R.
Proof.
  intros Hx Hy Fx Fy Nz. destruct y as [sy|sy| |sy my ey]; try discriminate Fy.
  { exfalso. apply Nz. reflexivity. }
  destruct x as [sx|sx| |sx mx ex]; try discriminate Fx.
  { cbn [frem]. split; [exact Hx|]. split; [reflexivity|]. change (xr (S754_zero sx)) with 0%R.
    unfold Rdiv. rewrite Rmult_0_l. rewrite Ztrunc_IZR. ring. }
  set (x := S754_finite sx mx ex) in *. set (y := S754_finite sy my ey) in *.
  pose proof (xr_gen x Hx Fx) as Gx. pose proof (xr_gen y Hy Fy) as Gy.
  assert (G : generic_format radix2 fexp32 (xr x - IZR (Ztrunc (xr x / xr y)) * xr y)%R).
  { apply format_REM; try typeclasses eauto; try assumption. intro K. apply Ztrunc_small.
    eapply Rlt_trans; [exact K|lra]. }
  assert (F2R (Float radix2 (cond_Zopp sx ((Zpos mx * 2 ^ (ex - Z.min ex ey)) mod (Zpos my * 2 ^ (ey - Z.min ex ey)))) (Z.min ex ey))
          = (xr x - IZR (Ztrunc (xr x / xr y)) * xr y)%R) as E.
  { set (e := Z.min ex ey). set (a := Zpos mx * 2 ^ (ex - e)). set (b := Zpos my * 2 ^ (ey - e)).
    assert (0 < a) by (unfold a; apply Z.mul_pos_pos; [lia|apply Z.pow_pos_nonneg; lia]).
    assert (0 < b) by (unfold b; apply Z.mul_pos_pos; [lia|apply Z.pow_pos_nonneg; lia]).
    assert (Ex : xr x = (IZR (cond_Zopp sx a) * bpow radix2 e)%R).
    { unfold x. rewrite xr_F2R. rewrite (F2R_change_exp radix2 e) by (unfold e; lia).
      unfold F2R. cbn [Fnum Fexp]. change (radix_val radix2) with 2. f_equal. f_equal.
      unfold a. destruct sx; cbn [cond_Zopp]; ring. }
    assert (Ey : xr y = (IZR (cond_Zopp sy b) * bpow radix2 e)%R).
    { unfold y. rewrite xr_F2R. rewrite (F2R_change_exp radix2 e) by (unfold e; lia).
      unfold F2R. cbn [Fnum Fexp]. change (radix_val radix2) with 2. f_equal. f_equal.
      unfold b. destruct sy; cbn [cond_Zopp]; ring. }
    assert (Eq : (xr x / xr y = IZR (cond_Zopp sx a) / IZR (cond_Zopp sy b))%R).
    { rewrite Ex, Ey. field. split.
      - apply not_0_IZR. destruct sy; cbn [cond_Zopp]; lia.
      - apply Rgt_not_eq, bpow_gt_0. }
    rewrite Eq, Ztrunc_div by (destruct sy; cbn [cond_Zopp]; lia).
    rewrite Ex, Ey. unfold F2R. cbn [Fnum Fexp].
    assert (Q : cond_Zopp sx (a mod b) = cond_Zopp sx a - Z.quot (cond_Zopp sx a) (cond_Zopp sy b) * cond_Zopp sy b).
    { pose proof (Z.quot_rem' a b) as QR. rewrite (Z.rem_mod_nonneg a b) in QR by lia.
      destruct sx, sy; cbn [cond_Zopp]; rewrite ?Z.quot_opp_l, ?Z.quot_opp_r by lia; lia. }
    rewrite Q, minus_IZR, mult_IZR. ring. }
  unfold frem, x, y. fold x y. cbv zeta.
  rewrite (Rmult_comm (xr y)). rewrite <- E. rewrite <- E in G.
  apply rounds_exact; [apply normalize_rounds|exact G|].
  rewrite E. rewrite Rmult_comm.
  apply Rle_lt_trans with (Rabs (xr x)); [|apply xr_bound; assumption].
  set (q := (xr x / xr y)%R) in *.
  assert (Q : (xr x = q * xr y)%R) by (unfold q; field; exact Nz).
  rewrite Q at 1. rewrite Q at 1. replace (q * xr y - xr y * IZR (Ztrunc q))%R with ((q - IZR (Ztrunc q)) * xr y)%R by ring.
  rewrite !Rabs_mult. apply Rmult_le_compat_r; [apply Rabs_pos|].
  destruct (Rle_or_lt 0 q) as [P|P].
  - rewrite Ztrunc_floor by exact P. pose proof (Zfloor_lb q). 
    assert (0 <= Zfloor q) as Z0 by (apply Zfloor_lub; exact P). apply IZR_le in Z0.
    rewrite !Rabs_pos_eq; lra.
  - rewrite Ztrunc_ceil by lra. pose proof (Zceil_ub q).
    assert (Zceil q <= 0) as Z0 by (apply Zceil_glb; lra). apply IZR_le in Z0.
    rewrite !Rabs_left1; lra.
Qed.

(** ** Error bounds *)
Definition ulp_half : R := bpow radix2 (-24).
Lemma rnd_rel r : (bpow radix2 (-126) <= Rabs r)%R -> (Rabs (rnd r - r) <= ulp_half * Rabs r)%R.
Proof.
  intro H. pose proof (relative_error_N_FLT radix2 (-149) 24 eq_refl (fun x => negb (Z.even x)) r H) as E.
  unfold rnd. change fexp32 with (FLT_exp (-149) 24). unfold ulp_half.
  replace (bpow radix2 (-24)) with (/2 * bpow radix2 (-24 + 1))%R; [exact E|].
  rewrite bpow_plus. change (bpow radix2 1) with 2%R. field.
Qed.
Lemma rnd_IZR_rel z : (Rabs (rnd (IZR z) - IZR z) <= ulp_half * Rabs (IZR z))%R.
Proof.
  destruct (Z.eq_dec z 0) as [->|N].
  - rewrite rnd_0, Rminus_0_r, Rabs_R0. lra.
  - apply rnd_rel. rewrite <- abs_IZR. apply Rle_trans with 1%R.
    + change 1%R with (bpow radix2 0). apply bpow_le. lia.
    + apply IZR_le. lia.
Qed.
Lemma rnd_between a b r : generic_format radix2 fexp32 a -> generic_format radix2 fexp32 b ->
  (a <= r <= b)%R -> (a <= rnd r <= b)%R.
Proof.
  intros Ga Gb [H1 H2]. apply rnd_mono in H1, H2. rewrite (rnd_gen a Ga) in H1. rewrite (rnd_gen b Gb) in H2. auto.
Qed.

(** ** Interchange format *)
Lemma f32_of_bits_valid b : 0 <= b < 2 ^ 32 -> f32_valid (f32_of_bits b).
Proof.
  intro Hb. unfold f32_of_bits, float_of_bits. change (2 ^ (8 - 1) - 1) with 127.
  set (m := b mod 2 ^ 23). set (e := (b / 2 ^ 23) mod 2 ^ 8). cbv zeta.
  assert (0 <= m < 2 ^ 23) as Hm by (apply Z.mod_pos_bound; lia).
  assert (0 <= e < 2 ^ 8) as He by (apply Z.mod_pos_bound; lia).
  destruct (Z.eqb_spec e 0) as [E0|N0].
  - destruct m as [|p|p] eqn:Em; try reflexivity.
    unfold f32_valid. cbn [valid_binary]. unfold bounded, canonical_mantissa.
    rewrite Digits.Zpos_digits2_pos. change (1 - 127 - 23) with (-149).
    assert (Digits.Zdigits radix2 (Zpos p) <= 23) as D by (apply Digits.Zdigits_le_Zpower; apply Hm).
    pose proof (Digits.Zdigits_ge_0 radix2 (Zpos p)).
    apply andb_true_intro. split; [|reflexivity]. apply Zeq_is_eq_bool.
    unfold SpecFloat.fexp, SpecFloat.emin. lia.
  - destruct (Z.eqb_spec e (2 ^ 8 - 1)) as [E1|N1].
    + destruct (m =? 0); reflexivity.
    + destruct (m + 2 ^ 23) as [|p|p] eqn:Em; try reflexivity; try lia.
      unfold f32_valid. cbn [valid_binary]. unfold bounded, canonical_mantissa.
      rewrite Digits.Zpos_digits2_pos.
      assert (Digits.Zdigits radix2 (Zpos p) = 24) as D.
      { apply Digits.Zdigits_unique. change (radix_val radix2) with 2. rewrite <- Em. lia. }
      apply andb_true_intro. split.
      * apply Zeq_is_eq_bool. unfold SpecFloat.fexp, SpecFloat.emin. lia.
      * apply Zle_is_le_bool. lia.
Qed.
