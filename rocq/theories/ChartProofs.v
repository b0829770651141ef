(** Proofs about charts and layers (C35-C39). *)
From Coq Require Import ZArith Reals Psatz List Bool Lia Lra.
From Coq Require Import Floats.SpecFloat.
From Flocq Require Import Core.Core Sterbenz.
From Verif Require Import Base F32 F32Facts Grib2Model GeoModel GeoSpec GeoProofs GeoValueProofs ImagingModel ImagingSpec ImagingProofs
  TileModel TileSpec TileProofs PhysicsModel ChartModel ChartSpec.
Import ListNotations.
Open Scope Z_scope.

(** ** Legends *)
(** The if-chains, as a loop. *)
Fixpoint pick (l : list (f32 * color)) (top : color) (v : f32) : color :=
  match l with [] => top | (lim, c) :: r => if flt v lim then c else pick r top v end.
Definition agrees (v : f32) (r : R) (a : f32 * color) (b : R * color) : Prop :=
  snd a = snd b /\ (flt v (fst a) = true <-> (r < fst b)%R).
Lemma pick_class v r l lg : Forall2 (agrees v r) l (lg_classes lg) -> class_of lg r (pick l (lg_top lg) v).
Proof.
  unfold class_of. destruct lg as [cs top]. cbn [lg_classes lg_top]. intro F. induction F as [|[lim c] [limit c'] l cs [E B] F IH]; cbn [pick].
  - right. split; [reflexivity|]. intros limit c' [].
  - cbn [fst snd] in E, B. subst c'. destruct (flt v lim) eqn:L.
    + left. exists 0%nat, limit. split; [reflexivity|]. split; [apply B; reflexivity|]. intros j ? ? Hj. lia.
    + assert (G : (limit <= r)%R). { destruct (Rle_or_lt limit r) as [G|G]; [exact G|]. apply B in G. congruence. }
      destruct IH as [(i & li & N & Lt & Fr)|[E Fr]].
      * left. exists (S i), li. split; [exact N|]. split; [exact Lt|]. intros [|j] l' c' Hj Nj.
        -- cbn in Nj. injection Nj as <- <-. exact G.
        -- apply (Fr j l' c'); [lia|exact Nj].
      * right. split; [exact E|]. intros l' c' [Q|Q]; [injection Q as <- <-; exact G|]. apply (Fr l' c' Q).
Qed.
Lemma pick_nan l top : pick l top S754_nan = top.
Proof. induction l as [|[lim c] l IH]; [reflexivity|]. exact IH. Qed.
Lemma class_unique lg r c c' : class_of lg r c -> class_of lg r c' -> c = c'.
Proof.
  assert (M : forall i j li lj ci cj, nth_error (lg_classes lg) i = Some (li, ci) -> (r < li)%R ->
    (forall k l' c', (k < i)%nat -> nth_error (lg_classes lg) k = Some (l', c') -> (l' <= r)%R) ->
    nth_error (lg_classes lg) j = Some (lj, cj) -> (r < lj)%R ->
    (forall k l' c', (k < j)%nat -> nth_error (lg_classes lg) k = Some (l', c') -> (l' <= r)%R) -> ci = cj).
  { intros i j li lj ci cj Ni Li Fi Nj Lj Fj. destruct (lt_eq_lt_dec i j) as [[H|H]|H].
    - specialize (Fj i li ci H Ni). lra.
    - subst j. congruence.
    - specialize (Fi j lj cj H Nj). lra. }
  intros [(i & li & Ni & Li & Fi)|[E F]] [(j & lj & Nj & Lj & Fj)|[E' F']].
  - eapply M; eassumption.
  - specialize (F' li c (nth_error_In _ _ Ni)). lra.
  - specialize (F lj c' (nth_error_In _ _ Nj)). lra.
  - congruence.
Qed.
Lemma shade_unique lg x c c' : shade lg x c -> shade lg x c' -> c = c'.
Proof. unfold shade. destruct (fis_nan x); [congruence|]. apply class_unique. Qed.

Lemma flt_agrees v lim r : num v -> num lim -> xr lim = r -> (flt v lim = true <-> (xr v < r)%R).
Proof. intros V L <-. apply flt_num; assumption. Qed.
Lemma lit_spec p q : Z.abs p <= 2 ^ 24 -> 0 < q <= 2 ^ 24 -> num (f32_lit p q) /\ xr (f32_lit p q) = decimal p q.
Proof.
  intros P Q. destruct (fin_Z p P) as [Fp Ep]. destruct (fin_Z q ltac:(lia)) as [Fq Eq].
  assert (0 < IZR q)%R by (apply IZR_lt; lia).
  pose proof (fin_div _ _ Fp Fq ltac:(rewrite Eq; lra)) as R. rewrite Ep, Eq in R. fold (f32_lit p q) in R.
  assert (B : (Rabs (IZR p / IZR q) <= IZR (2 ^ 24))%R).
  { unfold Rdiv. rewrite Rabs_mult, (Rabs_pos_eq (/ IZR q)) by (apply Rlt_le, Rinv_0_lt_compat; lra).
    rewrite <- abs_IZR. assert (IZR (Z.abs p) <= IZR (2 ^ 24))%R by (apply IZR_le; lia).
    assert (1 <= IZR q)%R by (apply IZR_le; lia). assert (/ IZR q <= 1)%R by (rewrite <- Rinv_1; apply Rinv_le_contravar; lra).
    assert (0 <= IZR (Z.abs p))%R by (apply IZR_le; lia). assert (0 < / IZR q)%R by (apply Rinv_0_lt_compat; lra). nra. }
  destruct (rounds_fin _ _ R) as [F E].
  - apply Rabs_le_inv in B. apply Rle_lt_trans with (IZR (2 ^ 24)).
    + apply Rabs_le. split.
      * rewrite <- (rnd_gen (- IZR (2 ^ 24))); [apply rnd_mono; lra|]. rewrite <- opp_IZR. apply gen_Z. lia.
      * rewrite <- (rnd_gen (IZR (2 ^ 24))) by (apply gen_Z; lia). apply rnd_mono. lra.
    + pose proof big_gt. eapply Rlt_trans; [apply IZR_lt|exact H0]. lia.
  - split; [apply fin_num, F|]. exact E.
Qed.
Lemma of_Z_num z : Z.abs z <= 2 ^ 24 -> num (f32_of_Z z) /\ xr (f32_of_Z z) = IZR z.
Proof. intro H. destruct (fin_Z z H) as [F E]. split; [apply fin_num, F|exact E]. Qed.

Lemma nan_cases x : f32_valid x -> x = S754_nan \/ num x.
Proof. intro V. destruct x; [right|right|left; reflexivity|right]; split; auto. Qed.

Ltac limit_spec :=
  lazymatch goal with
  | |- num (f32_lit ?p ?q) => apply (lit_spec p q); lia
  | |- xr (f32_lit ?p ?q) = _ => apply (lit_spec p q); lia
  | |- num (f32_of_Z ?z) => apply (of_Z_num z); lia
  | |- xr (f32_of_Z ?z) = _ => apply (of_Z_num z); lia
  end.
Ltac legend_entry :=
  split; [reflexivity|]; cbn [fst snd]; apply flt_agrees; [assumption|limit_spec|limit_spec].

Lemma rain_shade v : f32_valid v -> shade rain_legend v (rain_color v).
Proof.
  intro V. destruct (nan_cases v V) as [->|N]; [reflexivity|]. unfold shade. rewrite (proj2 N).
  change (rain_color v) with (pick [(f32_lit 1 10, rgba 0 0 0 0); (f32_of_Z 1, rgba 0 192 255 127); (f32_of_Z 2, rgba 0 0 255 191);
       (f32_of_Z 4, rgba 0 127 0 191); (f32_of_Z 6, rgba 0 255 0 191); (f32_of_Z 10, rgba 255 255 0 191);
       (f32_of_Z 20, rgba 255 191 0 191); (f32_of_Z 40, rgba 255 128 0 191); (f32_of_Z 60, rgba 255 0 0 191)] (lg_top rain_legend) v).
  apply pick_class. cbn [lg_classes rain_legend].
  repeat (apply Forall2_cons; [legend_entry|]). apply Forall2_nil.
Qed.
Lemma flt_up v a b : num v -> num a -> num b -> flt a b = true -> flt v a = true -> flt v b = true.
Proof. intros V A B H K. apply flt_num in H; [|assumption..]. apply flt_num in K; [|assumption..]. apply flt_num; [assumption..|]. lra. Qed.
Lemma cloud_shade v : f32_valid v -> shade cloud_legend v (cloud_color v).
Proof.
  intro V. destruct (nan_cases v V) as [->|N]; [reflexivity|]. unfold shade. rewrite (proj2 N).
  assert (E : cloud_color v = pick [(f32_lit 5 100, rgba 0 0 0 127); (f32_lit 4 10, rgba 255 255 255 127);
       (f32_lit 5 10, rgba 255 255 255 159); (f32_lit 6 10, rgba 255 255 255 191);
       (f32_lit 7 10, rgba 255 255 255 207); (f32_lit 8 10, rgba 255 255 255 223);
       (f32_lit 9 10, rgba 255 255 255 239)] (lg_top cloud_legend) v).
  { unfold cloud_color. cbn [pick lg_top cloud_legend]. destruct (flt v (f32_lit 5 100)); [reflexivity|].
    assert (Up : forall p, (p = 1 \/ p = 2 \/ p = 3) -> flt v (f32_lit p 10) = true -> flt v (f32_lit 4 10) = true).
    { intros p P. apply flt_up; [exact N|apply lit_spec; lia|apply lit_spec; lia|]. destruct P as [->|[->| ->]]; vm_compute; reflexivity. }
    destruct (flt v (f32_lit 1 10)) eqn:E1; [rewrite (Up 1) by auto; reflexivity|].
    destruct (flt v (f32_lit 2 10)) eqn:E2; [rewrite (Up 2) by auto; reflexivity|].
    destruct (flt v (f32_lit 3 10)) eqn:E3; [rewrite (Up 3) by auto; reflexivity|]. reflexivity. }
  rewrite E. apply pick_class. cbn [lg_classes cloud_legend].
  repeat (apply Forall2_cons; [legend_entry|]). apply Forall2_nil.
Qed.
Lemma knots_spec k : 0 <= k <= 100 -> num (fmul (f32_of_Z k) KNOTS_TO_MPS) /\ xr (fmul (f32_of_Z k) KNOTS_TO_MPS) = knots k.
Proof.
  intro K. destruct (fin_Z k ltac:(lia)) as [Fk Ek].
  assert (F : fin KNOTS_TO_MPS) by (split; [apply f32_lit_valid|vm_compute; reflexivity]).
  destruct (lit_spec 514444 1000000 ltac:(lia) ltac:(lia)) as [_ E].
  assert (B : (0 <= xr KNOTS_TO_MPS <= 1)%R).
  { assert (KNOTS_TO_MPS = S754_finite false 8630938 (-24)) as -> by (vm_compute; reflexivity). rewrite xr_F2R, F2R_neg_exp by lia. cbn. lra. }
  pose proof (fin_mul _ _ Fk F) as R. rewrite Ek in R.
  assert (0 <= IZR k <= 100)%R by (split; apply IZR_le; lia).
  destruct (rounds_fin _ _ R) as [G H'].
  - apply Rle_lt_trans with 100%R.
    + apply Rabs_le. change (- (100))%R with (IZR (-100)). split; [rewrite <- (rnd_gen (-100)) by (apply (gen_Z (-100)); lia)|rewrite <- (rnd_gen 100) by (apply (gen_Z 100); lia)]; apply rnd_mono; nra.
    + pose proof big_gt. eapply Rlt_trans; [|exact H0]. apply IZR_lt. lia.
  - split; [apply fin_num, G|]. rewrite H'. unfold knots. rewrite <- E. reflexivity.
Qed.
Lemma wind_shade v : f32_valid v -> shade wind_legend v (wind_color v).
Proof.
  intro V. destruct (nan_cases v V) as [->|N]; [reflexivity|]. unfold shade. rewrite (proj2 N).
  change (wind_color v) with (pick [(fmul (f32_of_Z 5) KNOTS_TO_MPS, rgba 0 127 0 255); (fmul (f32_of_Z 10) KNOTS_TO_MPS, rgba 0 255 0 255);
    (fmul (f32_of_Z 15) KNOTS_TO_MPS, rgba 255 255 0 255); (fmul (f32_of_Z 20) KNOTS_TO_MPS, rgba 255 191 0 255);
    (fmul (f32_of_Z 25) KNOTS_TO_MPS, rgba 255 128 0 255); (fmul (f32_of_Z 30) KNOTS_TO_MPS, rgba 255 0 0 255);
    (fmul (f32_of_Z 40) KNOTS_TO_MPS, rgba 163 73 164 255); (fmul (f32_of_Z 50) KNOTS_TO_MPS, rgba 99 112 247 255)] (lg_top wind_legend) v).
  apply pick_class. cbn [lg_classes wind_legend].
  repeat (apply Forall2_cons; [split; [reflexivity|]; cbn [fst snd]; apply flt_agrees; [assumption|apply knots_spec; lia|apply knots_spec; lia]|]). apply Forall2_nil.
Qed.

(** ** Temperature *)
Lemma zero_celsius : fin ZERO_CELSIUS_IN_KELVIN /\ xr ZERO_CELSIUS_IN_KELVIN = (8950579 / 32768)%R.
Proof.
  split; [split; [apply f32_lit_valid|vm_compute; reflexivity]|].
  assert (ZERO_CELSIUS_IN_KELVIN = S754_finite false 8950579 (-15)) as -> by (vm_compute; reflexivity).
  rewrite xr_F2R, F2R_neg_exp by lia. reflexivity.
Qed.
(** Comparing the computed Celsius temperature with an integer is comparing the exact difference. *)
Lemma celsius_num k : num k -> num (kelvin_to_celsius k).
Proof.
  intros [V N]. destruct zero_celsius as [F _]. destruct (fis_finite k) eqn:Fk.
  - apply rounds_num with (xr k - xr ZERO_CELSIUS_IN_KELVIN)%R. apply fin_sub; [split; assumption|exact F].
  - destruct k as [s|s| |s m e]; try discriminate. split; [apply fsub_valid; [exact V|apply F]|]. destruct s; vm_compute; reflexivity.
Qed.
Lemma celsius_lt k z : num k -> Z.abs z <= 100 ->
  (flt (kelvin_to_celsius k) (f32_of_Z z) = true <-> (xr k - xr ZERO_CELSIUS_IN_KELVIN < IZR z)%R).
Proof.
  intros N Z0. destruct zero_celsius as [F E]. destruct (of_Z_num z ltac:(lia)) as [Nz Ez].
  rewrite (flt_num _ _ (celsius_num k N) Nz), Ez.
  assert (Bz : (-100 <= IZR z <= 100)%R) by (split; apply IZR_le; lia).
  destruct (fis_finite k) eqn:Fk.
  - assert (Fin : fin k) by (split; [apply N|exact Fk]). pose proof (fin_sub _ _ Fin F) as (_ & _ & Ev).
    unfold kelvin_to_celsius. rewrite Ev. set (r := (xr k - xr ZERO_CELSIUS_IN_KELVIN)%R).
    assert (Bb : (100 < big)%R) by (pose proof big_gt; eapply Rlt_trans; [|eassumption]; apply IZR_lt; lia).
    assert (Sz : sat (IZR z) = IZR z) by (apply sat_id; apply Rabs_le; lra).
    assert (Gz : rnd (IZR z) = IZR z) by (apply rnd_gen, gen_Z; lia).
    split; intro H.
    + destruct (Rle_or_lt (IZR z) r) as [G|G]; [|exact G]. apply rnd_mono, sat_mono in G. rewrite Gz, Sz in G. lra.
    + assert (L : (rnd r < IZR z)%R).
      { destruct (Rlt_or_le (xr k) (xr ZERO_CELSIUS_IN_KELVIN / 2)) as [A|A].
        - assert (r <= -101)%R by (unfold r; rewrite E in *; lra). assert (rnd r <= -101)%R; [|lra].
          rewrite <- (rnd_gen (-101)) by (apply (gen_Z (-101)); lia). apply rnd_mono. assumption.
        - destruct (Rle_or_lt (xr k) (2 * xr ZERO_CELSIUS_IN_KELVIN)) as [C|C].
          + rewrite rnd_gen; [exact H|]. unfold r. apply (sterbenz radix2 fexp32); [apply fin_gen, Fin|apply fin_gen, F|lra].
          + unfold r in H. rewrite E in *. lra. }
      unfold sat. unfold Rmax, Rmin. repeat destruct (Rle_dec _ _); lra.
  - destruct k as [s|s| |s m e]; try discriminate; [|destruct N; discriminate].
    assert (Bb : (1000 < big)%R) by (pose proof big_gt; eapply Rlt_trans; [|eassumption]; apply IZR_lt; lia).
    assert (Q : kelvin_to_celsius (S754_infinity s) = S754_infinity s) by (destruct s; vm_compute; reflexivity). rewrite Q.
    rewrite E. destruct s; cbn [xr]; lra.
Qed.
Lemma temp_shade k : f32_valid k ->
  if fis_nan k then temp_color k = lg_top temp_legend else class_of temp_legend (celsius k) (temp_color k).
Proof.
  intro V. destruct (nan_cases k V) as [->|N]; [vm_compute; reflexivity|]. rewrite (proj2 N).
  assert (E : temp_color k = pick (map (fun e : Z * (Z * Z * Z) => (f32_of_Z (fst e), match snd e with (r, g, b) => rgba r g b 127 end))
       [(-16, (255, 66, 255)); (-14, (255, 109, 255)); (-12, (255, 153, 255)); (-10, (255, 204, 255));
        (-8, (255, 255, 255)); (-6, (219, 235, 250)); (-4, (0, 212, 245)); (-2, (148, 189, 240));
        (0, (115, 166, 235)); (2, (222, 230, 153)); (4, (166, 212, 115)); (6, (107, 191, 77));
        (8, (51, 171, 38)); (10, (0, 153, 0)); (12, (51, 179, 0)); (14, (102, 204, 0));
        (16, (153, 230, 0)); (18, (204, 255, 0)); (20, (255, 255, 0)); (22, (255, 204, 0));
        (24, (255, 153, 0)); (26, (255, 102, 0)); (28, (255, 51, 0)); (30, (255, 0, 0));
        (32, (255, 0, 255)); (34, (255, 64, 255)); (36, (255, 128, 255)); (38, (255, 191, 255))]) (lg_top temp_legend) (kelvin_to_celsius k)) by reflexivity.
  rewrite E. apply pick_class. unfold celsius. rewrite <- (proj2 (lit_spec 27315 100 ltac:(lia) ltac:(lia))). fold ZERO_CELSIUS_IN_KELVIN. cbn [lg_classes temp_legend map].
  repeat (apply Forall2_cons; [split; [reflexivity|]; cbn [fst snd]; apply celsius_lt; [assumption|lia]|]). apply Forall2_nil.
Qed.

(** ** Composition *)
Lemma compose_channel_spec chk r ra c ca : is_byte r -> is_byte ra -> is_byte c -> is_byte ca ->
  exists v, compose_channel chk r ra c ca = Ok v /\ is_byte v /\ rounded_down 2 (over r ra c ca) v.
Proof.
  unfold is_byte. intros R RA C CA. unfold compose_channel, mul32, add32, uwrap, usub, as_u8.
  destruct (Z.ltb_spec (r * ra) (2 ^ 32)); [|nia]. cbn [obind].
  destruct (Z.ltb_spec (c * ca) (2 ^ 32)); [|nia]. cbn [obind]. destruct (Z.leb_spec ra 255); [|lia]. cbn [obind].
  assert (P : 0 <= c * ca <= 255 * 255) by nia. assert (P2 : 0 <= c * ca * (255 - ra) <= 255 * 255 * (255 - ra)) by nia.
  destruct (Z.ltb_spec (c * ca * (255 - ra)) (2 ^ 32)); [|lia]. cbn [obind].
  rewrite Z.div_div by lia. change (255 * 255) with 65025 in *.
  set (a := r * ra / 255). set (b := c * ca * (255 - ra) / 65025).
  assert (A : 0 <= r * ra - 255 * a < 255).
  { pose proof (Z.div_mod (r * ra) 255 ltac:(lia)). pose proof (Z.mod_pos_bound (r * ra) 255 ltac:(lia)). fold a in H2. lia. }
  assert (B : 0 <= c * ca * (255 - ra) - 65025 * b < 65025).
  { pose proof (Z.div_mod (c * ca * (255 - ra)) 65025 ltac:(lia)). pose proof (Z.mod_pos_bound (c * ca * (255 - ra)) 65025 ltac:(lia)). fold b in H2. lia. }
  assert (A1 : 0 <= a <= ra) by nia. assert (B1 : 0 <= b <= 255 - ra) by nia.
  destruct (Z.ltb_spec (a + b) (2 ^ 32)); [|lia]. cbn [obind]. rewrite Z.mod_small by lia.
  exists (a + b). split; [reflexivity|]. split; [lia|]. unfold rounded_down, over.
  assert (A2 : (0 <= IZR r * IZR ra - 255 * IZR a < 255)%R) by (rewrite <- !mult_IZR, <- minus_IZR; split; [apply IZR_le|apply IZR_lt]; lia).
  assert (B2 : (0 <= IZR c * IZR ca * (255 - IZR ra) - 65025 * IZR b < 65025)%R)
    by (rewrite <- minus_IZR, <- !mult_IZR, <- minus_IZR; split; [apply IZR_le|apply IZR_lt]; lia).
  rewrite plus_IZR.
  replace (IZR r * (IZR ra / 255) + IZR c * (IZR ca / 255) * (1 - IZR ra / 255))%R
    with (IZR a + IZR b + (IZR r * IZR ra - 255 * IZR a) / 255 + (IZR c * IZR ca * (255 - IZR ra) - 65025 * IZR b) / 65025)%R by field.
  lra.
Qed.
Lemma compose_alpha_spec chk ra ca : is_byte ra -> is_byte ca ->
  exists v, compose_alpha chk ra ca = Ok v /\ is_byte v /\ rounded_down 1 (over_alpha ra ca) v /\ ra <= v /\ ca <= v.
Proof.
  unfold is_byte. intros RA CA. unfold compose_alpha, mul32, add32, uwrap, usub, as_u8.
  destruct (Z.leb_spec ra 255); [|lia]. cbn [obind]. destruct (Z.ltb_spec (ca * (255 - ra)) (2 ^ 32)); [|nia]. cbn [obind].
  set (b := ca * (255 - ra) / 255).
  assert (B : 0 <= ca * (255 - ra) - 255 * b < 255).
  { pose proof (Z.div_mod (ca * (255 - ra)) 255 ltac:(lia)). pose proof (Z.mod_pos_bound (ca * (255 - ra)) 255 ltac:(lia)). fold b in H1. lia. }
  assert (B1 : 0 <= b <= 255 - ra) by nia. assert (B2 : ca <= ra + b) by nia.
  destruct (Z.ltb_spec (ra + b) (2 ^ 32)); [|lia]. cbn [obind]. rewrite Z.mod_small by lia.
  exists (ra + b). split; [reflexivity|]. split; [lia|]. split; [|lia]. unfold rounded_down, over_alpha.
  assert (B3 : (0 <= IZR ca * (255 - IZR ra) - 255 * IZR b < 255)%R)
    by (rewrite <- minus_IZR, <- !mult_IZR, <- minus_IZR; split; [apply IZR_le|apply IZR_lt]; lia).
  rewrite plus_IZR. replace (IZR ra + IZR ca * (1 - IZR ra / 255))%R with (IZR ra + IZR b + (IZR ca * (255 - IZR ra) - 255 * IZR b) / 255)%R by field. lra.
Qed.
Lemma compose_spec chk rain cloud : byte_color rain -> byte_color cloud ->
  exists c, compose chk rain cloud = Ok c /\ composed rain cloud c.
Proof.
  intros (R1 & R2 & R3 & R4) (C1 & C2 & C3 & C4). unfold compose.
  destruct (compose_channel_spec chk (c_r rain) (c_a rain) (c_r cloud) (c_a cloud)) as (r & -> & Br & Er); [assumption..|]. cbn [obind].
  destruct (compose_channel_spec chk (c_g rain) (c_a rain) (c_g cloud) (c_a cloud)) as (g & -> & Bg & Eg); [assumption..|]. cbn [obind].
  destruct (compose_channel_spec chk (c_b rain) (c_a rain) (c_b cloud) (c_a cloud)) as (b & -> & Bb & Eb); [assumption..|]. cbn [obind].
  destruct (compose_alpha_spec chk (c_a rain) (c_a cloud)) as (a & -> & Ba & Ea & La & Lb); [assumption..|]. cbn [obind].
  exists (rgba r g b a). split; [reflexivity|]. split; [repeat split; first [apply Br|apply Bg|apply Bb|apply Ba]|]. split.
  - intros k [<-|[<-|[<-|[]]]]; cbn [c_r c_g c_b c_a]; assumption.
  - auto.
Qed.
Lemma rain_byte v : byte_color (rain_color v).
Proof. unfold rain_color. repeat destruct (flt v _); unfold byte_color, is_byte; cbn; lia. Qed.
Lemma cloud_byte v : byte_color (cloud_color v).
Proof. unfold cloud_color. repeat destruct (flt v _); unfold byte_color, is_byte; cbn; lia. Qed.
Lemma feq_zero v w : feq v fzero = true -> flt w fzero = flt w v.
Proof.
  destruct v as [s|s| |s m e]; [|destruct s; discriminate|discriminate|destruct s; discriminate]. intros _.
  destruct w as [s'|s'| |s' m' e']; destruct s; reflexivity.
Qed.
Lemma zero_rain v : feq v fzero = true -> rain_color v = rgba 0 0 0 0.
Proof. destruct v as [s|s| |s m e]; [|destruct s; discriminate|discriminate|destruct s; discriminate]. intros _. destruct s; vm_compute; reflexivity. Qed.
Lemma zero_cloud v : feq v fzero = true -> cloud_color v = rgba 0 0 0 127.
Proof. destruct v as [s|s| |s m e]; [|destruct s; discriminate|discriminate|destruct s; discriminate]. intros _. destruct s; vm_compute; reflexivity. Qed.
Lemma c35_proof : forall chk cover precip rain cloud, f32_valid cover -> f32_valid precip ->
  shade rain_legend precip rain -> shade cloud_legend cover cloud ->
  exists c, cloud_precip_color chk (cover, precip) = Ok c /\ composed rain cloud c.
Proof.
  intros chk cover precip rain cloud Vc Vp Sr Sc. rewrite (shade_unique _ _ _ _ Sr (rain_shade precip Vp)), (shade_unique _ _ _ _ Sc (cloud_shade cover Vc)).
  unfold cloud_precip_color. cbn [fst snd].
  destruct (compose_spec chk (rain_color precip) (cloud_color cover) (rain_byte _) (cloud_byte _)) as (c & E & K).
  destruct (feq cover fzero) eqn:Ec; [destruct (feq precip fzero) eqn:Ep|]; cbn [andb]; [|exists c; auto|exists c; auto].
  exists c. split; [|exact K]. rewrite <- E, (zero_rain _ Ep), (zero_cloud _ Ec). destruct chk; vm_compute; reflexivity.
Qed.
Lemma cloud_opacity_mono_proof : forall v w, num v -> num w -> (xr v <= xr w)%R -> c_a (cloud_color v) <= c_a (cloud_color w).
Proof.
  intros v w V W L.
  assert (M : forall p q, 0 <= p <= 10 -> 0 < q <= 100 -> flt w (f32_lit p q) = true -> flt v (f32_lit p q) = true).
  { intros p q P Q H. destruct (lit_spec p q ltac:(lia) ltac:(lia)) as [N _]. apply flt_num in H; [|assumption..]. apply flt_num; [assumption..|]. lra. }
  pose proof (M 5 100 ltac:(lia) ltac:(lia)). pose proof (M 1 10 ltac:(lia) ltac:(lia)). pose proof (M 2 10 ltac:(lia) ltac:(lia)).
  pose proof (M 3 10 ltac:(lia) ltac:(lia)). pose proof (M 4 10 ltac:(lia) ltac:(lia)). pose proof (M 5 10 ltac:(lia) ltac:(lia)).
  pose proof (M 6 10 ltac:(lia) ltac:(lia)). pose proof (M 7 10 ltac:(lia) ltac:(lia)). pose proof (M 8 10 ltac:(lia) ltac:(lia)). pose proof (M 9 10 ltac:(lia) ltac:(lia)).
  clear M. unfold cloud_color.
  repeat match goal with |- context [if flt w ?l then _ else _] => destruct (flt w l) end;
  repeat match goal with H : true = true -> _ |- _ => specialize (H eq_refl); rewrite H end;
  repeat match goal with |- context [if flt v ?l then _ else _] => destruct (flt v l) end; cbn; lia.
Qed.

(** ** C37: full charts *)
Lemma chart_row_spec {T} chk (value : Z -> Z -> outcome (option T)) color_fn h i js : NoDup js -> forall d, drawable_ok d -> d_h d = h -> 0 <= i < h ->
  (forall j, In j js -> 0 <= j < d_w d) -> (forall j, In j js -> pixel d j (h - i - 1) = Some COLOR_TRANSPARENT) ->
  match chart_row chk value color_fn h i d js with
  | Ok d' => drawable_ok d' /\ same_size d d' /\
      (forall j, In j js -> exists c, cell_colour value color_fn j i = Ok c /\ pixel d' j (h - i - 1) = Some c) /\
      (forall x y, ~ (y = h - i - 1 /\ In x js) -> pixel d' x y = pixel d x y)
  | Err e => exists j, In j js /\ cell_colour value color_fn j i = Err e
  | Panic => exists j, In j js /\ cell_colour value color_fn j i = Panic
  end.
Proof.
  induction js as [|j js IH]; intros N d K Hh Hi I Tr; cbn [chart_row].
  - split; [exact K|]. split; [split; reflexivity|]. split; [intros j []|]. reflexivity.
  - inversion N as [|? ? Nj N']; subst.
    assert (Step : forall d1, drawable_ok d1 -> same_size d d1 ->
      (exists c, cell_colour value color_fn j i = Ok c /\ pixel d1 j (d_h d - i - 1) = Some c) ->
      (forall x y, ~ (y = d_h d - i - 1 /\ x = j) -> pixel d1 x y = pixel d x y) ->
      match chart_row chk value color_fn (d_h d) i d1 js with
      | Ok d' => drawable_ok d' /\ same_size d d' /\
          (forall k, In k (j :: js) -> exists c, cell_colour value color_fn k i = Ok c /\ pixel d' k (d_h d - i - 1) = Some c) /\
          (forall x y, ~ (y = d_h d - i - 1 /\ In x (j :: js)) -> pixel d' x y = pixel d x y)
      | Err e => exists k, In k (j :: js) /\ cell_colour value color_fn k i = Err e
      | Panic => exists k, In k (j :: js) /\ cell_colour value color_fn k i = Panic
      end).
    { intros d1 K1 [W1 H1] (c & Ec & Pc) Fr1. specialize (IH N' d1 K1 H1 Hi).
      assert (I1 : forall k, In k js -> 0 <= k < d_w d1) by (intros k J; rewrite W1; apply I; now right).
      assert (T1 : forall k, In k js -> pixel d1 k (d_h d - i - 1) = Some COLOR_TRANSPARENT).
      { intros k J. rewrite Fr1; [apply Tr; now right|]. intros [_ ->]. contradiction. }
      specialize (IH I1 T1). destruct (chart_row _ _ _ _ i d1 js) as [d'|e'|].
      - destruct IH as (K' & [W' H'] & At & Fr). split; [exact K'|]. split; [split; congruence|]. split.
        + intros k [<-|J]; [|apply At, J]. exists c. split; [exact Ec|]. rewrite Fr; [exact Pc|]. intros [_ J]. contradiction.
        + intros x y Q. rewrite Fr; [apply Fr1|]; intros [-> J]; apply Q; split; auto; [subst; now left|now right].
      - destruct IH as (k & J & E). exists k. split; [now right|exact E].
      - destruct IH as (k & J & E). exists k. split; [now right|exact E]. }
    assert (Ij : inside (d_w d) (d_h d) j (d_h d - i - 1)) by (split; [apply I; now left|lia]).
    destruct (value j i) as [[v|]|e|] eqn:Ev; cbn [obind].
    + destruct (color_fn v) as [c|e|] eqn:Ec; cbn [obind].
      * destruct (draw_point_spec chk d j (d_h d - i - 1) c K Ij) as (d1 & -> & K1 & S1 & P1 & F1). cbn [obind].
        apply Step; [exact K1|exact S1| |].
        -- exists c. unfold cell_colour. rewrite Ev. cbn [obind]. auto.
        -- intros x y Q. apply F1. intro E. apply Q. split; congruence.
      * exists j. split; [now left|]. unfold cell_colour. rewrite Ev. exact Ec.
      * exists j. split; [now left|]. unfold cell_colour. rewrite Ev. exact Ec.
    + apply Step; [exact K|split; reflexivity| |reflexivity].
      exists COLOR_TRANSPARENT. unfold cell_colour. rewrite Ev. split; [reflexivity|]. apply Tr. now left.
    + exists j. split; [now left|]. unfold cell_colour. rewrite Ev. reflexivity.
    + exists j. split; [now left|]. unfold cell_colour. rewrite Ev. reflexivity.
Qed.
Lemma chart_rows_spec {T} chk (value : Z -> Z -> outcome (option T)) color_fn w h is : NoDup is -> forall d, drawable_ok d -> d_w d = w -> d_h d = h ->
  (forall i, In i is -> 0 <= i < h) -> (forall j i, In i is -> 0 <= j < w -> pixel d j (h - i - 1) = Some COLOR_TRANSPARENT) ->
  match chart_rows chk value color_fn w h d is with
  | Ok d' => drawable_ok d' /\ same_size d d' /\
      (forall j i, In i is -> 0 <= j < w -> exists c, cell_colour value color_fn j i = Ok c /\ pixel d' j (h - i - 1) = Some c) /\
      (forall x i, ~ In i is -> pixel d' x (h - i - 1) = pixel d x (h - i - 1))
  | Err e => exists j i, In i is /\ 0 <= j < w /\ cell_colour value color_fn j i = Err e
  | Panic => exists j i, In i is /\ 0 <= j < w /\ cell_colour value color_fn j i = Panic
  end.
Proof.
  induction is as [|i is IH]; intros N d K W H I Tr; cbn [chart_rows].
  - split; [exact K|]. split; [split; reflexivity|]. split; [intros j i []|]. reflexivity.
  - inversion N as [|? ? Ni N']; subst. set (js := map Z.of_nat (seq 0 (Z.to_nat (d_w d)))).
    assert (Wp : 0 < d_w d) by apply K.
    assert (J : forall j, In j js <-> 0 <= j < d_w d) by (intro j; unfold js; rewrite seq_Z, Z2Nat.id by lia; reflexivity).
    specialize (I i (or_introl eq_refl)) as Ii.
    pose proof (chart_row_spec chk value color_fn (d_h d) i js (nodup_seq_Z _) d K eq_refl Ii (fun j => proj1 (J j))) as R.
    specialize (R (fun j Q => Tr j i (or_introl eq_refl) (proj1 (J j) Q))). destruct (chart_row _ _ _ _ i d js) as [d1|e|]; cbn [obind].
    + destruct R as (K1 & [W1 H1] & At & Fr). specialize (IH N' d1 K1 W1 H1 (fun k Q => I k (or_intror Q))).
      assert (T1 : forall j k, In k is -> 0 <= j < d_w d -> pixel d1 j (d_h d - k - 1) = Some COLOR_TRANSPARENT).
      { intros j k Q Qj. rewrite Fr; [apply Tr; [now right|exact Qj]|]. intros [E _]. assert (k = i) by lia. subst. contradiction. }
      specialize (IH T1). destruct (chart_rows _ _ _ _ _ d1 is) as [d'|e|].
      * destruct IH as (K' & [W' H'] & At' & Fr'). split; [exact K'|]. split; [split; congruence|]. split.
        -- intros j k [<-|Q] Qj; [|apply At'; assumption]. destruct (At j) as (c & Ec & Pc); [apply J, Qj|]. exists c. split; [exact Ec|]. rewrite Fr' by exact Ni. exact Pc.
        -- intros x k Q. rewrite Fr' by (intro; apply Q; now right). apply Fr. intros [E _]. apply Q. left. lia.
      * destruct IH as (j & k & Q & Qj & E). exists j, k. split; [now right|auto].
      * destruct IH as (j & k & Q & Qj & E). exists j, k. split; [now right|auto].
    + destruct R as (j & Q & E). exists j, i. split; [now left|]. split; [apply J, Q|exact E].
    + destruct R as (j & Q & E). exists j, i. split; [now left|]. split; [apply J, Q|exact E].
Qed.
Lemma c37_render_proof : forall T chk w h (value : Z -> Z -> outcome (option T)) color_fn, size_ok w h ->
  match render_chart chk w h value color_fn with
  | Ok d => drawable_ok d /\ d_w d = w /\ d_h d = h /\
      (forall x y, inside w h x y -> exists c, cell_colour value color_fn x y = Ok c /\ pixel d x (h - 1 - y) = Some c)
  | Err e => exists x y, inside w h x y /\ cell_colour value color_fn x y = Err e
  | Panic => exists x y, inside w h x y /\ cell_colour value color_fn x y = Panic
  end.
Proof.
  intros T chk w h value color_fn Sz. unfold render_chart. destruct (create_empty_spec chk w h Sz) as (d0 & -> & K0 & W0 & H0 & T0). cbn [obind].
  pose proof Sz as (Wp & Hp & _). set (is := map Z.of_nat (seq 0 (Z.to_nat h))).
  assert (J : forall j, In j is <-> 0 <= j < h) by (intro j; unfold is; rewrite seq_Z, Z2Nat.id by lia; reflexivity).
  pose proof (chart_rows_spec chk value color_fn w h is (nodup_seq_Z _) d0 K0 W0 H0 (fun i => proj1 (J i))) as R.
  assert (R1 : forall j i, In i is -> 0 <= j < w -> pixel d0 j (h - i - 1) = Some COLOR_TRANSPARENT).
  { intros j i Q Qj. apply J in Q. apply T0. split; lia. }
  specialize (R R1). destruct (chart_rows _ _ _ _ _ d0 is) as [d|e|].
  - destruct R as (K & [W H'] & At & _). split; [exact K|]. split; [congruence|]. split; [congruence|].
    intros x y [Qx Qy]. destruct (At x y) as (c & Ec & Pc); [apply J, Qy|exact Qx|]. exists c. split; [exact Ec|]. replace (h - 1 - y) with (h - y - 1) by lia. exact Pc.
  - destruct R as (j & i & Q & Qj & E). exists j, i. split; [split; [exact Qj|apply J, Q]|exact E].
  - destruct R as (j & i & Q & Qj & E). exists j, i. split; [split; [exact Qj|apply J, Q]|exact E].
Qed.
Lemma c37_empty_proof : forall T chk w h (value : Z -> Z -> outcome (option T)) color_fn, w = 0 \/ h = 0 ->
  render_chart chk w h value color_fn = Err EInvalid.
Proof. intros T chk w h value color_fn [->|Hh]; unfold render_chart, create_empty; [|subst; rewrite orb_true_r]; reflexivity. Qed.

Lemma complete_cells (V : value_type) (g : value_grid (carrier V)) x y : complete g -> 0 <= x -> 0 <= y -> 
  exists o, value_by_xy V g x y = Ok o.
Proof.
  intros C X Y. destruct (value_by_xy_spec V g x y X Y) as (o & E & _); [|exists o; exact E].
  unfold complete, dims in C. cbn [fst snd] in C. lia.
Qed.
Lemma charted_ok {T} chk w h (value : Z -> Z -> outcome (option T)) color_fn : size_ok w h ->
  (forall x y, inside w h x y -> exists o, value x y = Ok o) -> (forall v, exists c, color_fn v = Ok c) ->
  exists d, render_chart chk (as_u32 w) (as_u32 h) value color_fn = Ok d /\ charted d w h value color_fn.
Proof.
  intros Sz V C. pose proof Sz as (Wp & Hp & Bd). unfold as_u32. rewrite !Z.mod_small by nia.
  assert (A : forall x y, inside w h x y -> exists c, cell_colour value color_fn x y = Ok c).
  { intros x y I. unfold cell_colour. destruct (V x y I) as (o & ->). cbn [obind]. destruct o; [apply C|eauto]. }
  pose proof (c37_render_proof T chk w h value color_fn Sz) as R. destruct (render_chart _ w h _ _) as [d|e|].
  - exists d. split; [reflexivity|]. exact R.
  - destruct R as (x & y & I & E). destruct (A x y I) as (c & E'). congruence.
  - destruct R as (x & y & I & E). destruct (A x y I) as (c & E'). congruence.
Qed.
Lemma color_total chk v : exists c, cloud_precip_color chk v = Ok c.
Proof.
  unfold cloud_precip_color. destruct (_ && _); [eauto|].
  destruct (compose_spec chk (rain_color (snd v)) (cloud_color (fst v)) (rain_byte _) (cloud_byte _)) as (c & E & _). eauto.
Qed.
Lemma c37_cloud_precip_proof : forall chk l w h, dims (cp_cloud l) = (w, h) -> size_ok w h ->
  complete (cp_cloud l) -> complete (cp_precip0 l) -> complete (cp_precip1 l) ->
  exists d, cloud_precip_chart chk l = Ok d /\ charted d w h (cloud_and_precip_by_xy l) (cloud_precip_color chk).
Proof.
  intros chk l w h D Sz C0 C1 C2. unfold dims in D. injection D as Dw Dh. unfold cloud_precip_chart. rewrite Dw, Dh. apply charted_ok; [exact Sz| |].
  - intros x y [X Y]. unfold cloud_and_precip_by_xy, cloud_and_precip. cbv beta.
    destruct (complete_cells f32_type (cp_cloud l) x y C0) as (o0 & E0); [lia..|]. destruct (complete_cells f32_type (cp_precip0 l) x y C1) as (o1 & E1); [lia..|].
    destruct (complete_cells f32_type (cp_precip1 l) x y C2) as (o2 & E2); [lia..|]. change (carrier f32_type) with f32 in *.
    rewrite E0. cbn [obind]. rewrite E1. cbn [obind]. rewrite E2. cbn [obind]. eauto.
  - apply color_total.
Qed.
Lemma c37_temp_proof : forall chk l w h, dims l = (w, h) -> size_ok w h -> complete l ->
  exists d, temp_chart chk l = Ok d /\ charted d w h (temp_by_xy l) (fun v => Ok (temp_color v)).
Proof.
  intros chk l w h D Sz C0. unfold dims in D. injection D as Dw Dh. unfold temp_chart. rewrite Dw, Dh. apply charted_ok; [exact Sz| |eauto].
  intros x y [X Y]. apply (complete_cells f32_type); [exact C0|lia..].
Qed.
Lemma c37_wind_proof : forall chk l w h, dims (wl_zonal l) = (w, h) -> size_ok w h -> complete (wl_zonal l) -> complete (wl_meridional l) ->
  exists d, wind_chart chk l = Ok d /\ charted d w h (wind_tot_by_xy l) (fun v => Ok (wind_color v)).
Proof.
  intros chk l w h D Sz C0 C1. unfold dims in D. injection D as Dw Dh. unfold wind_chart. rewrite Dw, Dh. apply charted_ok; [exact Sz| |eauto].
  intros x y [X Y]. unfold wind_tot_by_xy, wind_e_n_by_xy, wind_e_n. cbv beta.
  destruct (complete_cells f32_type (wl_zonal l) x y C0) as (o0 & E0); [lia..|]. destruct (complete_cells f32_type (wl_meridional l) x y C1) as (o1 & E1); [lia..|].
  change (carrier f32_type) with f32 in *. rewrite E0. cbn [obind]. rewrite E1. cbn [obind omap]. eauto.
Qed.

(** ** C38: layers refuse grids that do not match *)
Lemma feq_same x y : f32_valid x -> f32_valid y -> (feq x y = true <-> same_number x y).
Proof.
  intros X Y. unfold same_number. destruct (nan_cases x X) as [->|[_ Nx]]; [split; [discriminate|intros (Q & _); discriminate]|].
  destruct (nan_cases y Y) as [->|[_ Ny]]; [split; [destruct x as [s|s| |s m e]; try destruct s; discriminate|intros (_ & Q & _); discriminate]|].
  rewrite (feq_xr x y X Y Nx Ny). tauto.
Qed.
Lemma coord_same a b : valid_coord a -> valid_coord b -> (lat_lon_eqb a b = true <-> same_coord a b).
Proof. intros [A1 A2] [B1 B2]. unfold lat_lon_eqb, same_coord. rewrite andb_true_iff, !feq_same by assumption. reflexivity. Qed.
Lemma grid_same {S T} (a : value_grid S) (b : value_grid T) : valid_grid a -> valid_grid b ->
  (dims_eqb a b && extents_eqb a b = true <-> same_grid a b).
Proof.
  intros [A1 A2] [B1 B2]. unfold dims_eqb, extents_eqb, extent_eqb, same_grid, dims, same_extent.
  fold (extent_of a) (extent_of b). rewrite !andb_true_iff, !Z.eqb_eq, !coord_same by assumption.
  split; [intros ((E1 & E2) & H); split; [congruence|exact H]|intros [E H]; injection E as E1 E2; tauto].
Qed.
Lemma c38_cloud_precip_proof : forall cloud p0 p1, valid_grid cloud -> valid_grid p0 -> valid_grid p1 ->
  (same_grid cloud p0 /\ same_grid p0 p1 /\ cloud_precip_new cloud p0 p1 = Ok {| cp_cloud := cloud; cp_precip0 := p0; cp_precip1 := p1 |}) \/
  (~ (same_grid cloud p0 /\ same_grid p0 p1) /\ cloud_precip_new cloud p0 p1 = Err EInvalid).
Proof.
  intros c a b C A B. rewrite <- (grid_same c a C A), <- (grid_same a b A B). unfold cloud_precip_new.
  destruct (dims_eqb c a), (extents_eqb c a), (dims_eqb a b), (extents_eqb a b); cbn; (left; repeat split; reflexivity) || (right; split; [intros [? ?]; discriminate|reflexivity]).
Qed.
Lemma c38_wind_proof : forall u v gusts, valid_grid u -> valid_grid v -> (forall g, gusts = Some g -> valid_grid g) ->
  (same_grid u v /\ (forall g, gusts = Some g -> same_grid g u) /\ wind_new u v gusts = Ok {| wl_zonal := u; wl_meridional := v; wl_gusts := gusts |}) \/
  (~ (same_grid u v /\ forall g, gusts = Some g -> same_grid g u) /\ wind_new u v gusts = Err EInvalid).
Proof.
  intros u v gusts U V G. rewrite <- (grid_same u v U V). unfold wind_new. destruct gusts as [g|].
  - specialize (G g eq_refl). pose proof (grid_same g u G U) as Q.
    destruct (dims_eqb u v), (extents_eqb u v); cbn [negb]; try (right; split; [intros [? ?]; discriminate|reflexivity]).
    destruct (dims_eqb g u), (extents_eqb g u); cbn [negb]; cbn [andb] in Q.
    + left. split; [reflexivity|]. split; [|reflexivity]. intros g' E. injection E as <-. apply Q. reflexivity.
    + right. split; [|reflexivity]. intros [_ H]. specialize (H g eq_refl). apply Q in H. discriminate.
    + right. split; [|reflexivity]. intros [_ H]. specialize (H g eq_refl). apply Q in H. discriminate.
    + right. split; [|reflexivity]. intros [_ H]. specialize (H g eq_refl). apply Q in H. discriminate.
  - destruct (dims_eqb u v), (extents_eqb u v); cbn [negb andb]; try (right; split; [intros [? ?]; discriminate|reflexivity]).
    left. split; [reflexivity|]. split; [discriminate|reflexivity].
Qed.
Lemma c38_weather_proof : forall clct ceiling ww, valid_grid clct -> valid_grid ceiling ->
  (same_grid clct ceiling /\ weather_new clct ceiling ww = Ok {| we_clct := clct; we_ceiling := ceiling; we_ww := ww |}) \/
  (~ same_grid clct ceiling /\ weather_new clct ceiling ww = Err EInvalid).
Proof.
  intros c a ww C A. rewrite <- (grid_same c a C A). unfold weather_new.
  destruct (dims_eqb c a), (extents_eqb c a); cbn; (left; repeat split; reflexivity) || (right; split; [discriminate|reflexivity]).
Qed.
Lemma len_0 {T} (l : list T) : (len l =? 0) = true <-> l = [].
Proof. unfold len. rewrite Z.eqb_eq. destruct l; cbn [length]; split; intro H; [reflexivity|reflexivity|lia|discriminate]. Qed.
Lemma c38_vertical_cloud_proof : forall hhl clc,
  (hhl <> [] /\ length hhl = length clc /\ vertical_cloud_new hhl clc = Ok {| vc_hhl := hhl; vc_clc := clc |}) \/
  (~ (hhl <> [] /\ length hhl = length clc) /\ vertical_cloud_new hhl clc = Panic).
Proof.
  intros hhl clc. unfold vertical_cloud_new. destruct (len hhl =? 0) eqn:H0; [apply len_0 in H0; right; split; [tauto|reflexivity]|].
  assert (N : hhl <> []) by (intro E; apply len_0 in E; congruence).
  destruct (len clc =? 0) eqn:C0; [apply len_0 in C0; right; split; [intros [_ E]; subst; destruct hhl; [tauto|discriminate]|reflexivity]|].
  cbn [orb]. unfold len. destruct (Z.eqb_spec (Z.of_nat (length hhl)) (Z.of_nat (length clc))); cbn [negb].
  - left. split; [exact N|]. split; [lia|reflexivity].
  - right. split; [intros [_ E]; lia|reflexivity].
Qed.
Lemma c38_vertical_wind_proof : forall hhl u v,
  (hhl <> [] /\ length hhl = length u /\ length hhl = length v /\ vertical_wind_new hhl u v = Ok {| vw_hhl := hhl; vw_u := u; vw_v := v |}) \/
  (~ (hhl <> [] /\ length hhl = length u /\ length hhl = length v) /\ vertical_wind_new hhl u v = Panic).
Proof.
  intros hhl u v. unfold vertical_wind_new. destruct (len hhl =? 0) eqn:H0; [apply len_0 in H0; right; split; [tauto|reflexivity]|].
  assert (N : hhl <> []) by (intro E; apply len_0 in E; congruence).
  destruct (len u =? 0) eqn:C0; [apply len_0 in C0; right; split; [intros (_ & E & _); subst; destruct hhl; [tauto|discriminate]|reflexivity]|].
  destruct (len v =? 0) eqn:V0; [apply len_0 in V0; right; split; [intros (_ & _ & E); subst; destruct hhl; [tauto|discriminate]|reflexivity]|].
  cbn [orb]. unfold len. destruct (Z.eqb_spec (Z.of_nat (length hhl)) (Z.of_nat (length u))); cbn [negb orb].
  - destruct (Z.eqb_spec (Z.of_nat (length hhl)) (Z.of_nat (length v))); cbn [negb].
    + left. split; [exact N|]. split; [lia|]. split; [lia|reflexivity].
    + right. split; [intros (_ & _ & E); lia|reflexivity].
  - right. split; [intros (_ & E & _); lia|reflexivity].
Qed.

(** ** C39: values of layers *)
Lemma c39_precip_proof : forall (cloud p0 p1 : fgrid) l (get : fgrid -> outcome (option f32)) c a b,
  cloud_precip_new cloud p0 p1 = Ok l -> get cloud = Ok c -> get p0 = Ok a -> get p1 = Ok b ->
  cloud_and_precip get l = Ok (Some (or_zero c, fsub (or_zero b) (or_zero a))).
Proof.
  intros cloud p0 p1 l get c a b N C A B. unfold cloud_precip_new in N. destruct (_ || _); [discriminate|]. destruct (_ || _); [discriminate|].
  injection N as <-. unfold cloud_and_precip. cbn [cp_cloud cp_precip0 cp_precip1]. rewrite C. cbn [obind]. rewrite A. cbn [obind]. rewrite B. reflexivity.
Qed.
Lemma wind_fields u v gs l : wind_new u v gs = Ok l -> l = {| wl_zonal := u; wl_meridional := v; wl_gusts := gs |}.
Proof.
  unfold wind_new. destruct (negb _); [discriminate|]. destruct (negb _); [discriminate|]. destruct gs as [g|]; [|congruence].
  destruct (negb _); [discriminate|]. destruct (negb _); [discriminate|congruence].
Qed.
Lemma c39_vector_proof : forall (u v : fgrid) gs l (get : fgrid -> outcome (option f32)) e n, wind_new u v gs = Ok l ->
  (wind_e_n get l = Ok (Some (e, n)) <-> get u = Ok (Some e) /\ get v = Ok (Some n)) /\
  (wind_e_n get l = Ok None <-> exists a b, get u = Ok a /\ get v = Ok b /\ (a = None \/ b = None)).
Proof.
  intros u v gs l get e n N. rewrite (wind_fields _ _ _ _ N). unfold wind_e_n. cbn [wl_zonal wl_meridional].
  destruct (get u) as [a|a|] eqn:U; cbn [obind].
  - destruct (get v) as [b|b|] eqn:V; cbn [obind].
    + destruct a as [a|], b as [b|]; (split; [split; [intro Q; first [discriminate Q|injection Q; intros; subst; auto]|intros [Q1 Q2]; congruence]|split; [intro Q; first [discriminate Q|idtac]|intros (x & y & X & Y & D); destruct D; congruence]]);
        (eexists; eexists; split; [reflexivity|]; split; [reflexivity|]; auto).
    + split; split; [discriminate|intros [_ ?]; discriminate|discriminate|intros (x & y & _ & Y & _); discriminate].
    + split; split; [discriminate|intros [_ ?]; discriminate|discriminate|intros (x & y & _ & Y & _); discriminate].
  - split; split; [discriminate|intros [? _]; discriminate|discriminate|intros (x & y & X & _); discriminate].
  - split; split; [discriminate|intros [? _]; discriminate|discriminate|intros (x & y & X & _); discriminate].
Qed.
Lemma c39_gusts_proof : forall (u v : fgrid) gs l (get : fgrid -> outcome (option f32)), wind_new u v gs = Ok l ->
  gusts get l = match gs with Some g => get g | None => Ok None end.
Proof. intros u v gs l get N. rewrite (wind_fields _ _ _ _ N). reflexivity. Qed.

Lemma fsqrt_nonneg x : f32_valid x -> flt (fsqrt x) fzero = false.
Proof.
  intro V. destruct x as [s|s| |s m e]; [destruct s; reflexivity|destruct s; reflexivity|reflexivity|]. destruct s; [reflexivity|].
  assert (P : (0 <= xr (S754_finite false m e))%R) by (rewrite xr_F2R; apply F2R_ge_0; cbn; lia).
  pose proof (fsqrt_rounds _ V eq_refl P) as R. destruct (fin_Z 0 ltac:(lia)) as [F0 E0]. change (f32_of_Z 0) with fzero in *.
  apply flt_num_false; [apply (rounds_num _ _ R)|apply fin_num, F0|]. rewrite E0, (proj2 (proj2 R)).
  rewrite <- (sat_id 0) by (rewrite Rabs_R0; apply Rlt_le, big_pos). apply sat_mono. rewrite <- rnd_0 at 1. apply rnd_mono, sqrt_pos.
Qed.
Lemma c39_nonneg_proof : forall e n, f32_valid e -> f32_valid n -> flt (wind_speed e n) fzero = false.
Proof. intros e n E N. unfold wind_speed. apply fsqrt_nonneg, fadd_valid; apply fmul_valid; assumption. Qed.

Lemma sqrt_stage S s u eta : (0 <= S)%R -> (0 <= s)%R -> (0 <= u <= 1)%R -> (0 <= eta)%R -> (Rabs (s - S) <= u * S + eta * eta)%R ->
  (Rabs (sqrt s - sqrt S) <= u * sqrt S + eta)%R.
Proof.
  intros S0 s0 U E H. apply Rabs_le_inv in H. pose proof (sqrt_pos S) as P1. pose proof (sqrt_pos s) as P2.
  pose proof (sqrt_sqrt S S0) as Q1. pose proof (sqrt_sqrt s s0) as Q2. apply Rabs_le.
  set (x := sqrt s) in *. set (y := sqrt S) in *. clearbody x y. subst s S. split.
  - destruct (Rle_or_lt ((1 - u) * y - eta) 0) as [A|A]; [lra|]. enough ((1 - u) * y - eta <= x)%R by lra.
    apply Rsqr_incr_0_var; [|lra]. unfold Rsqr.
    assert ((1 - u) * y <= y)%R by nra.
    set (z := ((1 - u) * y)%R) in *.
    assert ((z - eta) * (z - eta) <= z * z - eta * eta)%R by nra. assert (z * z <= (1 - u) * (y * y))%R; [|lra].
    apply Rle_trans with (z * y)%R; [apply Rmult_le_compat_l; lra|unfold z; lra].
  - enough (x <= (1 + u) * y + eta)%R by lra. assert (0 <= u * y)%R by nra. assert (0 <= (u * y) * (u * y))%R by nra. assert (0 <= (u * y) * eta)%R by nra.
    assert (0 <= y * eta)%R by nra. assert (0 <= (u * y) * y)%R by nra.
    apply Rsqr_incr_0_var; [|lra]. unfold Rsqr.
    replace (((1 + u) * y + eta) * ((1 + u) * y + eta))%R
      with (y * y + 2 * ((u * y) * y) + (u * y) * (u * y) + 2 * (y * eta) + 2 * ((u * y) * eta) + eta * eta)%R by ring. lra.
Qed.
Lemma c39_speed_proof : forall e n, fin e -> fin n -> (Rabs (xr e) <= IZR (2 ^ 60))%R -> (Rabs (xr n) <= IZR (2 ^ 60))%R ->
  fin (wind_speed e n) /\ (0 <= xr (wind_speed e n))%R /\
  (Rabs (xr (wind_speed e n) - sqrt (xr e * xr e + xr n * xr n)) <= / IZR (2 ^ 21) * sqrt (xr e * xr e + xr n * xr n) + / IZR (2 ^ 73))%R.
Proof.
  intros e n Fe Fn Be Bn. unfold wind_speed. set (a := xr e) in *. set (b := xr n) in *.
  assert (Bb : (IZR (2 ^ 125) < big)%R) by (eapply Rlt_trans; [|apply big_gt]; apply IZR_lt; lia).
  assert (Small : forall r, (0 <= r <= IZR (2 ^ 124))%R -> (Rabs (rnd r) < big)%R /\ (0 <= rnd r)%R /\ (rnd r <= r * (1 + / 16777216) + bpow radix2 (-150))%R /\ (Rabs (rnd r - r) <= / 16777216 * r + bpow radix2 (-150))%R).
  { intros r R. assert (G : (0 <= rnd r)%R) by (rewrite <- rnd_0; apply rnd_mono; lra).
    assert (G2 : (rnd r <= IZR (2 ^ 125))%R).
    { rewrite <- (rnd_gen (IZR (2 ^ 125))). - apply rnd_mono. apply Rle_trans with (IZR (2 ^ 124)); [lra|]. apply IZR_le. lia.
      - replace (IZR (2 ^ 125)) with (F2R (Float radix2 1 125)) by (rewrite F2R_nonneg_exp by lia; f_equal). apply gen_F2R; lia. }
    pose proof (rnd_err r) as Er. rewrite ulp_half_val, (Rabs_pos_eq r) in Er by lra.
    split; [rewrite Rabs_pos_eq; lra|]. split; [exact G|]. split; [apply Rabs_le_inv in Er; lra|exact Er]. }
  assert (A2 : (0 <= a * a <= IZR (2 ^ 120))%R).
  { apply Rabs_le_inv in Be. change (IZR (2 ^ 120)) with (IZR (2 ^ 60 * 2 ^ 60)). rewrite mult_IZR. nra. }
  assert (B2 : (0 <= b * b <= IZR (2 ^ 120))%R).
  { apply Rabs_le_inv in Bn. change (IZR (2 ^ 120)) with (IZR (2 ^ 60 * 2 ^ 60)). rewrite mult_IZR. nra. }
  assert (L1 : (IZR (2 ^ 120) <= IZR (2 ^ 124) / 16)%R) by (change (IZR (2 ^ 124)) with (IZR (2 ^ 120 * 16)); rewrite mult_IZR; lra).
  assert (L0 : (1 <= IZR (2 ^ 120))%R) by (apply IZR_le; lia).
  assert (Et : (bpow radix2 (-150) = / IZR (2 ^ 75) * / IZR (2 ^ 75))%R).
  { rewrite <- Rinv_mult. rewrite <- mult_IZR. reflexivity. }
  assert (E75 : (0 < / IZR (2 ^ 75) <= / 1000)%R) by (split; [apply Rinv_0_lt_compat; apply IZR_lt; lia|apply Rinv_le_contravar; [lra|apply IZR_le; lia]]).
  set (h := (/ IZR (2 ^ 75))%R) in *.
  destruct (Small (a * a)%R ltac:(lra)) as (Ra & Pa & Ua & Da). destruct (Small (b * b)%R ltac:(lra)) as (Rb & Pb & Ub & Db).
  rewrite Et in Ua, Ub, Da, Db. assert (Hh : (0 < h * h <= / 1000)%R) by nra.
  destruct (rounds_fin _ _ (fin_mul e e Fe Fe) Ra) as [F1 E1]. destruct (rounds_fin _ _ (fin_mul n n Fn Fn) Rb) as [F2 E2].
  fold a in E1. fold b in E2. pose proof (fin_add _ _ F1 F2) as R3. rewrite E1, E2 in R3.
  set (p := rnd (a * a)) in *. set (q := rnd (b * b)) in *.
  destruct (Small (p + q)%R ltac:(lra)) as (Rs & Ps & Us & Ds). rewrite Et in Us, Ds.
  destruct (rounds_fin _ _ R3 Rs) as [F3 E3]. set (s := rnd (p + q)) in *.
  assert (Sq : (0 <= sqrt s <= IZR (2 ^ 124))%R).
  { split; [apply sqrt_pos|]. rewrite <- (sqrt_Rsqr (IZR (2 ^ 124))) by (apply IZR_le; lia). apply sqrt_le_1_alt. unfold Rsqr. 
    assert (1 <= IZR (2 ^ 124))%R by (apply IZR_le; lia). assert (s <= IZR (2 ^ 124))%R by lra. nra. }
  pose proof (fsqrt_rounds _ (proj1 F3) (proj2 F3) ltac:(rewrite E3; exact Ps)) as R4. rewrite E3 in R4.
  destruct (Small (sqrt s) Sq) as (Rt & Pt & Ut & Dt). rewrite Et in Ut, Dt.
  destruct (rounds_fin _ _ R4 Rt) as [F4 E4]. split; [exact F4|]. rewrite E4. split; [exact Pt|].
  set (S := (a * a + b * b)%R). assert (S0 : (0 <= S)%R) by (unfold S; lra).
  assert (St : (Rabs (s - S) <= (3 * / 16777216) * S + (2 * h) * (2 * h))%R).
  { apply Rabs_le_inv in Ds. apply Rabs_le_inv in Da. apply Rabs_le_inv in Db. apply Rabs_le. unfold S. clear - Ds Da Db A2 B2 Pa Pb Hh. split; lra. }
  pose proof (sqrt_stage S s (3 * / 16777216) (2 * h) S0 Ps ltac:(lra) ltac:(lra) St) as Q.
  apply Rabs_le_inv in Q. apply Rabs_le_inv in Dt.
  assert (E73 : (/ IZR (2 ^ 73) = 4 * h)%R).
  { unfold h. change (IZR (2 ^ 75)) with (IZR (4 * 2 ^ 73)). rewrite mult_IZR. field. apply IZR_neq. lia. }
  assert (E21 : (/ IZR (2 ^ 21) = 8 * / 16777216)%R) by (change (IZR (2 ^ 21)) with 2097152%R; field). rewrite E73, E21.
  pose proof (sqrt_pos S). assert (Hq : (h * h <= h * / 1000)%R) by (clear - E75; nra). apply Rabs_le. clear - Q Dt H Hq Hh E75 Sq. split; lra.
Qed.
