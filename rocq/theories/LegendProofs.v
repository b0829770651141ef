(** Proofs about values read from the colours on a map (C99). *)
From Coq Require Import Floats.SpecFloat.
From Coq Require Import ZArith Reals List Bool Lia Lra Sorted.
From Flocq Require Import Core.Core.
From Verif Require Import Base F32 F32Facts GeoModel GeoSpec GeoProofs ImagingModel ImagingSpec Par TileModel TileSpec TileProofs MercatorProofs
  ChartModel ChartSpec ChartProofs ForecastModel ForecastSpec ForecastProofs FetchSpec MapSpec MapProofs LookSpec LookProofs LegendSpec.
Import ListNotations.
Open Scope Z_scope.

(** ** Legends *)
Definition colours (lg : legend) : list color := map snd (lg_classes lg) ++ [lg_top lg].
Definition limits (lg : legend) : list R := map fst (lg_classes lg).
Definition once (l : list color) (c : color) : Prop := forall i j, nth_error l i = Some c -> nth_error l j = Some c -> i = j.
Lemma sorted_nth l : StronglySorted Rle l -> forall i j a b, (i <= j)%nat -> nth_error l i = Some a -> nth_error l j = Some b -> (a <= b)%R.
Proof.
  induction 1 as [|x l S IH F]; intros i j a b L A B; [destruct i; discriminate|].
  destruct i as [|i], j as [|j]; cbn in A, B; [injection A as <-; injection B as <-; lra| |lia|exact (IH i j a b ltac:(lia) A B)].
  injection A as <-. rewrite Forall_forall in F. apply F. eapply nth_error_In, B.
Qed.
Lemma class_agrees lg c : StronglySorted Rle (limits lg) -> once (colours lg) c -> forall v r,
  class_of lg v c -> class_of lg r c -> forall limit c', In (limit, c') (lg_classes lg) -> ((v < limit)%R <-> (r < limit)%R).
Proof.
  intros S O v r V R limit c' I.
  assert (Ci : forall i l, nth_error (lg_classes lg) i = Some (l, c) -> nth_error (colours lg) i = Some c).
  { intros i l E. unfold colours. rewrite nth_error_app1; [apply (map_nth_error snd) in E; exact E|]. rewrite map_length. apply nth_error_Some. congruence. }
  assert (Ct : c = lg_top lg -> nth_error (colours lg) (length (lg_classes lg)) = Some c).
  { intros ->. unfold colours. rewrite nth_error_app2; rewrite map_length; [|lia]. rewrite Nat.sub_diag. reflexivity. }
  assert (Lt : forall i l, nth_error (lg_classes lg) i = Some (l, c) -> (i < length (lg_classes lg))%nat) by (intros i l E; apply nth_error_Some; congruence).
  apply In_nth_error in I as [k K].
  destruct V as [(i & l & E & B & A)|[T A]], R as [(i' & l' & E' & B' & A')|[T' A']].
  - pose proof (O _ _ (Ci _ _ E) (Ci _ _ E')) as <-. rewrite E in E'. injection E' as <-.
    destruct (le_lt_dec i k) as [G|G].
    + assert (l <= limit)%R; [|lra]. apply (sorted_nth _ S i k); [exact G|exact (map_nth_error fst _ _ E)|exact (map_nth_error fst _ _ K)].
    + pose proof (A k limit c' G K). pose proof (A' k limit c' G K). lra.
  - pose proof (O _ _ (Ci _ _ E) (Ct T')). pose proof (Lt _ _ E). lia.
  - pose proof (O _ _ (Ci _ _ E') (Ct T)). pose proof (Lt _ _ E'). lia.
  - apply nth_error_In in K. pose proof (A _ _ K). pose proof (A' _ _ K). lra.
Qed.
Lemma top_agrees lg c : once (colours lg) c -> c = lg_top lg -> forall r, class_of lg r c -> forall limit c', In (limit, c') (lg_classes lg) -> ~ (r < limit)%R.
Proof.
  intros O T r [(i & l & E & B & A)|[_ A]] limit c' I; [|pose proof (A _ _ I); lra]. exfalso.
  assert (Li : (i < length (lg_classes lg))%nat) by (apply nth_error_Some; congruence).
  assert (i = length (lg_classes lg)); [|lia]. apply O; unfold colours.
  - rewrite nth_error_app1 by (rewrite map_length; exact Li). exact (map_nth_error snd _ _ E).
  - rewrite nth_error_app2; rewrite map_length; [|lia]. rewrite Nat.sub_diag. cbn. congruence.
Qed.
Lemma shade_agrees lg c : StronglySorted Rle (limits lg) -> once (colours lg) c -> forall x r, shade lg x c -> class_of lg r c -> agrees lg (fis_nan x) (xr x) r.
Proof.
  intros S O x r X R limit c' I. unfold shade in X. destruct (fis_nan x).
  - pose proof (top_agrees lg c O X r R limit c' I) as N. split; [intros [E _]; discriminate|intro; contradiction].
  - pose proof (class_agrees lg c S O _ _ X R limit c' I). tauto.
Qed.
Lemma class_in lg r c : class_of lg r c -> In c (colours lg).
Proof.
  unfold colours. intros [(i & l & E & _)|[-> _]]; apply in_or_app; [left|right; left; reflexivity]. apply nth_error_In in E. exact (in_map snd _ _ E).
Qed.
Lemma shade_in lg x c : shade lg x c -> In c (colours lg).
Proof. unfold shade. destruct (fis_nan x); [intros ->; apply in_or_app; right; left; reflexivity|apply class_in]. Qed.

(** ** The four legends *)
Definition color_eqb (a b : color) : bool := (c_r a =? c_r b) && (c_g a =? c_g b) && (c_b a =? c_b b) && (c_a a =? c_a b).
Lemma color_eqb_refl a : color_eqb a a = true.
Proof. unfold color_eqb. rewrite !Z.eqb_refl. reflexivity. Qed.
Lemma color_eqb_eq a b : color_eqb a b = true -> a = b.
Proof. destruct a, b. unfold color_eqb. cbn. rewrite !andb_true_iff, !Z.eqb_eq. intros [[[-> ->] ->] ->]. reflexivity. Qed.
Fixpoint distinct (except : color) (l : list color) : bool :=
  match l with
  | [] => true
  | c :: l' => (color_eqb c except || negb (existsb (color_eqb c) l')) && distinct except l'
  end.
Lemma distinct_once except l : distinct except l = true -> forall c, c <> except -> once l c.
Proof.
  induction l as [|a l IH]; intros D c N i j I J; [destruct i; discriminate|]. cbn in D. apply andb_true_iff in D as [D1 D2].
  assert (A : a = c -> ~ In c l).
  { intros -> K. apply orb_true_iff in D1 as [D1|D1]; [apply N, color_eqb_eq, D1|]. apply negb_true_iff in D1.
    assert (existsb (color_eqb c) l = true) by (apply existsb_exists; exists c; split; [exact K|apply color_eqb_refl]). congruence. }
  destruct i as [|i], j as [|j]; cbn in I, J; [reflexivity| | |f_equal; exact (IH D2 c N i j I J)].
  - injection I as I. destruct (A I). eapply nth_error_In, J.
  - injection J as J. destruct (A J). eapply nth_error_In, I.
Qed.
Lemma sorted_legend l : Sorted Rle l -> StronglySorted Rle l.
Proof. apply Sorted_StronglySorted. intros a b c. apply Rle_trans. Qed.
Lemma decimal_le p q p' q' : 0 < q -> 0 < q' -> p * q' <= p' * q -> (decimal p q <= decimal p' q')%R.
Proof.
  intros Q Q' L. apply rnd_mono. apply IZR_lt in Q. apply IZR_lt in Q'. apply IZR_le in L. rewrite !mult_IZR in L.
  apply Rmult_le_reg_r with (IZR q * IZR q')%R; [apply Rmult_lt_0_compat; assumption|].
  replace (IZR p / IZR q * (IZR q * IZR q'))%R with (IZR p * IZR q')%R by (field; lra). replace (IZR p' / IZR q' * (IZR q * IZR q'))%R with (IZR p' * IZR q)%R by (field; lra). exact L.
Qed.
Ltac in_order tac := repeat match goal with
  | |- Sorted _ [] => apply Sorted_nil
  | |- Sorted _ (_ :: _) => apply Sorted_cons
  | |- HdRel _ _ [] => apply HdRel_nil
  | |- HdRel _ _ (_ :: _) => apply HdRel_cons; tac
  end.
Lemma wind_sorted : StronglySorted Rle (limits wind_legend).
Proof.
  assert (K : forall a b, a <= b -> (knots a <= knots b)%R).
  { intros a b L. apply rnd_mono. apply Rmult_le_compat_r; [|apply IZR_le, L]. unfold decimal. rewrite <- rnd_0. apply rnd_mono. lra. }
  apply sorted_legend. cbn. in_order ltac:(apply K; lia).
Qed.
Lemma temp_sorted : StronglySorted Rle (limits temp_legend).
Proof. apply sorted_legend. cbn [limits temp_legend lg_classes map fst snd]. in_order ltac:(apply IZR_le; lia). Qed.
Lemma cloud_sorted : StronglySorted Rle (limits cloud_legend).
Proof. apply sorted_legend. cbn. in_order ltac:(apply decimal_le; lia). Qed.
Lemma rain_sorted : StronglySorted Rle (limits rain_legend).
Proof.
  apply sorted_legend. cbn. in_order ltac:(try lra). replace 1%R with (rnd 1) by (apply rnd_gen; apply (gen_Z 1); lia). apply rnd_mono. lra.
Qed.
Lemma wind_once c : In c (colours wind_legend) -> once (colours wind_legend) c.
Proof. intro I. apply (distinct_once COLOR_TRANSPARENT); [reflexivity|]. intros ->. cbn in I. intuition discriminate. Qed.
Lemma temp_once c : c <> WHITE -> once (colours temp_legend) c.
Proof. apply distinct_once. reflexivity. Qed.
Definition NONE : color := rgba 1 1 1 1.
Lemma rain_once c : In c (colours rain_legend) -> once (colours rain_legend) c.
Proof. intro I. apply (distinct_once NONE); [reflexivity|]. intros ->. cbn in I. unfold NONE in I. intuition discriminate. Qed.
Lemma cloud_once c : In c (colours cloud_legend) -> once (colours cloud_legend) c.
Proof. intro I. apply (distinct_once NONE); [reflexivity|]. intros ->. cbn in I. unfold NONE in I. intuition discriminate. Qed.

(** ** Compositions *)
Definition zover (s sa d da : Z) : Z := s * sa * 255 + d * da * (255 - sa).
Definition zalpha (sa da : Z) : Z := 255 * sa + da * (255 - sa).
Definition apart (a b a' b' : color) : bool :=
  existsb (fun k => 130050 <=? Z.abs (zover (k a) (c_a a) (k b) (c_a b) - zover (k a') (c_a a') (k b') (c_a b'))) [c_r; c_g; c_b] ||
  (255 <=? Z.abs (zalpha (c_a a) (c_a b) - zalpha (c_a a') (c_a b'))).
Lemma zover_eq s sa d da : over s sa d da = (IZR (zover s sa d da) / 65025)%R.
Proof. unfold over, zover. rewrite plus_IZR, !mult_IZR, minus_IZR. field. Qed.
Lemma zalpha_eq sa da : over_alpha sa da = (IZR (zalpha sa da) / 255)%R.
Proof. unfold over_alpha, zalpha. rewrite plus_IZR, !mult_IZR, minus_IZR. field. Qed.
Lemma apart_false a b a' b' c : composed a b c -> composed a' b' c -> apart a b a' b' = false.
Proof.
  intros (_ & K & A & _) (_ & K' & A' & _). apply orb_false_iff. split.
  - destruct (existsb _ _) eqn:E; [|reflexivity]. exfalso. apply existsb_exists in E as (k & I & L). pose proof (K k I) as [L1 U1]. pose proof (K' k I) as [L2 U2].
    rewrite zover_eq in L1, U1, L2, U2. apply Z.leb_le in L. set (u := zover _ _ _ _) in *. set (v := zover (k a') _ _ _) in *.
    assert (IZR (u - v) < 130050)%R by (rewrite minus_IZR; lra). assert (-130050 < IZR (u - v))%R by (rewrite minus_IZR; lra). apply lt_IZR in H. apply (lt_IZR (-130050)) in H0. lia.
  - apply Z.leb_gt. destruct A as [L1 U1], A' as [L2 U2]. rewrite zalpha_eq in L1, U1, L2, U2. set (u := zalpha _ _) in *. set (v := zalpha (c_a a') _) in *.
    assert (IZR (u - v) < 255)%R by (rewrite minus_IZR; lra). assert (-255 < IZR (u - v))%R by (rewrite minus_IZR; lra). apply lt_IZR in H. apply (lt_IZR (-255)) in H0. lia.
Qed.
Definition all_apart : bool :=
  forallb (fun a => forallb (fun b => forallb (fun a' => forallb (fun b' => (color_eqb a a' && color_eqb b b') || apart a b a' b')
    (colours cloud_legend)) (colours rain_legend)) (colours cloud_legend)) (colours rain_legend).
Lemma all_apart_true : all_apart = true.
Proof. vm_compute. reflexivity. Qed.
Lemma composed_unique a b a' b' c : In a (colours rain_legend) -> In b (colours cloud_legend) -> In a' (colours rain_legend) -> In b' (colours cloud_legend) ->
  composed a b c -> composed a' b' c -> a = a' /\ b = b'.
Proof.
  intros A B A' B' C C'. pose proof all_apart_true as D. unfold all_apart in D. rewrite forallb_forall in D. specialize (D a A). cbv beta in D. rewrite forallb_forall in D.
  specialize (D b B). cbv beta in D. rewrite forallb_forall in D. specialize (D a' A'). cbv beta in D. rewrite forallb_forall in D. specialize (D b' B'). cbv beta in D.
  rewrite (apart_false _ _ _ _ _ C C'), orb_false_r in D. apply andb_true_iff in D as [D1 D2]. split; apply color_eqb_eq; assumption.
Qed.

(** ** C99 *)
Lemma c99_wind_proof : forall x r c, shade wind_legend x c -> class_of wind_legend r c -> agrees wind_legend (fis_nan x) (xr x) r.
Proof. intros x r c X R. exact (shade_agrees wind_legend c wind_sorted (wind_once c (class_in _ _ _ R)) x r X R). Qed.
Lemma c99_temperature_proof : forall k r c, temperature_colour (Some k) c -> class_of temp_legend r c -> c <> WHITE -> agrees temp_legend (fis_nan k) (celsius k) r.
Proof.
  intros k r c K R N limit c' I. unfold temperature_colour in K. destruct (fis_nan k); [destruct (N K)|].
  pose proof (class_agrees temp_legend c temp_sorted (temp_once c N) _ _ K R limit c' I). tauto.
Qed.
Lemma c99_rain_proof : forall cover before now c r s rain cloud, rain_colour cover before now c ->
  class_of rain_legend r rain -> class_of cloud_legend s cloud -> composed rain cloud c ->
  agrees rain_legend (fis_nan (fsub (or_zero now) (or_zero before))) (xr (fsub (or_zero now) (or_zero before))) r /\
  agrees cloud_legend (fis_nan (or_zero cover)) (xr (or_zero cover)) s.
Proof.
  intros cover before now c r s rain cloud (rain' & cloud' & R' & C' & K') R C K.
  destruct (composed_unique rain' cloud' rain cloud c (shade_in _ _ _ R') (shade_in _ _ _ C') (class_in _ _ _ R) (class_in _ _ _ C) K' K) as [-> ->]. split.
  - exact (shade_agrees rain_legend rain rain_sorted (rain_once rain (class_in _ _ _ R)) _ r R' R).
  - exact (shade_agrees cloud_legend cloud cloud_sorted (cloud_once cloud (class_in _ _ _ C)) _ s C' C).
Qed.
Lemma c99_missing_proof : forall r, ~ class_of temp_legend r COLOR_TRANSPARENT /\ ~ class_of wind_legend r COLOR_TRANSPARENT.
Proof. intro r. split; intro C; apply class_in in C; cbn in C; unfold COLOR_TRANSPARENT in C; intuition discriminate. Qed.
Section Published.
  Context (chk : bool) (m : libm) (Om : libm_ok m) (Am : libm_accurate m).
  Lemma c99_read_temperature_proof : forall run steps filter read tr s l zoom x y j i p,
    selected run steps filter read s l -> temp_render chk m false run steps filter read tr (Ok tt) -> regular l -> on_map (extent_of l) ->
    0 <= zoom <= last_zoom (run_model run) -> pixel_of zoom p x y j i -> inside_by zoom (extent_of l) p ->
    exists d c, (forall before, file_after (file_path run (st_nr s) (TileFile Temp2m zoom x y)) before tr = Some (Png d)) /\ pixel d j i = Some c /\
      (c = COLOR_TRANSPARENT -> shown_at (extent_of l) (fst (dims l)) (snd (dims l)) (cell_value l) zoom p None) /\
      forall r, class_of temp_legend r c -> c <> WHITE -> exists k, agrees temp_legend (fis_nan k) (celsius k) r /\
        shown_at (extent_of l) (fst (dims l)) (snd (dims l)) (cell_value l) zoom p (Some k).
  Proof.
    intros run steps filter read tr s l zoom x y j i p S R G M Hz Px N.
    destruct (c98_inside_temperature_proof chk m Om Am run steps filter read tr s l zoom x y j i p S R G M Hz Px N) as (d & o & c & F & P & T & Q).
    exists d, c. split; [exact F|]. split; [exact P|]. split.
    - intros ->. destruct o as [k|]; [|exact Q]. exfalso. unfold temperature_colour in T. destruct (fis_nan k); [discriminate T|]. exact (proj1 (c99_missing_proof _) T).
    - intros r C W. destruct o as [k|]; [exists k; split; [exact (c99_temperature_proof k r c T C W)|exact Q]|]. cbn in T. subst c. destruct (proj1 (c99_missing_proof r) C).
  Qed.
  Lemma c99_read_wind_proof : forall run steps filter read tr s l zoom x y j i p,
    selected run steps filter read s l -> wind_render chk m false run steps filter read tr (Ok tt) -> regular (wl_zonal l) -> regular (wl_meridional l) -> on_map (extent_of (wl_zonal l)) ->
    0 <= zoom <= last_zoom (run_model run) -> pixel_of zoom p x y j i -> inside_by zoom (extent_of (wl_zonal l)) p -> inside_by zoom (extent_of (wl_meridional l)) p ->
    exists d c, (forall before, file_after (file_path run (st_nr s) (TileFile Wind10m zoom x y)) before tr = Some (Png d)) /\ pixel d j i = Some c /\
      forall r, class_of wind_legend r c -> exists u v speed, agrees wind_legend (fis_nan speed) (xr speed) r /\
        (moderate u -> moderate v -> fin speed /\ (0 <= xr speed)%R /\ length_of u v speed) /\
        shown_at (extent_of (wl_zonal l)) (fst (dims (wl_zonal l))) (snd (dims (wl_zonal l))) (cell_value (wl_zonal l)) zoom p (Some u) /\
        shown_at (extent_of (wl_meridional l)) (fst (dims (wl_meridional l))) (snd (dims (wl_meridional l))) (cell_value (wl_meridional l)) zoom p (Some v).
  Proof.
    intros run steps filter read tr s l zoom x y j i p S R G G' M Hz Px N N'.
    destruct (c98_inside_wind_proof chk m Om Am run steps filter read tr s l zoom x y j i p S R G G' M Hz Px N N') as (d & u & v & c & F & P & T & Q & Q').
    exists d, c. split; [exact F|]. split; [exact P|]. intros r C.
    destruct u as [u|], v as [v|]; cbn in T; try (subst c; destruct (proj2 (c99_missing_proof r) C)).
    destruct T as (sp & Sh & K). exists u, v, sp. split; [exact (c99_wind_proof sp r c Sh C)|]. auto.
  Qed.
  Lemma c99_read_rain_proof : forall run steps filter read tr s l we zoom x y j i p,
    selected run steps filter read s (l, we) -> cloud_precip_render chk m false run steps filter read tr (Ok tt) ->
    regular (cp_cloud l) -> regular (cp_precip0 l) -> regular (cp_precip1 l) -> on_map (extent_of (cp_cloud l)) ->
    0 <= zoom <= last_zoom (run_model run) -> pixel_of zoom p x y j i -> inside_by zoom (extent_of (cp_cloud l)) p ->
    exists d c, (forall before, file_after (file_path run (st_nr s) (TileFile CloudPrecip zoom x y)) before tr = Some (Png d)) /\ pixel d j i = Some c /\
      forall r t rain cloud, class_of rain_legend r rain -> class_of cloud_legend t cloud -> composed rain cloud c ->
        exists q cover before now, close_by zoom p q /\ in_extent (extent_of (cp_cloud l)) q /\
          value_between (cp_cloud l) q cover /\ value_between (cp_precip0 l) q before /\ value_between (cp_precip1 l) q now /\
          agrees rain_legend (fis_nan (fsub (or_zero now) (or_zero before))) (xr (fsub (or_zero now) (or_zero before))) r /\
          agrees cloud_legend (fis_nan (or_zero cover)) (xr (or_zero cover)) t.
  Proof.
    intros run steps filter read tr s l we zoom x y j i p S R G G0 G1 M Hz Px N.
    destruct (c98_inside_rain_proof chk m Om Am run steps filter read tr s l we zoom x y j i p S R G G0 G1 M Hz Px N) as (d & q & cv & b & n & c & F & C & I & P & T & V & V0 & V1).
    exists d, c. split; [exact F|]. split; [exact P|]. intros r t rain cloud Cr Cc K. exists q, cv, b, n. destruct (c99_rain_proof cv b n c r t rain cloud T Cr Cc K). auto 10.
  Qed.
End Published.
