(** Proofs about meteobin files (C40-C45, C57) and unit conversions (C56). *)
From Coq Require Import ZArith Reals Psatz List Bool Lia Lra.
From Coq Require Import Floats.SpecFloat.
From Flocq Require Import Core.Core Sterbenz Mult_error.
From Verif Require Import Base F32 F32Facts Grib2Model GeoModel GeoSpec GeoProofs GeoValueProofs
  TileModel TileSpec TileProofs PhysicsModel ChartModel ChartSpec ChartProofs MetobinModel MetobinSpec.
Import ListNotations.
Open Scope Z_scope.

(** ** Layout *)
Lemma firstn_skipn_slice (data : bytes) o n o' n' : (o' + n' <= n)%nat ->
  firstn n' (skipn o' (firstn n (skipn o data))) = firstn n' (skipn (o + o') data).
Proof.
  intro H. rewrite skipn_firstn_comm, firstn_firstn, Nat.min_l by lia. f_equal.
  clear. revert o. induction data as [|b data IH]; intros [|o]; cbn [skipn Nat.add]; try reflexivity.
  - destruct o'; reflexivity.
  - rewrite <- IH. destruct o; reflexivity.
Qed.
Lemma slice_slice data o n o' n' : 0 <= o -> 0 <= o' -> 0 <= n' -> o' + n' <= n -> slice (slice data o n) o' n' = slice data (o + o') n'.
Proof.
  intros O O' N' H. unfold slice. rewrite firstn_skipn_slice by lia. rewrite <- Z2Nat.inj_add by lia. reflexivity.
Qed.
Lemma push_all_spec k body is : 0 <= k -> (forall i b, In i is -> body i = Ok b -> size b = k) ->
  match push_all body is with
  | Ok data => size data = k * Z.of_nat (length is) /\
      (forall n i, nth_error is n = Some i -> body i = Ok (slice data (k * Z.of_nat n) k))
  | Err e => exists i, In i is /\ body i = Err e
  | Panic => exists i, In i is /\ body i = Panic
  end.
Proof.
  intros K. induction is as [|i is IH]; intro S0; cbn [push_all].
  - split; [unfold size; cbn; lia|]. intros [|n] i; discriminate.
  - destruct (body i) as [b|e|] eqn:B; cbn [obind]; [|exists i; cbn; auto|exists i; cbn; auto].
    specialize (IH (fun j c J => S0 j c (or_intror J))). pose proof (S0 i b (or_introl eq_refl) B) as Sb. unfold size in Sb.
    destruct (push_all body is) as [data|e|]; cbn [omap].
    + destruct IH as [L At]. split; [unfold size in *; rewrite app_length; cbn [length]; lia|]. intros [|n] j J.
      * cbn in J. injection J as <-. rewrite B. f_equal. unfold slice. rewrite Z.mul_0_r. cbn [Z.to_nat skipn].
        rewrite firstn_app. replace (Z.to_nat k - length b)%nat with 0%nat by lia. cbn [firstn]. rewrite app_nil_r, firstn_all2 by lia. reflexivity.
      * cbn [nth_error] in J. rewrite (At n j J). f_equal. unfold slice. rewrite skipn_app.
        replace (Z.to_nat (k * Z.of_nat (S n)) - length b)%nat with (Z.to_nat (k * Z.of_nat n)) by nia.
        rewrite (skipn_all2 b) by nia. reflexivity.
    + destruct IH as (j & J & E). exists j. cbn. auto.
    + destruct IH as (j & J & E). exists j. cbn. auto.
Qed.
Lemma upto_nth n i : 0 <= i < n -> nth_error (upto n) (Z.to_nat i) = Some i.
Proof.
  intro H. unfold upto. rewrite nth_error_map. rewrite (nth_error_nth' _ 0%nat) by (rewrite seq_length; lia).
  rewrite seq_nth by lia. cbn. f_equal. lia.
Qed.
Lemma upto_in n i : In i (upto n) -> 0 <= i < n.
Proof. unfold upto. rewrite in_map_iff. intros (k & <- & J). apply in_seq in J. lia. Qed.
Lemma upto_length n : 0 <= n -> Z.of_nat (length (upto n)) = n.
Proof. intro H. unfold upto. rewrite map_length, seq_length. lia. Qed.
Lemma bin_values_spec k w h cell : 0 <= k -> 0 <= w -> 0 <= h -> (forall x y b, 0 <= x < w -> 0 <= y < h -> cell x y = Ok b -> size b = k) ->
  match bin_values w h cell with
  | Ok data => laid_out k w h data (fun x y b => cell x y = Ok b)
  | Err e => exists x y, 0 <= x < w /\ 0 <= y < h /\ cell x y = Err e
  | Panic => exists x y, 0 <= x < w /\ 0 <= y < h /\ cell x y = Panic
  end.
Proof.
  intros K W H Sz. unfold bin_values.
  assert (Row : forall y, 0 <= y < h -> match push_all (fun x => cell x y) (upto w) with
    | Ok data => size data = k * w /\ (forall x, 0 <= x < w -> cell x y = Ok (slice data (k * x) k))
    | Err e => exists x, 0 <= x < w /\ cell x y = Err e
    | Panic => exists x, 0 <= x < w /\ cell x y = Panic end).
  { intros y Y. pose proof (push_all_spec k (fun x => cell x y) (upto w) K (fun x b J => Sz x y b (upto_in _ _ J) Y)) as P.
    destruct (push_all _ (upto w)) as [data|e|].
    - rewrite upto_length in P by lia. destruct P as [P At]. split; [exact P|]. intros x X. specialize (At (Z.to_nat x) x (upto_nth w x X)). rewrite Z2Nat.id in At by lia. exact At.
    - destruct P as (x & J & E). exists x. split; [apply upto_in, J|exact E].
    - destruct P as (x & J & E). exists x. split; [apply upto_in, J|exact E]. }
  pose proof (push_all_spec (k * w) (fun y => push_all (fun x => cell x y) (upto w)) (upto h) ltac:(nia)) as P. cbv beta in P.
  assert (A : forall i b, In i (upto h) -> push_all (fun x => cell x i) (upto w) = Ok b -> size b = k * w).
  { intros y b J E. specialize (Row y (upto_in _ _ J)). rewrite E in Row. apply Row. }
  specialize (P A). destruct (push_all _ (upto h)) as [data|e|].
  - rewrite upto_length in P by lia. destruct P as [P At]. split; [rewrite P; ring|]. intros x y X Y.
    specialize (At (Z.to_nat y) y (upto_nth h y Y)). rewrite Z2Nat.id in At by lia. specialize (Row y Y). rewrite At in Row.
    destruct Row as [_ R]. rewrite (R x X). f_equal. rewrite slice_slice by nia. f_equal. ring.
  - destruct P as (y & J & E). apply upto_in in J. specialize (Row y J). rewrite E in Row. destruct Row as (x & X & Q). exists x, y. auto.
  - destruct P as (y & J & E). apply upto_in in J. specialize (Row y J). rewrite E in Row. destruct Row as (x & X & Q). exists x, y. auto.
Qed.

(** ** C40: the files *)
Lemma laid_out_weaken k w h data (P Q : Z -> Z -> bytes -> Prop) : laid_out k w h data P ->
  (forall x y b, 0 <= x < w -> 0 <= y < h -> P x y b -> Q x y b) -> laid_out k w h data Q.
Proof. intros [S0 A] I. split; [exact S0|]. intros x y X Y. apply I; auto. Qed.
Lemma c40_precip_proof : forall l w h, dims (cp_cloud l) = (w, h) -> 0 <= w -> 0 <= h ->
  complete (cp_cloud l) -> complete (cp_precip0 l) -> complete (cp_precip1 l) ->
  exists data, precip_bin l = Ok data /\
    laid_out 1 w h data (fun x y b => exists v, cloud_and_precip_by_xy l x y = Ok v /\ b = [precip_byte v]).
Proof.
  intros l w h D W H C0 C1 C2. unfold dims in D. injection D as Dw Dh. unfold precip_bin. rewrite Dw, Dh.
  assert (V : forall x y, 0 <= x < w -> 0 <= y < h -> exists v, cloud_and_precip_by_xy l x y = Ok v).
  { intros x y X Y. unfold cloud_and_precip_by_xy, cloud_and_precip.
    destruct (complete_cells f32_type (cp_cloud l) x y C0) as (o0 & E0); [lia..|]. destruct (complete_cells f32_type (cp_precip0 l) x y C1) as (o1 & E1); [lia..|].
    destruct (complete_cells f32_type (cp_precip1 l) x y C2) as (o2 & E2); [lia..|]. change (carrier f32_type) with f32 in *.
    rewrite E0. cbn [obind]. rewrite E1. cbn [obind]. rewrite E2. cbn [obind]. eauto. }
  set (cell := fun x y => omap (fun v => [precip_byte v]) (cloud_and_precip_by_xy l x y)).
  pose proof (bin_values_spec 1 w h cell ltac:(lia) W H) as P. assert (A : forall x y b, 0 <= x < w -> 0 <= y < h -> cell x y = Ok b -> size b = 1).
  { intros x y b X Y. unfold cell. destruct (V x y X Y) as (v & ->). cbn [omap]. intro Q. injection Q as <-. reflexivity. }
  specialize (P A). destruct (bin_values w h cell) as [data|e|].
  - exists data. split; [reflexivity|]. eapply laid_out_weaken; [exact P|]. cbv beta. intros x y b X Y. unfold cell. destruct (V x y X Y) as (v & E). rewrite E. cbn [omap]. intro Q. injection Q as <-. eauto.
  - destruct P as (x & y & X & Y & E). unfold cell in E. destruct (V x y X Y) as (v & Ev). rewrite Ev in E. discriminate.
  - destruct P as (x & y & X & Y & E). unfold cell in E. destruct (V x y X Y) as (v & Ev). rewrite Ev in E. discriminate.
Qed.
(** Files whose cells never fail. *)
Lemma bin_total k w h cell (P : Z -> Z -> bytes -> Prop) : 0 <= k -> 0 <= w -> 0 <= h ->
  (forall x y, 0 <= x < w -> 0 <= y < h -> exists b, cell x y = Ok b /\ size b = k /\ P x y b) ->
  exists data, bin_values w h cell = Ok data /\ laid_out k w h data P.
Proof.
  intros K W H T. pose proof (bin_values_spec k w h cell K W H) as S0.
  assert (A : forall x y b, 0 <= x < w -> 0 <= y < h -> cell x y = Ok b -> size b = k).
  { intros x y b X Y E. destruct (T x y X Y) as (b' & E' & L & _). congruence. }
  specialize (S0 A). destruct (bin_values w h cell) as [data|e|].
  - exists data. split; [reflexivity|]. eapply laid_out_weaken; [exact S0|]. cbv beta. intros x y b X Y E. destruct (T x y X Y) as (b' & E' & _ & Q). rewrite E in E'. injection E' as ->. exact Q.
  - destruct S0 as (x & y & X & Y & E). destruct (T x y X Y) as (b & E' & _). congruence.
  - destruct S0 as (x & y & X & Y & E). destruct (T x y X Y) as (b & E' & _). congruence.
Qed.
Lemma c40_temp_proof : forall l w h, dims l = (w, h) -> 0 <= w -> 0 <= h -> complete l ->
  exists data, temp_bin l = Ok data /\
    laid_out 1 w h data (fun x y b => exists v, temp_by_xy l x y = Ok v /\ b = [temp_byte v]).
Proof.
  intros l w h D W H C. unfold dims in D. injection D as Dw Dh. unfold temp_bin. rewrite Dw, Dh. apply bin_total; [lia..|].
  intros x y X Y. unfold temp_by_xy. destruct (complete_cells f32_type l x y C) as (o & E); [lia..|]. change (carrier f32_type) with f32 in *. rewrite E. cbn [omap].
  eexists. split; [reflexivity|]. split; [reflexivity|]. eauto.
Qed.
Lemma c40_wind_proof : forall l w h, dims (wl_zonal l) = (w, h) -> 0 <= w -> 0 <= h ->
  complete (wl_zonal l) -> complete (wl_meridional l) -> (forall g, wl_gusts l = Some g -> complete g) ->
  exists data, wind_bin l = Ok data /\
    laid_out 3 w h data (fun x y b => exists e_n g, wind_e_n_by_xy l x y = Ok e_n /\ gusts_by_xy l x y = Ok g /\
      b = match e_n with Some (e, n) => [speed_byte e; speed_byte n; gust_byte g] | None => [255; 255; 255] end).
Proof.
  intros l w h D W H C0 C1 C2. unfold dims in D. injection D as Dw Dh. unfold wind_bin. rewrite Dw, Dh. apply bin_total; [lia..|].
  intros x y X Y. 
  destruct (complete_cells f32_type (wl_zonal l) x y C0) as (o0 & E0); [lia..|]. destruct (complete_cells f32_type (wl_meridional l) x y C1) as (o1 & E1); [lia..|].
  change (carrier f32_type) with f32 in *.
  assert (G : exists g, gusts_by_xy l x y = Ok g).
  { unfold gusts_by_xy, gusts. destruct (wl_gusts l) as [g|]; [|eauto]. apply (complete_cells f32_type); [apply C2; reflexivity|lia..]. }
  destruct G as (g & G). unfold wind_e_n_by_xy, wind_e_n. rewrite E0. cbn [obind]. rewrite E1. cbn [obind]. rewrite G. cbn [omap].
  eexists. split; [reflexivity|]. split; [destruct o0; [destruct o1|]; reflexivity|]. do 2 eexists. split; [reflexivity|]. split; [reflexivity|].
  destruct o0; [destruct o1|]; reflexivity.
Qed.
Lemma from_value_cases v :
  weather_from_value v = Panic /\ ~ In v wmo_codes \/ exists u, weather_from_value v = Ok u /\ weather_to_value u = v /\ In v wmo_codes.
Proof.
  destruct (in_dec Z.eq_dec v wmo_codes) as [J|J].
  - right. cbn in J.
    repeat match type of J with _ = _ \/ _ => destruct J as [<-|J]; [eexists; split; [reflexivity|split; [reflexivity|cbn; tauto]]|] end. destruct J.
  - left. split; [|exact J]. destruct v as [|p|p]; [exfalso; apply J; cbn; tauto| |reflexivity].
    assert (B : existsb (Z.eqb (Zpos p)) wmo_codes = false).
    { destruct (existsb _ _) eqn:Q; [|reflexivity]. apply existsb_exists in Q. destruct Q as (c & Jc & Q). apply Z.eqb_eq in Q. subst c. contradiction. }
    clear J. do 7 (try (destruct p as [p|p|]; try reflexivity)); discriminate B.
Qed.
Lemma c40_weather_proof : forall l w h, dims (we_clct l) = (w, h) -> 0 <= w -> 0 <= h -> complete (we_clct l) -> complete (we_ceiling l) ->
  match weather_bin l with
  | Ok data => laid_out 2 w h data (fun x y b => exists ww clct ceiling, ww_by_xy l x y = Ok ww /\ clct_by_xy l x y = Ok clct /\
      ceiling_by_xy l x y = Ok ceiling /\ b = [ww_byte ww clct; ceiling_byte ceiling])
  | Err e => False
  | Panic => exists x y, 0 <= x < w /\ 0 <= y < h /\ ww_by_xy l x y = Panic
  end.
Proof.
  intros l w h D W H C0 C1. unfold dims in D. injection D as Dw Dh. unfold weather_bin. rewrite Dw, Dh.
  set (cell := fun x y => obind (ww_by_xy l x y) _).
  assert (V : forall x y, 0 <= x < w -> 0 <= y < h -> exists c d, clct_by_xy l x y = Ok c /\ ceiling_by_xy l x y = Ok d).
  { intros x y X Y. unfold clct_by_xy, ceiling_by_xy. destruct (complete_cells f32_type (we_clct l) x y C0) as (o0 & E0); [lia..|].
    destruct (complete_cells f32_type (we_ceiling l) x y C1) as (o1 & E1); [lia..|]. eauto. }
  assert (W' : forall x y e, ww_by_xy l x y <> Err e).
  { intros x y e. unfold ww_by_xy. destruct (we_ww l) as [g|]; [|discriminate]. unfold value_by_xy.
    destruct (index_by_xy _ x y); [|discriminate]. unfold index_vec. destruct (nth_error _ _) as [v|]; [|discriminate]. cbn [omap obind].
    destruct (negb _); [|discriminate].
    destruct (from_value_cases (f_to_u8 v)) as [[-> _]|(u & -> & _)]; discriminate. }
  pose proof (bin_values_spec 2 w h cell ltac:(lia) W H) as P.
  assert (A : forall x y b, 0 <= x < w -> 0 <= y < h -> cell x y = Ok b -> size b = 2).
  { intros x y b X Y. unfold cell. destruct (V x y X Y) as (c & d & -> & ->). destruct (ww_by_xy l x y); cbn [obind]; intro Q; [|discriminate..]. injection Q as <-. reflexivity. }
  specialize (P A). destruct (bin_values w h cell) as [data|e|].
  - eapply laid_out_weaken; [exact P|]. cbv beta. intros x y b X Y. unfold cell. destruct (V x y X Y) as (c & d & Ec & Ed). rewrite Ec, Ed.
    destruct (ww_by_xy l x y) as [ww|e|]; cbn [obind]; intro Q; [|discriminate..]. injection Q as <-. exists ww, c, d. auto.
  - destruct P as (x & y & X & Y & E). unfold cell in E. destruct (V x y X Y) as (c & d & Ec & Ed). rewrite Ec, Ed in E.
    destruct (ww_by_xy l x y) as [ww|e'|] eqn:Q; cbn [obind] in E; [discriminate| |discriminate]. exact (W' x y e' Q).
  - destruct P as (x & y & X & Y & E). exists x, y. split; [exact X|]. split; [exact Y|]. unfold cell in E. destruct (V x y X Y) as (c & d & Ec & Ed). rewrite Ec, Ed in E.
    destruct (ww_by_xy l x y) as [ww|e'|]; cbn [obind] in E; [discriminate|discriminate|]. reflexivity.
Qed.
Lemma level_total (grids : list bgrid) x y n level : Forall complete grids -> 0 <= x -> 0 <= y -> 0 <= level < n -> n = Z.of_nat (length grids) ->
  exists o, level_value grids x y level = Ok o.
Proof.
  intros F X Y L ->. unfold level_value, index_vec. destruct (nth_error grids (Z.to_nat level)) as [g|] eqn:E.
  - cbn [obind]. apply (complete_cells u8_type); [|exact X|exact Y]. rewrite Forall_forall in F. apply F. eapply nth_error_In, E.
  - apply nth_error_None in E. lia.
Qed.
(** The record of a cell with [k] bytes for each level. *)
Lemma levels_total k n body (P : Z -> bytes -> Prop) : 0 <= k -> 0 <= n ->
  (forall level, 0 <= level < n -> exists b, body level = Ok b /\ size b = k /\ P level b) ->
  exists rec, push_all body (upto n) = Ok rec /\ size rec = k * n /\ (forall level, 0 <= level < n -> P level (slice rec (k * level) k)).
Proof.
  intros K N T. pose proof (push_all_spec k body (upto n) K) as S0.
  assert (A : forall i b, In i (upto n) -> body i = Ok b -> size b = k).
  { intros i b J E. destruct (T i (upto_in _ _ J)) as (b' & E' & L & _). congruence. }
  specialize (S0 A). destruct (push_all body (upto n)) as [rec|e|].
  - rewrite upto_length in S0 by lia. destruct S0 as [S0 At]. exists rec. split; [reflexivity|]. split; [exact S0|]. intros level L.
    specialize (At (Z.to_nat level) level (upto_nth n level L)). rewrite Z2Nat.id in At by lia. destruct (T level L) as (b & E & _ & Q). rewrite At in E. injection E as ->. exact Q.
  - destruct S0 as (i & J & E). destruct (T i (upto_in _ _ J)) as (b' & E' & _). congruence.
  - destruct S0 as (i & J & E). destruct (T i (upto_in _ _ J)) as (b' & E' & _). congruence.
Qed.
Lemma c40_vertical_cloud_proof : forall hhl clc l g w h n, vertical_cloud_new hhl clc = Ok l -> hd_error clc = Some g -> dims g = (w, h) -> 0 <= w -> 0 <= h ->
  n = Z.of_nat (length clc) -> Forall complete hhl -> Forall complete clc ->
  exists data, vertical_cloud_bin l = Ok data /\
    laid_out (2 * n) w h data (fun x y rec => forall level, 0 <= level < n -> exists a b,
      level_value hhl x y level = Ok a /\ level_value clc x y level = Ok b /\ slice rec (2 * level) 2 = [unwrap_or a 255; unwrap_or b 255]).
Proof.
  intros hhl clc l g w h n N Hd D W H En C0 C1. unfold dims in D. injection D as Dw Dh.
  unfold vertical_cloud_new in N. destruct (_ || _) in N; [discriminate|]. destruct (Z.eqb_spec (len hhl) (len clc)) as [L|]; [|discriminate]. cbn [negb] in N. injection N as <-.
  unfold vertical_cloud_bin, vertical_cloud_dims, first_grid, index_vec. cbn [vc_clc]. destruct clc as [|g' clc]; [discriminate|]. cbn in Hd. injection Hd as ->.
  cbn [Z.to_nat nth_error omap obind]. rewrite Dw, Dh. unfold len in *. rewrite <- En. apply bin_total; [lia..|]. intros x y X Y.
  refine (levels_total 2 n _ (fun level rec => exists a b : option Z, level_value hhl x y level = Ok a /\ level_value (g :: clc) x y level = Ok b /\ rec = [unwrap_or a 255; unwrap_or b 255]) _ _ _); [lia|lia|].
  intros level Lv. destruct (level_total hhl x y n level C0) as (a & Ea); [lia..|]. destruct (level_total (g :: clc) x y n level C1) as (b & Eb); [lia..|].
  unfold vc_hhl_value, vc_clc_value. cbn [vc_hhl vc_clc]. rewrite Ea, Eb. cbn [obind]. eexists. split; [reflexivity|]. split; [reflexivity|]. exists a, b. auto.
Qed.
Lemma c40_vertical_wind_proof : forall hhl u v l g w h n, vertical_wind_new hhl u v = Ok l -> hd_error u = Some g -> dims g = (w, h) -> 0 <= w -> 0 <= h ->
  n = Z.of_nat (length u) -> Forall complete hhl -> Forall complete u -> Forall complete v ->
  exists data, vertical_wind_bin l = Ok data /\
    laid_out (3 * n) w h data (fun x y rec => forall level, 0 <= level < n -> exists a b c,
      level_value hhl x y level = Ok a /\ level_value u x y level = Ok b /\ level_value v x y level = Ok c /\
      slice rec (3 * level) 3 = unwrap_or a 255 :: match b, c with Some b', Some c' => [b'; c'] | _, _ => [255; 255] end).
Proof.
  intros hhl u v l g w h n N Hd D W H En C0 C1 C2. unfold dims in D. injection D as Dw Dh.
  unfold vertical_wind_new in N. destruct (_ || _ || _) in N; [discriminate|]. destruct (Z.eqb_spec (len hhl) (len u)) as [L|]; [|discriminate].
  destruct (Z.eqb_spec (len hhl) (len v)) as [L'|]; [|discriminate]. cbn [negb orb] in N. injection N as <-.
  unfold vertical_wind_bin, vertical_wind_dims, first_grid, index_vec. cbn [vw_u]. destruct u as [|g' u]; [discriminate|]. cbn in Hd. injection Hd as ->.
  cbn [Z.to_nat nth_error omap obind]. rewrite Dw, Dh. unfold len in *. rewrite <- En. apply bin_total; [lia..|]. intros x y X Y.
  refine (levels_total 3 n _ (fun level rec => exists a b c : option Z, level_value hhl x y level = Ok a /\ level_value (g :: u) x y level = Ok b /\ level_value v x y level = Ok c /\
      rec = unwrap_or a 255 :: match b, c with Some b', Some c' => [b'; c'] | _, _ => [255; 255] end) _ _ _); [lia|lia|].
  intros level Lv. destruct (level_total hhl x y n level C0) as (a & Ea); [lia..|]. destruct (level_total (g :: u) x y n level C1) as (b & Eb); [lia..|].
  destruct (level_total v x y n level C2) as (c & Ec); [lia..|].
  unfold vw_hhl_value, vw_u_v_values. cbn [vw_hhl vw_u vw_v]. rewrite Ea, Eb, Ec. cbn [obind]. eexists. split; [reflexivity|].
  split; [destruct b; [destruct c|]; reflexivity|]. exists a, b, c. destruct b; [destruct c|]; auto.
Qed.

(** ** C41: temperature *)
Lemma dbl_num c : num c -> num (fmul c (f32_of_Z 2)) /\ xr (fmul c (f32_of_Z 2)) = sat (2 * xr c).
Proof.
  intros [V N]. destruct (fin_Z 2 ltac:(lia)) as [F2 E2]. destruct (fis_finite c) eqn:Fc.
  - assert (Fin : fin c) by (split; assumption). pose proof (fin_mul _ _ Fin F2) as R. split; [exact (rounds_num _ _ R)|].
    destruct R as (_ & _ & ->). rewrite E2. f_equal. rewrite rnd_gen; [ring|].
    change 2%R with (bpow radix2 1). apply (mult_bpow_pos_exact_FLT radix2 (-149) 24); [apply fin_gen, Fin|lia].
  - destruct c as [s|s| |s m e]; try discriminate. pose proof big_pos.
    assert (Q : fmul (S754_infinity s) (f32_of_Z 2) = S754_infinity s) by (destruct s; vm_compute; reflexivity). rewrite Q.
    split; [split; [exact V|reflexivity]|]. destruct s; cbn [xr]; [rewrite sat_lo by lra|rewrite sat_hi by lra]; reflexivity.
Qed.
Lemma add128_num z m : num z -> xr z = IZR m -> num (fadd z (f32_of_Z 128)) /\
  Z.max 0 (Z.min 255 (Ztrunc (xr (fadd z (f32_of_Z 128))))) = Z.max 0 (Z.min 255 (m + 128)).
Proof.
  intros [V N] E. destruct (fin_Z 128 ltac:(lia)) as [F1 E1]. destruct (fis_finite z) eqn:Fz.
  - assert (Fin : fin z) by (split; assumption). pose proof (fin_add _ _ Fin F1) as R. split; [exact (rounds_num _ _ R)|].
    destruct R as (_ & _ & ->). rewrite E, E1, <- plus_IZR.
    assert (B : (IZR (2 ^ 24) < big)%R) by (pose proof big_gt; eapply Rlt_trans; [|eassumption]; apply IZR_lt; lia).
    assert (Lo : forall a, Z.abs a <= 2 ^ 24 -> sat (rnd (IZR a)) = IZR a).
    { intros a A. rewrite rnd_gen by (apply gen_Z; lia). apply sat_id. rewrite <- abs_IZR. apply Rle_trans with (IZR (2 ^ 24)); [apply IZR_le; lia|lra]. }
    destruct (Z_le_gt_dec (Z.abs (m + 128)) (2 ^ 24)) as [A|A].
    + rewrite Lo by lia. rewrite Ztrunc_IZR. reflexivity.
    + destruct (Z_le_gt_dec 0 m) as [P|P].
      * assert (T : 2 ^ 24 <= Ztrunc (sat (rnd (IZR (m + 128))))).
        { rewrite <- (Ztrunc_IZR (2 ^ 24)). apply Ztrunc_le. rewrite <- (Lo (2 ^ 24)) by lia. apply sat_mono, rnd_mono, IZR_le. lia. }
        lia.
      * assert (T : Ztrunc (sat (rnd (IZR (m + 128)))) <= - 2 ^ 24).
        { rewrite <- (Ztrunc_IZR (- 2 ^ 24)). apply Ztrunc_le. rewrite <- (Lo (- 2 ^ 24)) by lia. apply sat_mono, rnd_mono, IZR_le. lia. }
        lia.
  - destruct z as [s|s| |s me e]; try discriminate.
    assert (Q : fadd (S754_infinity s) (f32_of_Z 128) = S754_infinity s) by (destruct s; vm_compute; reflexivity). rewrite Q.
    split; [split; [exact V|reflexivity]|]. cbn [xr] in *.
    assert (Bz : big = IZR (2 ^ 128)) by reflexivity. rewrite Bz in *. destruct s.
    + rewrite <- opp_IZR in *. apply eq_IZR in E. subst m. rewrite Ztrunc_IZR. lia.
    + apply eq_IZR in E. subst m. rewrite Ztrunc_IZR. lia.
Qed.
Lemma celsius_exact k : num k -> (Rabs (celsius k) <= 100)%R -> xr (kelvin_to_celsius k) = celsius k.
Proof.
  intros N B. destruct zero_celsius as [F E]. unfold celsius in *. rewrite <- (proj2 (lit_spec 27315 100 ltac:(lia) ltac:(lia))) in *. fold ZERO_CELSIUS_IN_KELVIN in *.
  apply Rabs_le_inv in B. rewrite E in B.
  assert (Fk : fin k).
  { split; [apply N|]. destruct k as [s|s| |s m e]; try reflexivity; [|destruct N; discriminate].
    assert (1000 < big)%R by (pose proof big_gt; eapply Rlt_trans; [|eassumption]; apply IZR_lt; lia). destruct s; cbn [xr] in B; lra. }
  pose proof (fin_sub _ _ Fk F) as R. apply exact_fin in R; [apply R| |].
  - apply (sterbenz radix2 fexp32); [apply fin_gen, Fk|apply fin_gen, F|rewrite E; lra].
  - rewrite E. assert (1000 < big)%R by (pose proof big_gt; eapply Rlt_trans; [|eassumption]; apply IZR_lt; lia). apply Rabs_lt. lra.
Qed.
Lemma temp_byte_spec k : num k -> temp_byte (Some k) = Z.max 0 (Z.min 255 (Zround (2 * celsius k) + 128)).
Proof.
  intro N. unfold temp_byte, f_to_u8. pose proof (celsius_num k N) as Nc. set (c := kelvin_to_celsius k) in *.
  destruct (dbl_num c Nc) as [Nd Ed]. destruct (fround_num _ Nd) as [Nr Er].
  destruct (add128_num _ _ Nr Er) as [[V Nn] Ea]. rewrite f_to_int_xr by (assumption || lia). rewrite Ea, Ed.
  assert (Cb : forall r, Z.max 0 (Z.min 255 (Zround (sat r) + 128)) = Z.max 0 (Z.min 255 (Zround r + 128))).
  { intro r. pose proof (sat_clamp (-128) 127 r ltac:(lia) ltac:(lia)) as S0. apply (f_equal Zround) in S0. rewrite !Zround_clamp in S0 by lia. lia. }
  rewrite Cb.
  assert (L : (flt c (f32_of_Z 100) = true <-> (celsius k < 100)%R) /\ (flt c (f32_of_Z (-100)) = true <-> (celsius k < -100)%R)).
  { unfold celsius. rewrite <- (proj2 (lit_spec 27315 100 ltac:(lia) ltac:(lia))). fold ZERO_CELSIUS_IN_KELVIN.
    split; [apply (celsius_lt k 100); [exact N|lia]|apply (celsius_lt k (-100)); [exact N|lia]]. }
  destruct L as [L1 L2]. destruct (of_Z_num 100 ltac:(lia)) as [N1 E1]. destruct (of_Z_num (-100) ltac:(lia)) as [N2 E2].
  rewrite (flt_num _ _ Nc N1), E1 in L1. rewrite (flt_num _ _ Nc N2), E2 in L2.
  destruct (Rle_or_lt 100 (celsius k)) as [A|A].
  - assert (100 <= xr c)%R by (apply Rnot_lt_le; intro Q; apply L1 in Q; lra).
    assert (P1 : 200 <= Zround (2 * xr c)) by (rewrite <- (Zround_IZR 200); apply Zround_le; lra).
    assert (P2 : 200 <= Zround (2 * celsius k)) by (rewrite <- (Zround_IZR 200); apply Zround_le; lra). lia.
  - destruct (Rlt_or_le (celsius k) (-100)) as [B|B].
    + assert (xr c < -100)%R by (apply L2, B).
      assert (P1 : Zround (2 * xr c) <= -200) by (rewrite <- (Zround_IZR (-200)); apply Zround_le; lra).
      assert (P2 : Zround (2 * celsius k) <= -200) by (rewrite <- (Zround_IZR (-200)); apply Zround_le; lra). lia.
    + unfold c. rewrite (celsius_exact k N) by (apply Rabs_le; lra). reflexivity.
Qed.
Lemma Zround_spec r : (0 <= r -> IZR (Zround r) - / 2 <= r < IZR (Zround r) + / 2)%R /\ (r <= 0 -> IZR (Zround r) - / 2 < r <= IZR (Zround r) + / 2)%R.
Proof.
  assert (P : forall q, (0 <= q)%R -> (IZR (Zround q) - / 2 <= q < IZR (Zround q) + / 2)%R).
  { intros q Q. unfold Zround. rewrite Rle_bool_true by exact Q. pose proof (Zfloor_lb (q + / 2)). pose proof (Zfloor_ub (q + / 2)). lra. }
  split; [apply P|]. intro H. specialize (P (- r)%R ltac:(lra)). rewrite Zround_opp, opp_IZR in P. lra.
Qed.
Lemma Zround_ge z r : 0 < z -> (z <= Zround r <-> (IZR z - / 2 <= r)%R).
Proof.
  intro Z0. destruct (Zround_spec r) as [P N]. split; intro H.
  - apply IZR_le in H. apply IZR_lt in Z0. pose proof (Zround_nearest r) as Q. apply Rabs_le_inv in Q. lra.
  - assert (1 <= IZR z)%R by (apply IZR_le; lia). specialize (P ltac:(lra)). assert (IZR z < IZR (Zround r) + 1)%R by lra. rewrite <- plus_IZR in H1. apply lt_IZR in H1. lia.
Qed.
Lemma Zround_lo z r : z < 0 -> (Zround r <= z <-> (r <= IZR z + / 2)%R).
Proof.
  intro Z0. pose proof (Zround_ge (- z) (- r) ltac:(lia)) as Q. rewrite Zround_opp, opp_IZR in Q. split; intro H.
  - assert (- z <= - Zround r) by lia. apply Q in H0. lra.
  - assert (- IZR z - / 2 <= - r)%R by lra. apply Q in H0. lia.
Qed.
Lemma c41_accurate_proof : forall k, num k -> (-64.25 < celsius k < 63.25)%R ->
  0 <= temp_byte (Some k) <= 254 /\ (Rabs ((IZR (temp_byte (Some k)) - 128) / 2 - celsius k) <= / 4)%R.
Proof.
  intros k N B. rewrite temp_byte_spec by exact N. set (r := (2 * celsius k)%R).
  assert (A : -129 < Zround r < 127).
  { pose proof (Zround_ge 127 r ltac:(lia)). pose proof (Zround_lo (-129) r ltac:(lia)). split.
    - destruct (Z_le_gt_dec (Zround r) (-129)) as [Q|Q]; [|lia]. apply H0 in Q. unfold r in Q. lra.
    - destruct (Z_le_gt_dec 127 (Zround r)) as [Q|Q]; [|lia]. apply H in Q. unfold r in Q. lra. }
  rewrite Z.min_r, Z.max_r by lia. split; [lia|]. rewrite plus_IZR. pose proof (Zround_nearest r) as Q. apply Rabs_le_inv in Q. apply Rabs_le. unfold r in *. lra.
Qed.
Lemma c41_monotone_proof : forall k k', num k -> num k' -> (xr k <= xr k')%R -> temp_byte (Some k) <= temp_byte (Some k').
Proof.
  intros k k' N N' H. rewrite !temp_byte_spec by assumption. assert (Zround (2 * celsius k) <= Zround (2 * celsius k')) by (apply Zround_le; unfold celsius; lra). lia.
Qed.
Lemma c41_missing_proof : forall v, (forall k, v = Some k -> f32_valid k) ->
  (temp_byte v = 255 <-> v = None \/ exists k, v = Some k /\ num k /\ (63.25 <= celsius k)%R).
Proof.
  intros [k|] V; [|split; [auto|reflexivity]]. destruct (nan_cases k (V k eq_refl)) as [->|N].
  - split; [intro Q; vm_compute in Q; discriminate|]. intros [Q|(k & Q & N & _)]; [discriminate|]. injection Q as <-. destruct N; discriminate.
  - rewrite temp_byte_spec by exact N. pose proof (Zround_ge 127 (2 * celsius k) ltac:(lia)) as G. split.
    + intro H. right. exists k. split; [reflexivity|]. split; [exact N|]. assert (A : 127 <= Zround (2 * celsius k)) by lia. apply G in A. lra.
    + intros [Q|(k' & Q & _ & H)]; [discriminate|]. injection Q as <-. assert (A : 127 <= Zround (2 * celsius k)) by (apply G; lra). lia.
Qed.
Lemma c41_cold_proof : forall k, num k -> (celsius k <= -64.25)%R -> temp_byte (Some k) = 0.
Proof.
  intros k N H. rewrite temp_byte_spec by exact N. pose proof (Zround_lo (-129) (2 * celsius k) ltac:(lia)) as G. assert (Zround (2 * celsius k) <= -129) by (apply G; lra). lia.
Qed.

(** ** C42: precipitation *)
Lemma precip_byte_spec c p : num p -> precip_byte (Some (c, p)) =
  if Rle_bool (decimal 2 10) (xr p) && Rlt_bool (xr p) (1 / 2) then 1 else Z.max 0 (Z.min 255 (Zround (2 * xr p))).
Proof.
  intro N. unfold precip_byte. destruct (lit_spec 2 10 ltac:(lia) ltac:(lia)) as [N2 E2]. destruct (lit_spec 5 10 ltac:(lia) ltac:(lia)) as [N5 E5].
  assert (D5 : decimal 5 10 = (1 / 2)%R).
  { rewrite <- E5. assert (f32_lit 5 10 = S754_finite false 8388608 (-24)) as -> by (vm_compute; reflexivity). rewrite xr_F2R, F2R_neg_exp by lia. cbn. lra. }
  rewrite D5 in E5.
  assert (G : fge p (f32_lit 2 10) = Rle_bool (decimal 2 10) (xr p)).
  { change (fge p (f32_lit 2 10)) with (fle (f32_lit 2 10) p). rewrite <- E2. pose proof (fle_num _ _ N2 N) as Q. destruct (fle _ _); destruct (Rle_bool_spec (xr (f32_lit 2 10)) (xr p)) as [B|B]; try reflexivity.
    - assert (xr (f32_lit 2 10) <= xr p)%R by (apply Q; reflexivity). lra.
    - apply Q in B. discriminate. }
  assert (L : flt p (f32_lit 5 10) = Rlt_bool (xr p) (1 / 2)).
  { rewrite <- E5. pose proof (flt_num _ _ N N5) as Q. destruct (flt _ _); destruct (Rlt_bool_spec (xr p) (xr (f32_lit 5 10))) as [B|B]; try reflexivity.
    - assert (xr p < xr (f32_lit 5 10))%R by (apply Q; reflexivity). lra.
    - apply Q in B. discriminate. }
  rewrite G, L. destruct (_ && _); [reflexivity|]. destruct (dbl_num p N) as [Nd Ed]. unfold f_to_u8. rewrite to_int_round by (assumption || lia).
  rewrite Ed. rewrite <- !Zround_clamp by lia. f_equal. apply sat_clamp; lia.
Qed.
Lemma decimal_fifth : (0.2 < decimal 2 10 < 0.2001)%R.
Proof.
  rewrite <- (proj2 (lit_spec 2 10 ltac:(lia) ltac:(lia))). assert (f32_lit 2 10 = S754_finite false 13421773 (-26)) as -> by (vm_compute; reflexivity).
  rewrite xr_F2R, F2R_neg_exp by lia. cbn. lra.
Qed.
Lemma c42_spec_proof : forall c p, num p ->
  ((xr p < decimal 2 10)%R -> precip_byte (Some (c, p)) = 0) /\
  ((decimal 2 10 <= xr p < 1 / 2)%R -> precip_byte (Some (c, p)) = 1) /\
  ((1 / 2 <= xr p)%R -> precip_byte (Some (c, p)) = Z.min 255 (Zround (2 * xr p)) /\ 1 <= precip_byte (Some (c, p))).
Proof.
  intros c p N. rewrite precip_byte_spec by exact N. pose proof decimal_fifth as D. split; [|split]; intro H.
  - rewrite Rle_bool_false by exact H. cbn [andb].
    assert (Zround (2 * xr p) <= 0); [|lia]. pose proof (Zround_ge 1 (2 * xr p) ltac:(lia)) as G.
    destruct (Z_le_gt_dec 1 (Zround (2 * xr p))) as [Q|Q]; [|lia]. apply G in Q. lra.
  - rewrite Rle_bool_true, Rlt_bool_true by apply H. reflexivity.
  - rewrite Rle_bool_true by lra. rewrite Rlt_bool_false by exact H. cbn [andb].
    assert (1 <= Zround (2 * xr p)) by (apply Zround_ge; [lia|lra]). lia.
Qed.
Lemma c42_monotone_proof : forall c c' p p', num p -> num p' -> (xr p <= xr p')%R -> precip_byte (Some (c, p)) <= precip_byte (Some (c', p')).
Proof.
  intros c c' p p' N N' H. destruct (c42_spec_proof c p N) as (A1 & A2 & A3). destruct (c42_spec_proof c' p' N') as (B1 & B2 & B3).
  destruct (Rlt_or_le (xr p) (decimal 2 10)) as [P|P].
  - rewrite (A1 P). destruct (Rlt_or_le (xr p') (decimal 2 10)) as [Q|Q]; [rewrite (B1 Q); lia|].
    destruct (Rlt_or_le (xr p') (1 / 2)) as [T|T]; [rewrite (B2 (conj Q T)); lia|]. destruct (B3 T). lia.
  - destruct (Rlt_or_le (xr p) (1 / 2)) as [Q|Q].
    + rewrite (A2 (conj P Q)). destruct (Rlt_or_le (xr p') (1 / 2)) as [T|T]; [rewrite B2 by lra; lia|]. destruct (B3 T). lia.
    + destruct (A3 Q) as [-> _]. destruct (B3 ltac:(lra)) as [-> _]. assert (Zround (2 * xr p) <= Zround (2 * xr p')) by (apply Zround_le; lra). lia.
Qed.
Lemma c42_missing_proof : forall v, (forall c p, v = Some (c, p) -> f32_valid p) ->
  (precip_byte v = 255 <-> v = None \/ exists c p, v = Some (c, p) /\ num p /\ (127.25 <= xr p)%R).
Proof.
  intros [[c p]|] V; [|split; [auto|reflexivity]]. destruct (nan_cases p (V c p eq_refl)) as [->|N].
  - split; [intro Q; vm_compute in Q; discriminate|]. intros [Q|(c' & p' & Q & N & _)]; [discriminate|]. injection Q as <- <-. destruct N; discriminate.
  - pose proof (Zround_ge 255 (2 * xr p) ltac:(lia)) as G. destruct (c42_spec_proof c p N) as (A1 & A2 & A3). split.
    + intro H. right. exists c, p. split; [reflexivity|]. split; [exact N|]. destruct (Rlt_or_le (xr p) (decimal 2 10)) as [P|P]; [rewrite (A1 P) in H; lia|].
      destruct (Rlt_or_le (xr p) (1 / 2)) as [Q|Q]; [rewrite (A2 (conj P Q)) in H; lia|]. destruct (A3 Q) as [E _]. rewrite E in H.
      assert (A : 255 <= Zround (2 * xr p)) by lia. apply G in A. lra.
    + intros [Q|(c' & p' & Q & _ & H)]; [discriminate|]. injection Q as <- <-. destruct (A3 ltac:(lra)) as [-> _]. assert (A : 255 <= Zround (2 * xr p)) by (apply G; lra). lia.
Qed.

(** ** C56: unit conversions *)
Lemma big_rnd r : (big <= r)%R -> (big <= rnd r)%R.
Proof.
  intro H. assert (G : generic_format radix2 fexp32 big) by (apply gen_bpow; lia). rewrite <- (rnd_gen big G). apply rnd_mono, H.
Qed.
(** Multiplying by a constant that is at least 1, infinities included. *)
Lemma mul_const v c : num v -> fin c -> (1 <= xr c)%R -> rounds_to (fmul v c) (xr v * xr c).
Proof.
  intros [V N] Fc C1. destruct (fis_finite v) eqn:Fv; [apply fin_mul; [split; assumption|exact Fc]|].
  destruct v as [s|s| |s m e]; try discriminate.
  assert (Q : fmul (S754_infinity s) c = S754_infinity s).
  { destruct Fc as [Vc Fc]. destruct c as [s'|s'| |s' m' e']; try discriminate.
    - cbn in C1. lra.
    - destruct s'; [|cbn; destruct s; reflexivity]. rewrite xr_F2R in C1. pose proof (F2R_le_0 radix2 (Float radix2 (Zneg m') e') ltac:(cbn; lia)) as Q. cbn [cond_Zopp] in C1. change (- Zpos m') with (Zneg m') in C1. lra. }
  rewrite Q. split; [exact V|]. split; [reflexivity|]. pose proof big_pos. destruct s; cbn [xr].
  - rewrite sat_lo; [reflexivity|]. replace (- big * xr c)%R with (- (big * xr c))%R by ring. rewrite rnd_opp. pose proof (big_rnd (big * xr c) ltac:(nra)). lra.
  - rewrite sat_hi; [reflexivity|]. apply big_rnd. nra.
Qed.
(** Adding to and dividing by a constant. *)
Lemma add_cases z c : num z -> fin c -> (fin z /\ rounds_to (fadd z c) (xr z + xr c)) \/ (fis_finite z = false /\ fadd z c = z).
Proof.
  intros [V N] Fc. destruct (fis_finite z) eqn:Fz; [left; assert (fin z) by (split; assumption); split; [assumption|apply fin_add; assumption]|]. right. split; [reflexivity|].
  destruct z as [s|s| |s m e]; try discriminate. destruct Fc as [_ Fc]. destruct c as [s'|s'| |s' m' e']; try discriminate; reflexivity.
Qed.
Lemma div_cases z c : num z -> fin c -> (0 < xr c)%R -> (fin z /\ rounds_to (fdiv z c) (xr z / xr c)) \/ (fis_finite z = false /\ fdiv z c = z).
Proof.
  intros [V N] Fc P. destruct (fis_finite z) eqn:Fz; [left; assert (fin z) by (split; assumption); split; [assumption|apply fin_div; [assumption|exact Fc|lra]]|]. right. split; [reflexivity|].
  destruct z as [s|s| |s m e]; try discriminate. destruct Fc as [_ Fc]. destruct c as [s'|s'| |s' m' e']; try discriminate.
  - cbn in P. lra.
  - destruct s'; [|cbn; destruct s; reflexivity]. rewrite xr_F2R in P. pose proof (F2R_le_0 radix2 (Float radix2 (Zneg m') e') ltac:(cbn; lia)) as Q. cbn [cond_Zopp] in P. change (- Zpos m') with (Zneg m') in P. lra.
Qed.
Lemma knots_const : fin KNOTS_PER_MPS /\ xr KNOTS_PER_MPS = decimal 194384 100000 /\ (1.94 < decimal 194384 100000 < 1.95)%R.
Proof.
  split; [split; [apply f32_lit_valid|vm_compute; reflexivity]|]. split; [apply (lit_spec 194384 100000); lia|].
  rewrite <- (proj2 (lit_spec 194384 100000 ltac:(lia) ltac:(lia))). assert (f32_lit 194384 100000 = S754_finite false 16306112 (-23)) as -> by (vm_compute; reflexivity).
  rewrite xr_F2R, F2R_neg_exp by lia. cbn. lra.
Qed.
Lemma feet_const : fin FEET_PER_M /\ xr FEET_PER_M = decimal 328084 100000 /\ (3.28 < decimal 328084 100000 < 3.29)%R.
Proof.
  split; [split; [apply f32_lit_valid|vm_compute; reflexivity]|]. split; [apply (lit_spec 328084 100000); lia|].
  rewrite <- (proj2 (lit_spec 328084 100000 ltac:(lia) ltac:(lia))). assert (f32_lit 328084 100000 = S754_finite false 13760840 (-22)) as -> by (vm_compute; reflexivity).
  rewrite xr_F2R, F2R_neg_exp by lia. cbn. lra.
Qed.
Lemma knots_rounds v : num v -> rounds_to (mps_to_knots v) (in_knots v).
Proof.
  intro N. destruct knots_const as (F & E & B). unfold in_knots. rewrite <- E in *. apply mul_const; [exact N|exact F|lra].
Qed.
Lemma feet_rounds m : num m -> rounds_to (meters_to_feet m) (in_feet m).
Proof.
  intro N. destruct feet_const as (F & E & B). unfold in_feet. rewrite <- E in *. apply mul_const; [exact N|exact F|lra].
Qed.
Lemma rounds_mono z z' r r' : rounds_to z r -> rounds_to z' r' -> (r <= r')%R -> (xr z <= xr z')%R.
Proof. intros (_ & _ & ->) (_ & _ & ->) H. apply sat_mono, rnd_mono, H. Qed.
Lemma rounds_err z r : rounds_to z r -> (Rabs (rnd r) < big)%R -> fin z /\ (Rabs (xr z - r) <= ulp_half * Rabs r + bpow radix2 (-150))%R.
Proof. intros R B. destruct (rounds_fin _ _ R B) as [F E]. split; [exact F|]. rewrite E. apply rnd_err. Qed.
Lemma inf_xr z : num z -> fis_finite z = false -> xr z = big \/ xr z = (- big)%R.
Proof. intros [V N] F. destruct z as [s|s| |s m e]; try discriminate. destruct s; cbn [xr]; auto. Qed.
Lemma rnd_lt_big r : (Rabs r <= bpow radix2 127)%R -> (Rabs (rnd r) < big)%R.
Proof.
  intro H. apply Rabs_le_inv in H. assert (G : generic_format radix2 fexp32 (bpow radix2 127)) by (apply gen_bpow; lia).
  apply Rle_lt_trans with (bpow radix2 127); [|apply bpow_lt; lia]. apply Rabs_le. split.
  - rewrite <- (rnd_gen _ G), <- rnd_opp. apply rnd_mono. lra.
  - rewrite <- (rnd_gen _ G) at 1. apply rnd_mono. lra.
Qed.
Lemma div_mono z z' c : num z -> num z' -> fin c -> (0 < xr c)%R -> (xr z <= xr z')%R -> (xr (fdiv z c) <= xr (fdiv z' c))%R.
Proof.
  intros N N' F P H. pose proof (Rinv_0_lt_compat _ P) as I. pose proof (xr_big (fdiv z c)) as Bz. pose proof (xr_big (fdiv z' c)) as Bz'.
  assert (V : f32_valid (fdiv z c)) by (apply fdiv_valid; [apply N|apply F]). assert (V' : f32_valid (fdiv z' c)) by (apply fdiv_valid; [apply N'|apply F]).
  specialize (Bz V). specialize (Bz' V'). apply Rabs_le_inv in Bz, Bz'.
  destruct (div_cases z c N F P) as [[Fi R]|[Fz E]]; destruct (div_cases z' c N' F P) as [[Fi' R']|[Fz' E']].
  - apply (rounds_mono _ _ _ _ R R'). unfold Rdiv. nra.
  - rewrite E' in *. destruct (inf_xr z' N' Fz') as [Q|Q]; rewrite Q in *; [lra|]. pose proof (fin_bound z Fi) as B. apply Rabs_lt_inv in B. lra.
  - rewrite E in *. destruct (inf_xr z N Fz) as [Q|Q]; rewrite Q in *; [|lra]. pose proof (fin_bound z' Fi') as B. apply Rabs_lt_inv in B. lra.
  - rewrite E, E'. exact H.
Qed.
Lemma add_mono z z' c : num z -> num z' -> fin c -> (xr z <= xr z')%R -> (xr (fadd z c) <= xr (fadd z' c))%R.
Proof.
  intros N N' F H. pose proof (xr_big (fadd z c)) as Bz. pose proof (xr_big (fadd z' c)) as Bz'.
  assert (V : f32_valid (fadd z c)) by (apply fadd_valid; [apply N|apply F]). assert (V' : f32_valid (fadd z' c)) by (apply fadd_valid; [apply N'|apply F]).
  specialize (Bz V). specialize (Bz' V'). apply Rabs_le_inv in Bz, Bz'.
  destruct (add_cases z c N F) as [[Fi R]|[Fz E]]; destruct (add_cases z' c N' F) as [[Fi' R']|[Fz' E']].
  - apply (rounds_mono _ _ _ _ R R'). lra.
  - rewrite E' in *. destruct (inf_xr z' N' Fz') as [Q|Q]; rewrite Q in *; [lra|]. pose proof (fin_bound z Fi) as B. apply Rabs_lt_inv in B. lra.
  - rewrite E in *. destruct (inf_xr z N Fz) as [Q|Q]; rewrite Q in *; [|lra]. pose proof (fin_bound z' Fi') as B. apply Rabs_lt_inv in B. lra.
  - rewrite E, E'. exact H.
Qed.
Lemma sub_mono z z' c : num z -> num z' -> fin c -> (xr z <= xr z')%R -> (xr (fsub z c) <= xr (fsub z' c))%R.
Proof.
  intros N N' F H. pose proof (xr_big (fsub z c)) as Bz. pose proof (xr_big (fsub z' c)) as Bz'.
  assert (V : f32_valid (fsub z c)) by (apply fsub_valid; [apply N|apply F]). assert (V' : f32_valid (fsub z' c)) by (apply fsub_valid; [apply N'|apply F]).
  specialize (Bz V). specialize (Bz' V'). apply Rabs_le_inv in Bz, Bz'.
  assert (C : forall y, num y -> (fin y /\ rounds_to (fsub y c) (xr y - xr c)) \/ (fis_finite y = false /\ fsub y c = y)).
  { intros y [Vy Ny]. destruct (fis_finite y) eqn:Fy; [left; assert (fin y) by (split; assumption); split; [assumption|apply fin_sub; assumption]|]. right. split; [reflexivity|].
    destruct y as [s|s| |s m e]; try discriminate. destruct F as [_ Fc]. destruct c as [s'|s'| |s' m' e']; try discriminate; reflexivity. }
  destruct (C z N) as [[Fi R]|[Fz E]]; destruct (C z' N') as [[Fi' R']|[Fz' E']].
  - apply (rounds_mono _ _ _ _ R R'). lra.
  - rewrite E' in *. destruct (inf_xr z' N' Fz') as [Q|Q]; rewrite Q in *; [lra|]. pose proof (fin_bound z Fi) as B. apply Rabs_lt_inv in B. lra.
  - rewrite E in *. destruct (inf_xr z N Fz) as [Q|Q]; rewrite Q in *; [|lra]. pose proof (fin_bound z' Fi') as B. apply Rabs_lt_inv in B. lra.
  - rewrite E, E'. exact H.
Qed.
Lemma c56_monotone_proof : forall conv, In conv [meters_to_feet; feet_to_meters; mps_to_knots; knots_to_mps; kelvin_to_celsius; celsius_to_kelvin] ->
  forall x y, num x -> num y -> (xr x <= xr y)%R -> (xr (conv x) <= xr (conv y))%R.
Proof.
  destruct knots_const as (Fk & Ek & Bk). destruct feet_const as (Ff & Ef & Bf). destruct zero_celsius as (Fz & Ez).
  intros conv J x y X Y H. cbn [In] in J. decompose [or] J; clear J; subst; try contradiction.
  - apply (rounds_mono _ _ _ _ (feet_rounds x X) (feet_rounds y Y)). unfold in_feet. nra.
  - apply div_mono; [assumption..| |assumption]. rewrite Ef. lra.
  - apply (rounds_mono _ _ _ _ (knots_rounds x X) (knots_rounds y Y)). unfold in_knots. nra.
  - apply div_mono; [assumption..| |assumption]. rewrite Ek. lra.
  - apply sub_mono; assumption.
  - apply add_mono; assumption.
Qed.
(** One rounding of the exact result. *)
Lemma c56_rounding_proof : forall x, fin x ->
  rounds_to (meters_to_feet x) (xr x * decimal 328084 100000) /\ rounds_to (feet_to_meters x) (xr x / decimal 328084 100000) /\
  rounds_to (mps_to_knots x) (xr x * decimal 194384 100000) /\ rounds_to (knots_to_mps x) (xr x / decimal 194384 100000) /\
  rounds_to (kelvin_to_celsius x) (xr x - decimal 27315 100) /\ rounds_to (celsius_to_kelvin x) (xr x + decimal 27315 100).
Proof.
  destruct knots_const as (Fk & Ek & Bk). destruct feet_const as (Ff & Ef & Bf). destruct zero_celsius as (Fz & _).
  pose proof (proj2 (lit_spec 27315 100 ltac:(lia) ltac:(lia))) as Ez. fold ZERO_CELSIUS_IN_KELVIN in Ez.
  intros x X. rewrite <- Ek, <- Ef, <- Ez in *. split; [apply fin_mul; assumption|]. split; [apply fin_div; [assumption..|lra]|].
  split; [apply fin_mul; assumption|]. split; [apply fin_div; [assumption..|lra]|]. split; [apply fin_sub; assumption|apply fin_add; assumption].
Qed.
Lemma c56_accurate_proof : forall z r, rounds_to z r -> (Rabs r <= bpow radix2 127)%R ->
  fin z /\ (Rabs (xr z - r) <= / IZR (2 ^ 24) * Rabs r + bpow radix2 (-150))%R.
Proof. intros z r R B. destruct (rounds_err z r R (rnd_lt_big r B)) as [F E]. rewrite ulp_half_val in E. split; [exact F|exact E]. Qed.
(** There and back again: two roundings. *)
Lemma round_trip c x : fin c -> (1 <= xr c <= 4)%R -> fin x -> (Rabs (xr x) <= bpow radix2 120)%R ->
  fin (fdiv (fmul x c) c) /\ (Rabs (xr (fdiv (fmul x c) c) - xr x) <= / IZR (2 ^ 22) * Rabs (xr x) + bpow radix2 (-148))%R.
Proof.
  intros F B X H. pose proof (fin_mul x c X F) as R1. assert (Pa : (0 <= Rabs (xr x))%R) by apply Rabs_pos.
  assert (B120 : (bpow radix2 127 = 128 * bpow radix2 120)%R) by (change 128%R with (bpow radix2 7); rewrite <- bpow_plus; reflexivity).
  assert (A1 : (Rabs (xr x * xr c) = Rabs (xr x) * xr c)%R) by (rewrite Rabs_mult, (Rabs_pos_eq (xr c)) by lra; reflexivity).
  assert (H1 : (Rabs (xr x * xr c) <= 4 * Rabs (xr x))%R) by (rewrite A1; nra).
  destruct (c56_accurate_proof _ _ R1 ltac:(pose proof (bpow_gt_0 radix2 120); lra)) as [F1 E1].
  set (y := fmul x c) in *. assert (T150 : (0 < bpow radix2 (-150) <= bpow radix2 0)%R) by (split; [apply bpow_gt_0|apply bpow_le; lia]). change (bpow radix2 0) with 1%R in T150.
  assert (Q1 : (Rabs (xr y / xr c - xr x) <= / IZR (2 ^ 24) * Rabs (xr x) + bpow radix2 (-150))%R).
  { replace (xr y / xr c - xr x)%R with ((xr y - xr x * xr c) / xr c)%R by (field; lra). unfold Rdiv. rewrite Rabs_mult, (Rabs_pos_eq (/ xr c)) by (apply Rlt_le, Rinv_0_lt_compat; lra).
    rewrite A1 in E1. apply Rle_trans with ((/ IZR (2 ^ 24) * (Rabs (xr x) * xr c) + bpow radix2 (-150)) * / xr c)%R.
    - apply Rmult_le_compat_r; [apply Rlt_le, Rinv_0_lt_compat; lra|exact E1].
    - replace ((/ IZR (2 ^ 24) * (Rabs (xr x) * xr c) + bpow radix2 (-150)) * / xr c)%R with (/ IZR (2 ^ 24) * Rabs (xr x) + bpow radix2 (-150) * / xr c)%R by (field; split; [lra|apply not_0_IZR; lia]).
      assert (/ xr c <= 1)%R by (rewrite <- Rinv_1; apply Rinv_le_contravar; lra). nra. }
  assert (T24 : (/ IZR (2 ^ 24) = 1 / 16777216)%R) by (cbn; lra). rewrite T24 in *.
  pose proof (fin_div y c F1 F ltac:(lra)) as R2.
  assert (A2 : (Rabs (xr y / xr c) <= 2 * Rabs (xr x) + 2 * bpow radix2 (-150))%R).
  { pose proof (Rabs_triang_inv (xr y / xr c) (xr x)). lra. }
  assert (1 <= bpow radix2 120)%R by (change 1%R with (bpow radix2 0); apply bpow_le; lia).
  destruct (c56_accurate_proof _ _ R2 ltac:(lra)) as [F2 E2]. split; [exact F2|].
  assert (B148 : (bpow radix2 (-148) = 4 * bpow radix2 (-150))%R) by (change 4%R with (bpow radix2 2); rewrite <- bpow_plus; reflexivity).
  rewrite B148. rewrite T24 in E2. assert (T22 : (/ IZR (2 ^ 22) = 1 / 4194304)%R) by (cbn; lra). rewrite T22.
  replace (xr (fdiv y c) - xr x)%R with ((xr (fdiv y c) - xr y / xr c) + (xr y / xr c - xr x))%R by ring.
  eapply Rle_trans; [apply Rabs_triang|]. lra.
Qed.
Lemma round_trip_back c x : fin c -> (1 <= xr c <= 4)%R -> fin x -> (Rabs (xr x) <= bpow radix2 120)%R ->
  fin (fmul (fdiv x c) c) /\ (Rabs (xr (fmul (fdiv x c) c) - xr x) <= / IZR (2 ^ 22) * Rabs (xr x) + bpow radix2 (-147))%R.
Proof.
  intros F B X H. pose proof (fin_div x c X F ltac:(lra)) as R1. assert (Pa : (0 <= Rabs (xr x))%R) by apply Rabs_pos.
  assert (B120 : (bpow radix2 127 = 128 * bpow radix2 120)%R) by (change 128%R with (bpow radix2 7); rewrite <- bpow_plus; reflexivity).
  assert (I : (0 < / xr c <= 1)%R) by (split; [apply Rinv_0_lt_compat; lra|rewrite <- Rinv_1; apply Rinv_le_contravar; lra]).
  assert (A1 : (Rabs (xr x / xr c) = Rabs (xr x) * / xr c)%R) by (unfold Rdiv; rewrite Rabs_mult, (Rabs_pos_eq (/ xr c)) by lra; reflexivity).
  assert (H1 : (Rabs (xr x / xr c) <= Rabs (xr x))%R) by (rewrite A1; nra).
  destruct (c56_accurate_proof _ _ R1 ltac:(pose proof (bpow_gt_0 radix2 120); lra)) as [F1 E1].
  set (y := fdiv x c) in *. assert (T150 : (0 < bpow radix2 (-150) <= bpow radix2 0)%R) by (split; [apply bpow_gt_0|apply bpow_le; lia]). change (bpow radix2 0) with 1%R in T150.
  assert (T24 : (/ IZR (2 ^ 24) = 1 / 16777216)%R) by (cbn; lra). rewrite T24 in *.
  assert (Q1 : (Rabs (xr y * xr c - xr x) <= 1 / 16777216 * Rabs (xr x) + 4 * bpow radix2 (-150))%R).
  { replace (xr y * xr c - xr x)%R with ((xr y - xr x / xr c) * xr c)%R by (field; lra). rewrite Rabs_mult, (Rabs_pos_eq (xr c)) by lra.
    rewrite A1 in E1. apply Rle_trans with ((1 / 16777216 * (Rabs (xr x) * / xr c) + bpow radix2 (-150)) * xr c)%R; [apply Rmult_le_compat_r; [lra|exact E1]|].
    replace ((1 / 16777216 * (Rabs (xr x) * / xr c) + bpow radix2 (-150)) * xr c)%R with (1 / 16777216 * Rabs (xr x) + bpow radix2 (-150) * xr c)%R by (field; lra). nra. }
  pose proof (fin_mul y c F1 F) as R2.
  assert (A2 : (Rabs (xr y * xr c) <= 2 * Rabs (xr x) + 4 * bpow radix2 (-150))%R).
  { pose proof (Rabs_triang_inv (xr y * xr c) (xr x)). lra. }
  assert (1 <= bpow radix2 120)%R by (change 1%R with (bpow radix2 0); apply bpow_le; lia).
  destruct (c56_accurate_proof _ _ R2 ltac:(lra)) as [F2 E2]. split; [exact F2|].
  assert (B147 : (bpow radix2 (-147) = 8 * bpow radix2 (-150))%R) by (change 8%R with (bpow radix2 3); rewrite <- bpow_plus; reflexivity).
  rewrite B147. rewrite T24 in E2. assert (T22 : (/ IZR (2 ^ 22) = 1 / 4194304)%R) by (cbn; lra). rewrite T22.
  replace (xr (fmul y c) - xr x)%R with ((xr (fmul y c) - xr y * xr c) + (xr y * xr c - xr x))%R by ring.
  eapply Rle_trans; [apply Rabs_triang|]. lra.
Qed.
Lemma c56_round_trip_back_proof : forall x, fin x -> (Rabs (xr x) <= bpow radix2 120)%R ->
  (Rabs (xr (meters_to_feet (feet_to_meters x)) - xr x) <= / IZR (2 ^ 22) * Rabs (xr x) + bpow radix2 (-147))%R /\
  (Rabs (xr (mps_to_knots (knots_to_mps x)) - xr x) <= / IZR (2 ^ 22) * Rabs (xr x) + bpow radix2 (-147))%R.
Proof.
  intros x X H. destruct knots_const as (Fk & Ek & Bk). destruct feet_const as (Ff & Ef & Bf). rewrite <- Ek in Bk. rewrite <- Ef in Bf. split.
  - apply (round_trip_back FEET_PER_M x); [assumption|lra|assumption..].
  - apply (round_trip_back KNOTS_PER_MPS x); [assumption|lra|assumption..].
Qed.
(** Temperatures: the rounding depends on the magnitude of the numbers on the way. *)
Lemma shift_trip (y z : f32) c a s : (Rabs c <= 274)%R -> (Rabs a <= bpow radix2 120)%R -> rounds_to y (a + c) -> (s = - c)%R ->
  fin y /\ (rounds_to z (xr y + s) -> (Rabs (xr z - a) <= / IZR (2 ^ 22) * (Rabs a + 274))%R).
Proof.
  intros C A R ->. assert (Pa : (0 <= Rabs a)%R) by apply Rabs_pos.
  assert (T24 : (/ IZR (2 ^ 24) = 1 / 16777216)%R) by (cbn; lra). assert (T22 : (/ IZR (2 ^ 22) = 1 / 4194304)%R) by (cbn; lra).
  assert (T150 : (0 < bpow radix2 (-150) <= bpow radix2 (-24))%R) by (split; [apply bpow_gt_0|apply bpow_le; lia]).
  assert (E : (bpow radix2 (-24) = 1 / 16777216)%R) by (cbn; lra). rewrite E in T150.
  assert (B120 : (bpow radix2 127 = 128 * bpow radix2 120)%R) by (change 128%R with (bpow radix2 7); rewrite <- bpow_plus; reflexivity).
  assert (K : (1024 <= bpow radix2 120)%R) by (change 1024%R with (bpow radix2 10); apply bpow_le; lia).
  pose proof (Rabs_triang a c) as T1.
  destruct (c56_accurate_proof _ _ R ltac:(lra)) as [F1 E1]. split; [exact F1|]. intro R2. rewrite T24 in E1.
  assert (T2 : (Rabs (xr y + - c) <= 2 * Rabs a + 274)%R).
  { replace (xr y + - c)%R with ((xr y - (a + c)) + a)%R by ring. eapply Rle_trans; [apply Rabs_triang|]. lra. }
  destruct (c56_accurate_proof _ _ R2 ltac:(lra)) as [F2 E2]. rewrite T24 in E2. rewrite T22.
  replace (xr z - a)%R with ((xr z - (xr y + - c)) + (xr y - (a + c)))%R by ring.
  eapply Rle_trans; [apply Rabs_triang|]. lra.
Qed.
Lemma c56_round_trip_temperature_proof : forall x, fin x -> (Rabs (xr x) <= bpow radix2 120)%R ->
  (Rabs (xr (celsius_to_kelvin (kelvin_to_celsius x)) - xr x) <= / IZR (2 ^ 22) * (Rabs (xr x) + 274))%R /\
  (Rabs (xr (kelvin_to_celsius (celsius_to_kelvin x)) - xr x) <= / IZR (2 ^ 22) * (Rabs (xr x) + 274))%R.
Proof.
  intros x X H. destruct zero_celsius as (Fz & Ez).
  assert (B : (Rabs (xr ZERO_CELSIUS_IN_KELVIN) <= 274)%R) by (apply Rabs_le; lra).
  assert (B' : (Rabs (- xr ZERO_CELSIUS_IN_KELVIN) <= 274)%R) by (rewrite Rabs_Ropp; exact B). split.
  - pose proof (fin_sub x _ X Fz) as R1. unfold Rminus in R1. fold (kelvin_to_celsius x) in R1.
    destruct (shift_trip _ (celsius_to_kelvin (kelvin_to_celsius x)) _ _ (xr ZERO_CELSIUS_IN_KELVIN) B' H R1 ltac:(ring)) as [F1 Q].
    apply Q. exact (fin_add _ _ F1 Fz).
  - pose proof (fin_add x _ X Fz) as R1. fold (celsius_to_kelvin x) in R1.
    destruct (shift_trip _ (kelvin_to_celsius (celsius_to_kelvin x)) _ _ (- xr ZERO_CELSIUS_IN_KELVIN) B H R1 eq_refl) as [F1 Q].
    apply Q. exact (fin_sub _ _ F1 Fz).
Qed.
Lemma c56_round_trip_proof : forall x, fin x -> (Rabs (xr x) <= bpow radix2 120)%R ->
  (Rabs (xr (feet_to_meters (meters_to_feet x)) - xr x) <= / IZR (2 ^ 22) * Rabs (xr x) + bpow radix2 (-148))%R /\
  (Rabs (xr (knots_to_mps (mps_to_knots x)) - xr x) <= / IZR (2 ^ 22) * Rabs (xr x) + bpow radix2 (-148))%R.
Proof.
  intros x X H. destruct knots_const as (Fk & Ek & Bk). destruct feet_const as (Ff & Ef & Bf). rewrite <- Ek in Bk. rewrite <- Ef in Bf. split.
  - apply (round_trip FEET_PER_M x); [assumption|lra|assumption..].
  - apply (round_trip KNOTS_PER_MPS x); [assumption|lra|assumption..].
Qed.

(** ** C43: wind *)
Lemma clamp_byte_round x : num x -> clamp_byte (fround x) = Z.max 0 (Z.min 254 (Zround (xr x))).
Proof.
  intro N. destruct (fround_num x N) as [Nr Er]. unfold clamp_byte, f_to_u8.
  destruct (of_Z_num 254 ltac:(lia)) as [N1 E1]. destruct (of_Z_num 0 ltac:(lia)) as [N0 E0].
  destruct (fmin_num _ _ Nr N1) as [Nm Em]. destruct (fmax_num _ _ Nm N0) as [[Vx Nx] Ex].
  rewrite f_to_int_xr by (assumption || lia). rewrite Ex, Em, Er, E1, E0.
  assert (Q : Rmax (Rmin (IZR (Zround (xr x))) 254) 0 = IZR (Z.max 0 (Z.min 254 (Zround (xr x))))).
  { destruct (Z_le_gt_dec (Zround (xr x)) 254) as [A|A].
    - rewrite Rmin_left by (apply IZR_le; exact A). rewrite Z.min_r by lia. destruct (Z_le_gt_dec 0 (Zround (xr x))) as [B|B].
      + rewrite Rmax_left by (apply IZR_le; exact B). rewrite Z.max_r by lia. reflexivity.
      + rewrite Rmax_right by (apply IZR_le; lia). rewrite Z.max_l by lia. reflexivity.
    - rewrite Rmin_right by (apply IZR_le; lia). rewrite Rmax_left by lra. rewrite Z.min_l by lia. reflexivity. }
  rewrite Q, Ztrunc_IZR. lia.
Qed.
Lemma within_lipschitz lo hi a b d : (lo <= hi)%R -> (Rabs (a - b) <= d)%R -> (Rabs (within lo hi a - within lo hi b) <= d)%R.
Proof. intros H D. apply Rabs_le_inv in D. apply Rabs_le. unfold within, Rmax, Rmin. repeat destruct (Rle_dec _ _); lra. Qed.
Lemma nearest_near lo hi r t d : lo <= hi -> (Rabs (within (IZR lo) (IZR hi) r - within (IZR lo) (IZR hi) t) <= d)%R ->
  (Rabs (IZR (Z.max lo (Z.min hi (Zround r))) - within (IZR lo) (IZR hi) t) <= / 2 + d)%R.
Proof.
  intros H D. rewrite <- (Zround_clamp lo hi) by exact H. fold (within (IZR lo) (IZR hi) r).
  pose proof (Zround_nearest (within (IZR lo) (IZR hi) r)) as N. apply Rabs_le_inv in N, D. apply Rabs_le. lra.
Qed.
Lemma within_hi lo hi a : (lo <= hi)%R -> (hi <= a)%R -> within lo hi a = hi.
Proof. intros H D. unfold within. rewrite Rmin_left, Rmax_right by lra. reflexivity. Qed.
Lemma within_lo lo hi a : (lo <= hi)%R -> (a <= lo)%R -> within lo hi a = lo.
Proof. intros H D. unfold within. rewrite Rmin_right, Rmax_left by lra. reflexivity. Qed.
Lemma within_shift lo hi a c : within (lo + c) (hi + c) (a + c) = (within lo hi a + c)%R.
Proof. unfold within, Rmax, Rmin. repeat destruct (Rle_dec _ _); lra. Qed.
Lemma within_scale lo hi a c : (0 < c)%R -> within (lo / c) (hi / c) (a / c) = (within lo hi a / c)%R.
Proof.
  intro P. pose proof (Rinv_0_lt_compat c P) as I. unfold within, Rdiv. unfold Rmax, Rmin. repeat destruct (Rle_dec _ _); try reflexivity; exfalso; nra.
Qed.
(** A float and an exact number that agree up to [d] as far as the range from [lo] to [hi] is concerned. *)
Definition close (lo hi : R) (x : f32) (t d : R) : Prop := (Rabs (within lo hi (xr x) - within lo hi t) <= d)%R.
Lemma tiny : (0 < bpow radix2 (-150) <= / 16777216)%R.
Proof. split; [apply bpow_gt_0|]. apply Rle_trans with (bpow radix2 (-24)); [apply bpow_le; lia|cbn; lra]. Qed.
Lemma rounds_close x t lo hi m : 0 < m <= 2 ^ 20 -> - m <= lo <= hi -> hi <= m -> rounds_to x t -> close (IZR lo) (IZR hi) x t (IZR (m + 1) * / 16777216).
Proof.
  intros Hm Hl Hh R. pose proof tiny as Ty. unfold close. rewrite plus_IZR.
  assert (Bm : (0 < IZR m <= IZR (2 ^ 20))%R) by (split; [apply IZR_lt|apply IZR_le]; lia).
  assert (Bl : (- IZR m <= IZR lo <= IZR hi)%R) by (rewrite <- opp_IZR; split; apply IZR_le; lia). assert (Bh : (IZR hi <= IZR m)%R) by (apply IZR_le; lia).
  assert (B127 : (IZR (2 ^ 20) <= bpow radix2 127)%R) by (change (IZR (2 ^ 20)) with (bpow radix2 20); apply bpow_le; lia).
  assert (Bb : (bpow radix2 127 < big)%R) by (apply bpow_lt; lia).
  assert (G : forall z, z = m \/ z = - m -> sat (rnd (IZR z)) = IZR z).
  { intros z Z0. rewrite rnd_gen by (apply gen_Z; lia). apply sat_id. rewrite <- abs_IZR. replace (Z.abs z) with m by lia. lra. }
  destruct (Rle_or_lt (IZR m) t) as [P|P].
  - assert (Q : (IZR m <= xr x)%R) by (destruct R as (_ & _ & ->); rewrite <- (G m (or_introl eq_refl)) at 1; apply sat_mono, rnd_mono, P).
    rewrite (within_hi _ _ t), (within_hi _ _ (xr x)) by lra. rewrite Rminus_diag_eq, Rabs_R0 by reflexivity. lra.
  - destruct (Rle_or_lt t (- IZR m)) as [Q|Q].
    + assert (S0 : (xr x <= - IZR m)%R) by (destruct R as (_ & _ & ->); rewrite <- opp_IZR, <- (G (- m) (or_intror eq_refl)) at 1; apply sat_mono, rnd_mono; rewrite opp_IZR; exact Q).
      rewrite (within_lo _ _ t), (within_lo _ _ (xr x)) by lra. rewrite Rminus_diag_eq, Rabs_R0 by reflexivity. lra.
    + assert (T : (Rabs t <= IZR m)%R) by (apply Rabs_le; lra). apply within_lipschitz; [lra|].
      destruct (rounds_err x t R) as [_ E]; [apply rnd_lt_big; lra|]. rewrite ulp_half_val in E. lra.
Qed.
Lemma close_trans lo hi x t t' d d' : close lo hi x t d -> (Rabs (within lo hi t - within lo hi t') <= d')%R -> close lo hi x t' (d + d').
Proof. unfold close. intros A B. apply Rabs_le_inv in A, B. apply Rabs_le. lra. Qed.
Lemma add_close z c lo hi m : num z -> Z.abs c <= 2 ^ 20 -> 0 < m <= 2 ^ 20 -> - m <= lo <= hi -> hi <= m ->
  num (fadd z (f32_of_Z c)) /\ close (IZR lo) (IZR hi) (fadd z (f32_of_Z c)) (xr z + IZR c) (IZR (m + 1) * / 16777216).
Proof.
  intros N Hc Hm Hl Hh. destruct (fin_Z c ltac:(lia)) as [F E]. destruct (add_cases z _ N F) as [[_ R]|[Fz Q]].
  - rewrite E in R. split; [exact (rounds_num _ _ R)|]. apply rounds_close; [exact Hm|exact Hl|exact Hh|exact R].
  - rewrite Q. split; [exact N|]. unfold close.
    assert (Bc : (- IZR (2 ^ 20) <= IZR c <= IZR (2 ^ 20))%R) by (rewrite <- opp_IZR; split; apply IZR_le; lia).
    assert (Bl : (- IZR (2 ^ 20) <= IZR lo <= IZR hi)%R) by (rewrite <- opp_IZR; split; apply IZR_le; lia). assert (Bh : (IZR hi <= IZR (2 ^ 20))%R) by (apply IZR_le; lia).
    assert (Bb : (2 * IZR (2 ^ 20) < big)%R) by (pose proof big_gt as G; eapply Rlt_trans; [|exact G]; rewrite <- mult_IZR; apply IZR_lt; lia).
    assert (0 <= IZR (m + 1))%R by (apply IZR_le; lia).
    destruct (inf_xr z N Fz) as [->| ->]; [rewrite !within_hi by lra|rewrite !within_lo by lra]; rewrite Rminus_diag_eq, Rabs_R0 by reflexivity; lra.
Qed.
Lemma div_close z c lo hi m : num z -> 0 < c <= 2 ^ 20 -> 0 < m <= 2 ^ 20 -> - m <= lo <= hi -> hi <= m ->
  num (fdiv z (f32_of_Z c)) /\ close (IZR lo) (IZR hi) (fdiv z (f32_of_Z c)) (xr z / IZR c) (IZR (m + 1) * / 16777216).
Proof.
  intros N Hc Hm Hl Hh. destruct (fin_Z c ltac:(lia)) as [F E]. assert (Pc : (0 < IZR c <= IZR (2 ^ 20))%R) by (split; [apply IZR_lt|apply IZR_le]; lia).
  destruct (div_cases z _ N F ltac:(rewrite E; lra)) as [[_ R]|[Fz Q]].
  - rewrite E in R. split; [exact (rounds_num _ _ R)|]. apply rounds_close; [exact Hm|exact Hl|exact Hh|exact R].
  - rewrite Q. split; [exact N|]. unfold close.
    assert (Bl : (- IZR (2 ^ 20) <= IZR lo <= IZR hi)%R) by (rewrite <- opp_IZR; split; apply IZR_le; lia). assert (Bh : (IZR hi <= IZR (2 ^ 20))%R) by (apply IZR_le; lia).
    assert (Bb : (IZR (2 ^ 20) * IZR (2 ^ 20) < big)%R) by (pose proof big_gt as G; eapply Rlt_trans; [|exact G]; rewrite <- mult_IZR; apply IZR_lt; lia).
    assert (0 <= IZR (m + 1))%R by (apply IZR_le; lia).
    assert (Bd : (IZR (2 ^ 20) <= big / IZR c)%R).
    { apply Rmult_le_reg_r with (IZR c); [lra|]. unfold Rdiv. rewrite Rmult_assoc, Rinv_l, Rmult_1_r by lra. assert (0 < IZR (2 ^ 20))%R by lra. nra. }
    assert (B1 : (IZR (2 ^ 20) <= big)%R). { assert (1 <= IZR (2 ^ 20))%R by (apply IZR_le; lia). nra. }
    assert (Bn : (- big / IZR c = - (big / IZR c))%R) by (field; lra).
    destruct (inf_xr z N Fz) as [->| ->]; [rewrite !within_hi by lra|rewrite Bn, !within_lo by lra]; rewrite Rminus_diag_eq, Rabs_R0 by reflexivity; lra.
Qed.
Lemma speed_close v : num v -> num (fadd (mps_to_knots v) (f32_of_Z 128)) /\
  close 0 254 (fadd (mps_to_knots v) (f32_of_Z 128)) (in_knots v + 128) (/ 16384).
Proof.
  intro N. pose proof (knots_rounds v N) as R. pose proof (rounds_num _ _ R) as Nk.
  pose proof (rounds_close _ _ (-128) 126 128 ltac:(lia) ltac:(lia) ltac:(lia) R) as C1.
  destruct (add_close _ 128 0 254 254 Nk ltac:(lia) ltac:(lia) ltac:(lia) ltac:(lia)) as [Ns C2]. split; [exact Ns|].
  assert (C3 : close 0 254 (fadd (mps_to_knots v) (f32_of_Z 128)) (in_knots v + 128) (IZR (254 + 1) * / 16777216 + IZR (128 + 1) * / 16777216)).
  { apply (close_trans _ _ _ _ _ _ _ C2). unfold close in C1. replace 0%R with (-128 + 128)%R by ring. replace 254%R with (126 + 128)%R by ring.
    rewrite !within_shift. replace (within (-128) 126 (xr (mps_to_knots v)) + 128 - (within (-128) 126 (in_knots v) + 128))%R with (within (-128) 126 (xr (mps_to_knots v)) - within (-128) 126 (in_knots v))%R by ring. exact C1. }
  unfold close in *. eapply Rle_trans; [exact C3|]. cbn [Z.add Pos.add Pos.succ Pos.add_carry]. lra.
Qed.
Lemma gust_close v : num v -> num (mps_to_knots v) /\ close 0 254 (mps_to_knots v) (in_knots v) (/ 16384).
Proof.
  intro N. pose proof (knots_rounds v N) as R. split; [exact (rounds_num _ _ R)|].
  pose proof (rounds_close _ _ 0 254 254 ltac:(lia) ltac:(lia) ltac:(lia) R) as C. unfold close in *. eapply Rle_trans; [exact C|]. cbn [Z.add Pos.add Pos.succ Pos.add_carry]. lra.
Qed.
Lemma c43_component_proof : forall v, num v -> (Rabs (IZR (speed_byte v) - within 0 254 (in_knots v + 128)) <= / 2 + / 16384)%R.
Proof. intros v N. destruct (speed_close v N) as [Ns C]. unfold speed_byte. rewrite clamp_byte_round by exact Ns. apply (nearest_near 0 254); [lia|exact C]. Qed.
Lemma c43_gust_proof : forall v, num v -> (Rabs (IZR (gust_byte (Some v)) - within 0 254 (in_knots v)) <= / 2 + / 16384)%R.
Proof. intros v N. destruct (gust_close v N) as [Ns C]. unfold gust_byte. rewrite clamp_byte_round by exact Ns. apply (nearest_near 0 254); [lia|exact C]. Qed.
Lemma speed_byte_range v : f32_valid v -> 0 <= speed_byte v <= 254.
Proof.
  intro V. destruct (nan_cases v V) as [->|N]; [vm_compute; split; discriminate|]. destruct (speed_close v N) as [Ns _]. unfold speed_byte. rewrite clamp_byte_round by exact Ns. lia.
Qed.
Lemma gust_byte_range v : f32_valid v -> 0 <= gust_byte (Some v) <= 254.
Proof.
  intro V. destruct (nan_cases v V) as [->|N]; [vm_compute; split; discriminate|]. destruct (gust_close v N) as [Ns _]. unfold gust_byte. rewrite clamp_byte_round by exact Ns. lia.
Qed.
Lemma c43_monotone_proof : forall v v', num v -> num v' -> (xr v <= xr v')%R ->
  speed_byte v <= speed_byte v' /\ gust_byte (Some v) <= gust_byte (Some v').
Proof.
  intros v v' N N' L. destruct (speed_close v N) as [Ns _]. destruct (speed_close v' N') as [Ns' _]. destruct (gust_close v N) as [Nk _]. destruct (gust_close v' N') as [Nk' _].
  assert (K : (xr (mps_to_knots v) <= xr (mps_to_knots v'))%R) by (apply c56_monotone_proof; [cbn; tauto|assumption..]).
  unfold speed_byte, gust_byte. rewrite !clamp_byte_round by assumption. pose proof (Zround_le _ _ K).
  assert (A : (xr (fadd (mps_to_knots v) (f32_of_Z 128)) <= xr (fadd (mps_to_knots v') (f32_of_Z 128)))%R) by (apply add_mono; [assumption|assumption|apply fin_Z; lia|exact K]).
  pose proof (Zround_le _ _ A). lia.
Qed.
Lemma c43_missing_proof : forall e_n gust,
  (forall e n, e_n = Some (e, n) -> f32_valid e /\ f32_valid n) -> (forall g, gust = Some g -> f32_valid g) ->
  length (wind_bytes e_n gust) = 3%nat /\
  (e_n = None -> wind_bytes e_n gust = [255; 255; 255]) /\
  (forall e n, e_n = Some (e, n) -> exists be bn bg, wind_bytes e_n gust = [be; bn; bg] /\
     0 <= be <= 254 /\ 0 <= bn <= 254 /\ (gust = None /\ bg = 255 \/ gust <> None /\ 0 <= bg <= 254)).
Proof.
  intros [[e n]|] gust V Vg; (split; [reflexivity|]); split; intros.
  - discriminate.
  - injection H as <- <-. destruct (V _ _ eq_refl). do 3 eexists. split; [reflexivity|]. split; [apply speed_byte_range; assumption|]. split; [apply speed_byte_range; assumption|].
    destruct gust as [g|]; [right|left]; (split; [congruence|]); [apply gust_byte_range, Vg|]; reflexivity.
  - reflexivity.
  - discriminate.
Qed.

(** ** C44 *)
Lemma c44_significant_proof : forall w cover, 4 < weather_to_value w -> ww_byte (Some w) cover = weather_to_value w.
Proof. intros w cover H. unfold ww_byte. destruct (Z.ltb_spec 4 (weather_to_value w)); [reflexivity|lia]. Qed.
Lemma c44_sky_proof : forall ww cover, (forall w, ww = Some w -> weather_to_value w <= 4) -> num cover -> sky_code (xr cover) (ww_byte ww (Some cover)).
Proof.
  intros ww cover H N.
  assert (E : ww_byte ww (Some cover) = ww_byte_from_clct (Some cover)).
  { unfold ww_byte. destruct ww as [w|]; [|reflexivity]. specialize (H w eq_refl). destruct (Z.ltb_spec 4 (weather_to_value w)); [lia|reflexivity]. }
  rewrite E. unfold ww_byte_from_clct, weather_from_clct.
  set (a := fdiv (f32_lit 625 100) (f32_of_Z 100)). set (b := fdiv (f32_lit 4375 100) (f32_of_Z 100)). set (c := fdiv (f32_lit 8125 100) (f32_of_Z 100)).
  assert (Na : num a /\ xr a = (6.25 / 100)%R).
  { assert (a = S754_finite false 8388608 (-27)) as -> by (vm_compute; reflexivity). split; [split; vm_compute; reflexivity|]. rewrite xr_F2R, F2R_neg_exp by lia. cbn. lra. }
  assert (Nb : num b /\ xr b = (43.75 / 100)%R).
  { assert (b = S754_finite false 14680064 (-25)) as -> by (vm_compute; reflexivity). split; [split; vm_compute; reflexivity|]. rewrite xr_F2R, F2R_neg_exp by lia. cbn. lra. }
  assert (Nc : num c /\ xr c = (81.25 / 100)%R).
  { assert (c = S754_finite false 13631488 (-24)) as -> by (vm_compute; reflexivity). split; [split; vm_compute; reflexivity|]. rewrite xr_F2R, F2R_neg_exp by lia. cbn. lra. }
  clearbody a b c. destruct Na as [Na Ea], Nb as [Nb Eb], Nc as [Nc Ec]. unfold sky_code.
  pose proof (fle_num cover a N Na) as La. pose proof (fle_num cover b N Nb) as Lb. pose proof (fle_num cover c N Nc) as Lc. rewrite Ea in La. rewrite Eb in Lb. rewrite Ec in Lc.
  destruct (fle cover a); [left; split; [apply La|]; reflexivity|]. assert (~ (xr cover <= 6.25 / 100)%R) by (intro Q; apply La in Q; discriminate).
  destruct (fle cover b); [right; left; split; [split; [lra|apply Lb; reflexivity]|reflexivity]|]. assert (~ (xr cover <= 43.75 / 100)%R) by (intro Q; apply Lb in Q; discriminate).
  destruct (fle cover c); [right; right; left; split; [split; [lra|apply Lc; reflexivity]|reflexivity]|]. assert (~ (xr cover <= 81.25 / 100)%R) by (intro Q; apply Lc in Q; discriminate).
  right; right; right. split; [lra|reflexivity].
Qed.
Lemma c44_none_proof : forall ww, (forall w, ww = Some w -> weather_to_value w <= 4) -> ww_byte ww None = 255.
Proof. intros [w|] H; [|reflexivity]. specialize (H w eq_refl). unfold ww_byte. destruct (Z.ltb_spec 4 (weather_to_value w)); [lia|reflexivity]. Qed.
Lemma c44_never_missing_proof : forall ww cover, ww_byte ww (Some cover) <> 255.
Proof.
  intros ww cover. assert (A : forall w, weather_to_value w <> 255) by (intros []; discriminate).
  assert (B : ww_byte_from_clct (Some cover) <> 255) by (unfold ww_byte_from_clct, weather_from_clct; apply A).
  unfold ww_byte. destruct ww as [w|]; [|exact B]. destruct (4 <? _); [apply A|exact B].
Qed.
Lemma units_close m : num m -> num (fdiv (meters_to_feet m) (f32_of_Z 200)) /\ close 0 255 (fdiv (meters_to_feet m) (f32_of_Z 200)) (in_feet m / 200) (/ 16384).
Proof.
  intro N. pose proof (feet_rounds m N) as R. pose proof (rounds_num _ _ R) as Nk.
  pose proof (rounds_close _ _ 0 51000 51000 ltac:(lia) ltac:(lia) ltac:(lia) R) as C1.
  destruct (div_close _ 200 0 255 255 Nk ltac:(lia) ltac:(lia) ltac:(lia) ltac:(lia)) as [Ns C2]. split; [exact Ns|].
  assert (C3 : close 0 255 (fdiv (meters_to_feet m) (f32_of_Z 200)) (in_feet m / 200) (IZR (255 + 1) * / 16777216 + (IZR (51000 + 1) * / 16777216) / 200)).
  { apply (close_trans _ _ _ _ _ _ _ C2). unfold close in C1. replace 0%R with (0 / 200)%R by lra. replace 255%R with (51000 / 200)%R by lra.
    rewrite !within_scale by lra. apply Rabs_le_inv in C1. apply Rabs_le. lra. }
  unfold close in *. eapply Rle_trans; [exact C3|]. cbn [Z.add Pos.add Pos.succ Pos.add_carry]. lra.
Qed.
Lemma ceiling_byte_spec m : num m -> ceiling_byte (Some m) = Z.max 0 (Z.min 255 (Zround (xr (fdiv (meters_to_feet m) (f32_of_Z 200))))).
Proof.
  intro N. destruct (units_close m N) as [Nu _]. unfold ceiling_byte, ceiling_units. destruct (fround_num _ Nu) as [Nr Er].
  destruct (of_Z_num 255 ltac:(lia)) as [N5 E5]. change (fge ?a ?b) with (fle b a). pose proof (fle_num _ _ N5 Nr) as F. rewrite E5, Er in F.
  destruct (fle _ _).
  - pose proof (proj1 F eq_refl) as Q. apply le_IZR in Q. unfold NONE_BIN_VALUE. lia.
  - assert (Q : Zround (xr (fdiv (meters_to_feet m) (f32_of_Z 200))) < 255). { apply Z.nle_gt. intro Q. apply IZR_le in Q. apply F in Q. discriminate. }
    rewrite clamp_byte_round by exact Nu. lia.
Qed.
Lemma c44_ceiling_proof : forall m, num m -> (Rabs (IZR (ceiling_byte (Some m)) - within 0 255 (in_feet m / 200)) <= / 2 + / 16384)%R.
Proof. intros m N. destruct (units_close m N) as [_ C]. rewrite ceiling_byte_spec by exact N. apply (nearest_near 0 255); [lia|exact C]. Qed.
Lemma c44_ceiling_missing_proof : forall v, (forall m, v = Some m -> f32_valid m) ->
  (ceiling_byte v = 255 <-> v = None \/ exists m, v = Some m /\ num m /\ (254.5 <= xr (fdiv (meters_to_feet m) (f32_of_Z 200)))%R).
Proof.
  intros [m|] V; [|split; [left|]; reflexivity]. destruct (nan_cases m (V m eq_refl)) as [->|N].
  - split; [intro Q; vm_compute in Q; discriminate|]. intros [Q|(m & E & N & _)]; [discriminate|]. injection E as <-. destruct N. discriminate.
  - rewrite ceiling_byte_spec by exact N. pose proof (Zround_ge 255 (xr (fdiv (meters_to_feet m) (f32_of_Z 200))) ltac:(lia)) as G. split.
    + intro Q. right. exists m. split; [reflexivity|]. split; [exact N|]. assert (Q' : 255 <= Zround (xr (fdiv (meters_to_feet m) (f32_of_Z 200)))) by lia. apply G in Q'. lra.
    + intros [Q|(m' & E & _ & Q)]; [discriminate|]. injection E as <-. assert (Q' : 255 <= Zround (xr (fdiv (meters_to_feet m) (f32_of_Z 200)))) by (apply G; lra). lia.
Qed.
Lemma c44_ceiling_monotone_proof : forall m m', num m -> num m' -> (xr m <= xr m')%R -> ceiling_byte (Some m) <= ceiling_byte (Some m').
Proof.
  intros m m' N N' L. rewrite !ceiling_byte_spec by assumption.
  assert (K : (xr (meters_to_feet m) <= xr (meters_to_feet m'))%R) by (apply c56_monotone_proof; [cbn; tauto|assumption..]).
  pose proof (rounds_num _ _ (feet_rounds m N)) as Nk. pose proof (rounds_num _ _ (feet_rounds m' N')) as Nk'. destruct (fin_Z 200 ltac:(lia)) as [F2 E2].
  pose proof (Zround_le _ _ (div_mono _ _ (f32_of_Z 200) Nk Nk' F2 ltac:(rewrite E2; lra) K)). lia.
Qed.

(** ** C45 *)
Lemma c45_to_from_proof : forall w, weather_from_value (weather_to_value w) = Ok w /\ In (weather_to_value w) wmo_codes.
Proof. intros []; (split; [reflexivity|cbn; tauto]). Qed.
Lemma c45_from_to_proof : forall v w, weather_from_value v = Ok w -> weather_to_value w = v.
Proof. intros v w E. destruct (from_value_cases v) as [[Q _]|(u & Q & T & _)]; congruence. Qed.
Lemma c45_table_proof : forall v w, (weather_from_value v = Ok w <-> In (v, w) wmo_table) /\ (weather_to_value w = v <-> In (v, w) wmo_table).
Proof.
  intros v w. assert (T : weather_to_value w = v <-> In (v, w) wmo_table).
  { split.
    - intros <-. destruct w; cbn; repeat (try (left; reflexivity); right).
    - intro J. cbn in J. repeat (destruct J as [J|J]; [injection J as <- <-; reflexivity|]). destruct J. }
  split; [|exact T]. rewrite <- T. split; [apply c45_from_to_proof|]. intros <-. apply c45_to_from_proof.
Qed.
Lemma c45_domain_proof : forall v, In v wmo_codes /\ (exists w, weather_from_value v = Ok w) \/ ~ In v wmo_codes /\ weather_from_value v = Panic.
Proof. intros v. destruct (from_value_cases v) as [[Q J]|(u & Q & T & J)]; [right|left]; eauto. Qed.
Lemma c45_abort_proof : forall l w h g x y v, dims (we_clct l) = (w, h) -> 0 <= w -> 0 <= h -> complete (we_clct l) -> complete (we_ceiling l) ->
  we_ww l = Some g -> 0 <= x < w -> 0 <= y < h -> value_by_xy f32_type g x y = Ok (Some v) -> ~ In (f_to_u8 v) wmo_codes -> weather_bin l = Panic.
Proof.
  intros l w h g x y v D W H C0 C1 G X Y E J. pose proof (c40_weather_proof l w h D W H C0 C1) as P. destruct (weather_bin l) as [data|e|]; [|destruct P|reflexivity].
  destruct P as [_ P]. destruct (P x y X Y) as (ww & clct & ceiling & Q & _). unfold ww_by_xy in Q. rewrite G, E in Q. cbn [obind] in Q.
  destruct (c45_domain_proof (f_to_u8 v)) as [[K _]|[_ K]]; [contradiction|]. rewrite K in Q. discriminate.
Qed.

(** ** C57 *)
Lemma u_v_speed v : u_v_transform v = speed_byte v.
Proof. reflexivity. Qed.
Lemma c57_wind_proof : forall v, num v -> (Rabs (IZR (u_v_transform v) - within 0 254 (in_knots v + 128)) <= / 2 + / 16384)%R.
Proof. exact c43_component_proof. Qed.
Lemma u8_trunc x : num x -> f_to_u8 x = Zfloor (within 0 255 (xr x)).
Proof.
  intros [V N]. unfold f_to_u8. rewrite f_to_int_xr by (assumption || lia). unfold within.
  assert (A : (0 <= Rmax 0 (Rmin 255 (xr x)))%R) by apply Rmax_l. rewrite <- Ztrunc_floor by exact A.
  destruct (Rle_or_lt (xr x) 0) as [P|P].
  - rewrite Rmin_right, Rmax_left by lra. change 0%R with (IZR 0) at 1. rewrite (Ztrunc_IZR 0). rewrite Ztrunc_ceil by exact P. assert (Zceil (xr x) <= 0) by (apply Zceil_glb; exact P). lia.
  - destruct (Rle_or_lt 255 (xr x)) as [Q|Q].
    + rewrite Rmin_left, Rmax_right by lra. rewrite (Ztrunc_IZR 255). rewrite Ztrunc_floor by lra. assert (255 <= Zfloor (xr x)) by (apply Zfloor_lub; exact Q). lia.
    + rewrite Rmin_right, Rmax_right by lra. rewrite !Ztrunc_floor by lra. assert (0 <= Zfloor (xr x)) by (apply Zfloor_lub; lra).
      assert (Zfloor (xr x) < 255) by (apply lt_IZR; eapply Rle_lt_trans; [apply Zfloor_lb|exact Q]). lia.
Qed.
Lemma c57_cover_proof : forall v, num v -> clc_transform v = floor_within (xr v).
Proof.
  intros v N. unfold clc_transform, floor_within. destruct N as [V Nn]. unfold f_to_u8. rewrite f_to_int_xr by (assumption || lia).
  destruct (Rle_or_lt 0 (xr v)) as [P|P]; [rewrite Ztrunc_floor by exact P; reflexivity|].
  rewrite Ztrunc_ceil by lra. assert (Zceil (xr v) <= 0) by (apply Zceil_glb; lra). assert (Zfloor (xr v) <= 0) by (pose proof (Zfloor_lb (xr v)); apply le_IZR; lra). lia.
Qed.
Lemma floor_near r t d : (Rabs (r - t) <= d)%R -> (IZR (Zfloor r) - d <= t < IZR (Zfloor r) + 1 + d)%R.
Proof. intro H. apply Rabs_le_inv in H. pose proof (Zfloor_lb r). pose proof (Zfloor_ub r). lra. Qed.
Lemma hundreds_close m : num m -> num (fdiv (meters_to_feet m) (f32_of_Z 100)) /\ close 0 255 (fdiv (meters_to_feet m) (f32_of_Z 100)) (in_feet m / 100) (/ 16384).
Proof.
  intro N. pose proof (feet_rounds m N) as R. pose proof (rounds_num _ _ R) as Nk.
  pose proof (rounds_close _ _ 0 25500 25500 ltac:(lia) ltac:(lia) ltac:(lia) R) as C1.
  destruct (div_close _ 100 0 255 255 Nk ltac:(lia) ltac:(lia) ltac:(lia) ltac:(lia)) as [Ns C2]. split; [exact Ns|].
  assert (C3 : close 0 255 (fdiv (meters_to_feet m) (f32_of_Z 100)) (in_feet m / 100) (IZR (255 + 1) * / 16777216 + (IZR (25500 + 1) * / 16777216) / 100)).
  { apply (close_trans _ _ _ _ _ _ _ C2). unfold close in C1. replace 0%R with (0 / 100)%R by lra. replace 255%R with (25500 / 100)%R by lra.
    rewrite !within_scale by lra. apply Rabs_le_inv in C1. apply Rabs_le. lra. }
  unfold close in *. eapply Rle_trans; [exact C3|]. cbn [Z.add Pos.add Pos.succ Pos.add_carry]. lra.
Qed.
Lemma c57_height_proof : forall m, num m ->
  (IZR (hhl_transform m) - / 16384 <= within 0 255 (in_feet m / 100) < IZR (hhl_transform m) + 1 + / 16384)%R.
Proof. intros m N. destruct (hundreds_close m N) as [Nq C]. unfold hhl_transform. rewrite u8_trunc by exact Nq. apply floor_near. exact C. Qed.
(** A document read with a transformation and a missing value, in terms of its plain values. *)
Lemma loop_map {T} ref c1 c2 (m : T) (f : f32 -> T) bitmap raw n : forall i j,
  data_points_loop ref c1 c2 m f bitmap raw n i j =
  omap (map (fun o => match o with Some v => f v | None => m end)) (data_points_loop ref c1 c2 None Some bitmap raw n i j).
Proof.
  induction n as [|n IH]; intros i j; [reflexivity|]. cbn [data_points_loop].
  set (present := match bitmap with [] => _ | _ :: _ => _ end). destruct present as [p|e|]; cbn [obind]; try reflexivity. destruct p.
  - destruct (nth_error raw (Z.to_nat j)) as [r|]; [|reflexivity]. rewrite IH. destruct (data_points_loop _ _ _ None _ _ _ _ _ _); reflexivity.
  - rewrite IH. destruct (data_points_loop _ _ _ None _ _ _ _ _ _); reflexivity.
Qed.
Lemma points_map {T} powi d (m : T) (f : f32 -> T) :
  calculate_data_points powi d m f = omap (map (fun o => match o with Some v => f v | None => m end)) (calculate_data_points powi d None Some).
Proof.
  unfold calculate_data_points. destruct (s5_template (d_s5 d)) as [t|]; [|reflexivity]. destruct (s7_data (d_s7 d)) as [|r raw]; [|apply loop_map].
  cbn [omap]. f_equal. induction (Z.to_nat _) as [|n IH]; [reflexivity|]. cbn [repeat map]. rewrite <- IH. reflexivity.
Qed.
Lemma index_xy_at g w h x y : g_w g = w -> g_h g = h -> 0 <= x < w -> 0 <= y < h -> index_by_xy g x y = Some (y * w + x).
Proof.
  intros <- <- X Y. unfold index_by_xy. destruct (Z.leb_spec (g_w g) x); [lia|]. destruct (Z.leb_spec (g_h g) y); [lia|]. cbn [orb]. f_equal. lia.
Qed.
Lemma level_stored powi d m f (g : bgrid) w h pts x y :
  regular_create_and_transform powi d m f = Ok g -> dims g = (w, h) -> calculate_data_points powi d None Some = Ok pts ->
  0 <= x < w -> 0 <= y < h -> Z.of_nat (length pts) = w * h ->
  complete g /\ exists raw, nth_error pts (Z.to_nat (y * w + x)) = Some raw /\ value_by_xy u8_type g x y = Ok (stored m f raw).
Proof.
  intros R D P X Y L. unfold regular_create_and_transform in R. rewrite points_map, P in R. cbn [omap obind] in R.
  destruct (dimensions_and_extent d) as [[[w' h'] e]|e|]; cbn [omap] in R; [|discriminate..]. injection R as <-. unfold dims in D. injection D as Dw Dh.
  split; [unfold complete, dims; rewrite Dw, Dh; cbn [vg_values value_grid_new fst snd]; rewrite map_length, L; apply Z.le_refl|].
  destruct (nth_error pts (Z.to_nat (y * w + x))) as [raw|] eqn:N; [|apply nth_error_None in N; nia]. exists raw. split; [reflexivity|].
  unfold value_by_xy. cbn [vg_grid value_grid_new]. rewrite (index_xy_at (grid_new w' h' e) w h x y Dw Dh X Y). cbn [vg_values value_grid_new vg_missing]. unfold index_vec. rewrite nth_error_map, N. cbn [option_map omap].
  unfold stored. destruct raw as [v|]; cbn [u8_type v_eqb]; [destruct (f v =? m); reflexivity|rewrite Z.eqb_refl; reflexivity].
Qed.
Lemma Forall2_len {A B} (P : A -> B -> Prop) l l' : Forall2 P l l' -> length l = length l'.
Proof. induction 1; cbn; congruence. Qed.
Lemma Forall2_nth' {A B} (P : A -> B -> Prop) l l' n a b : Forall2 P l l' -> nth_error l n = Some a -> nth_error l' n = Some b -> P a b.
Proof.
  intro F. revert n. induction F as [|a0 b0 l l' H F IH]; intros [|n]; cbn [nth_error]; intros E E'; try discriminate; [congruence|exact (IH n E E')].
Qed.
Lemma levels_stored powi m f w h docs grids raws x y level :
  levels_of (fun d => regular_create_and_transform powi d m f) (fun d => calculate_data_points powi d None Some) w h docs grids raws ->
  0 <= x < w -> 0 <= y < h -> 0 <= level < Z.of_nat (length grids) ->
  level_value grids x y level = Ok (stored m f (raw_at raws w x y level)).
Proof.
  intros [A B] X Y L. pose proof (Forall2_len _ _ _ A) as La. pose proof (Forall2_len _ _ _ B) as Lb. unfold level_value, index_vec, bgrid.
  destruct (nth_error grids (Z.to_nat level)) as [g|] eqn:Eg; [|apply nth_error_None in Eg; lia].
  destruct (nth_error docs (Z.to_nat level)) as [d|] eqn:Ed; [|apply nth_error_None in Ed; lia].
  destruct (nth_error raws (Z.to_nat level)) as [raw|] eqn:Er; [|apply nth_error_None in Er; lia].
  destruct (Forall2_nth' _ _ _ _ _ _ A Ed Eg) as [R D]. destruct (Forall2_nth' _ _ _ _ _ _ B Ed Er) as [P S0]. cbn [obind].
  destruct (level_stored powi d m f g w h raw x y R D P X Y S0) as [_ (v & N & V)]. refine (eq_trans V _). unfold raw_at.
  rewrite (nth_error_nth _ _ _ Er), (nth_error_nth _ _ _ N). reflexivity.
Qed.
Lemma levels_complete powi m f w h docs grids raws :
  levels_of (fun d => regular_create_and_transform powi d m f) (fun d => calculate_data_points powi d None Some) w h docs grids raws -> Forall complete grids.
Proof.
  intros [A B]. revert raws B. induction A as [|d g docs grids [R D] A IH]; intros raws B; constructor.
  - inversion B as [|d' raw docs' raws' [P S0] B' Q1 Q2]. subst. unfold regular_create_and_transform in R. rewrite points_map, P in R. cbn [omap obind] in R.
    destruct (dimensions_and_extent d) as [[[w' h'] e]|e|]; cbn [omap] in R; [|discriminate..]. injection R as <-. unfold complete. rewrite D. cbn [vg_values value_grid_new fst snd]. rewrite map_length, S0. apply Z.le_refl.
  - inversion B. subst. eapply IH. eassumption.
Qed.
Lemma levels_dims powi m f w h docs grids raws g :
  levels_of (fun d => regular_create_and_transform powi d m f) (fun d => calculate_data_points powi d None Some) w h docs grids raws -> hd_error grids = Some g -> dims g = (w, h).
Proof. intros [A _] E. destruct A as [|d g' docs grids [_ D] A]; [discriminate|]. injection E as <-. exact D. Qed.
Lemma levels_len read pts w h docs grids raws : levels_of read pts w h docs grids raws -> length grids = length docs.
Proof. intros [A _]. symmetry. exact (Forall2_len _ _ _ A). Qed.
Lemma cloud_new_ok (hhl clc : list bgrid) : length hhl = length clc -> length hhl <> 0%nat -> exists l, vertical_cloud_new hhl clc = Ok l.
Proof.
  intros E N. unfold vertical_cloud_new, len. rewrite <- E, Z.eqb_refl. destruct (Z.eqb_spec (Z.of_nat (length hhl)) 0); [lia|]. eexists. reflexivity.
Qed.
Lemma wind_new_ok (hhl u v : list bgrid) : length hhl = length u -> length hhl = length v -> length hhl <> 0%nat -> exists l, vertical_wind_new hhl u v = Ok l.
Proof.
  intros E E' N. unfold vertical_wind_new, len. rewrite <- E, <- E', Z.eqb_refl. destruct (Z.eqb_spec (Z.of_nat (length hhl)) 0); [lia|]. eexists. reflexivity.
Qed.
Lemma c57_cloud_file_proof : forall powi w h n hhl_docs clc_docs hhl clc heights covers,
  0 <= w -> 0 <= h -> 0 < n -> Z.of_nat (length hhl_docs) = n -> Z.of_nat (length clc_docs) = n ->
  levels_of (fun d => regular_create_and_transform powi d HHL_MISSING hhl_transform) (fun d => calculate_data_points powi d None Some) w h hhl_docs hhl heights ->
  levels_of (fun d => regular_create_and_transform powi d CLC_MISSING clc_transform) (fun d => calculate_data_points powi d None Some) w h clc_docs clc covers ->
  exists layer data, vertical_cloud_new hhl clc = Ok layer /\ vertical_cloud_bin layer = Ok data /\
    laid_out (2 * n) w h data (fun x y rec => forall level, 0 <= level < n ->
      slice rec (2 * level) 2 = [file_byte (stored 0 hhl_transform (raw_at heights w x y level)); file_byte (stored 0 clc_transform (raw_at covers w x y level))]).
Proof.
  intros powi w h n hd cd hhl clc hs cs W H N Lh Lc A B. pose proof (levels_len _ _ _ _ _ _ _ A) as Ah. pose proof (levels_len _ _ _ _ _ _ _ B) as Bc.
  destruct (cloud_new_ok hhl clc) as [l V]; [unfold bgrid; lia..|]. rewrite V.
  destruct (hd_error clc) as [g|] eqn:G; [|destruct clc; [cbn in Bc; lia|discriminate]].
  destruct (c40_vertical_cloud_proof hhl clc l g w h n V G (levels_dims _ _ _ _ _ _ _ _ _ B G) W H ltac:(unfold bgrid; lia) (levels_complete _ _ _ _ _ _ _ _ A) (levels_complete _ _ _ _ _ _ _ _ B)) as (data & E & [S0 P]).
  exists l, data. split; [reflexivity|]. split; [exact E|]. split; [exact S0|]. intros x y X Y level L. destruct (P x y X Y level L) as (a & b & Ea & Eb & Q).
  rewrite (levels_stored _ _ _ _ _ _ _ _ x y level A X Y ltac:(unfold bgrid; lia)) in Ea. rewrite (levels_stored _ _ _ _ _ _ _ _ x y level B X Y ltac:(unfold bgrid; lia)) in Eb.
  injection Ea as <-. injection Eb as <-. exact Q.
Qed.
Lemma c57_wind_file_proof : forall powi w h n hhl_docs u_docs v_docs hhl u v heights us vs,
  0 <= w -> 0 <= h -> 0 < n -> Z.of_nat (length hhl_docs) = n -> Z.of_nat (length u_docs) = n -> Z.of_nat (length v_docs) = n ->
  levels_of (fun d => regular_create_and_transform powi d HHL_MISSING hhl_transform) (fun d => calculate_data_points powi d None Some) w h hhl_docs hhl heights ->
  levels_of (fun d => regular_create_and_transform powi d U_V_MISSING u_v_transform) (fun d => calculate_data_points powi d None Some) w h u_docs u us ->
  levels_of (fun d => regular_create_and_transform powi d U_V_MISSING u_v_transform) (fun d => calculate_data_points powi d None Some) w h v_docs v vs ->
  exists layer data, vertical_wind_new hhl u v = Ok layer /\ vertical_wind_bin layer = Ok data /\
    laid_out (3 * n) w h data (fun x y rec => forall level, 0 <= level < n ->
      slice rec (3 * level) 3 = file_byte (stored 0 hhl_transform (raw_at heights w x y level)) ::
        match stored 255 u_v_transform (raw_at us w x y level), stored 255 u_v_transform (raw_at vs w x y level) with
        | Some a, Some b => [a; b] | _, _ => [255; 255] end).
Proof.
  intros powi w h n hd ud vd hhl u v hs us vs W H N Lh Lu Lv A B C. pose proof (levels_len _ _ _ _ _ _ _ A) as Ah. pose proof (levels_len _ _ _ _ _ _ _ B) as Bu. pose proof (levels_len _ _ _ _ _ _ _ C) as Cv.
  destruct (wind_new_ok hhl u v) as [l V]; [unfold bgrid; lia..|]. rewrite V.
  destruct (hd_error u) as [g|] eqn:G; [|destruct u; [cbn in Bu; lia|discriminate]].
  destruct (c40_vertical_wind_proof hhl u v l g w h n V G (levels_dims _ _ _ _ _ _ _ _ _ B G) W H ltac:(unfold bgrid; lia) (levels_complete _ _ _ _ _ _ _ _ A) (levels_complete _ _ _ _ _ _ _ _ B) (levels_complete _ _ _ _ _ _ _ _ C)) as (data & E & [S0 P]).
  exists l, data. split; [reflexivity|]. split; [exact E|]. split; [exact S0|]. intros x y X Y level L. destruct (P x y X Y level L) as (a & b & c & Ea & Eb & Ec & Q).
  rewrite (levels_stored _ _ _ _ _ _ _ _ x y level A X Y ltac:(unfold bgrid; lia)) in Ea. rewrite (levels_stored _ _ _ _ _ _ _ _ x y level B X Y ltac:(unfold bgrid; lia)) in Eb. rewrite (levels_stored _ _ _ _ _ _ _ _ x y level C X Y ltac:(unfold bgrid; lia)) in Ec.
  injection Ea as <-. injection Eb as <-. injection Ec as <-. exact Q.
Qed.
Lemma c57_wind_kept_proof : forall raw, (forall v, raw = Some v -> f32_valid v) -> stored 255 u_v_transform raw = option_map u_v_transform raw.
Proof.
  intros [v|] V; [|reflexivity]. cbn [stored option_map]. rewrite u_v_speed. pose proof (speed_byte_range v (V v eq_refl)). destruct (Z.eqb_spec (speed_byte v) 255); [lia|reflexivity].
Qed.
