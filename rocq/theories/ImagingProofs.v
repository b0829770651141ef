(** Proofs about drawing (C28-C31). *)
From Coq Require Import ZArith Reals Psatz List Bool Lia Lra.
From Flocq Require Import Core.Core.
From Verif Require Import Base F32 F32Facts Grib2Model GeoModel GeoSpec GeoProofs GeoValueProofs ImagingModel ImagingSpec.
Import ListNotations.
Open Scope Z_scope.

(** ** C28: pixels *)
Lemma at4 (a q r : list Z) n : length a = n -> length q = 4%nat -> firstn 4 (skipn n (a ++ q ++ r)) = q.
Proof.
  intros <- Lq. rewrite skipn_app, skipn_all, Nat.sub_diag. cbn [app skipn].
  rewrite firstn_app, Lq. replace (4 - 4)%nat with 0%nat by lia. rewrite firstn_O, app_nil_r. rewrite <- Lq. apply firstn_all.
Qed.
Lemma split4 (l : list Z) n : (n + 4 <= length l)%nat ->
  exists a q r, l = a ++ q ++ r /\ length a = n /\ length q = 4%nat.
Proof.
  intro H. exists (firstn n l), (firstn 4 (skipn n l)), (skipn 4 (skipn n l)).
  rewrite !firstn_skipn. split; [reflexivity|]. split; apply firstn_length_le; [lia|]. rewrite skipn_length. lia.
Qed.
Lemma write4_at l i c : 0 <= i -> i + 4 <= Z.of_nat (length l) ->
  exists l', write4 l i c = Ok l' /\ length l' = length l /\
    firstn 4 (skipn (Z.to_nat i) l') = [c_r c; c_g c; c_b c; c_a c] /\
    (forall j, 0 <= j -> j + 4 <= Z.of_nat (length l) -> j + 4 <= i \/ i + 4 <= j ->
       firstn 4 (skipn (Z.to_nat j) l') = firstn 4 (skipn (Z.to_nat j) l)).
Proof.
  intros H0 H1. unfold write4. destruct (Z.leb_spec (i + 4) (Z.of_nat (length l))); [|lia].
  destruct (split4 l (Z.to_nat i)) as (a & q & r & -> & La & Lq); [lia|].
  set (n4 := [c_r c; c_g c; c_b c; c_a c]).
  assert (E : firstn (Z.to_nat i) (a ++ q ++ r) ++ n4 ++ skipn (Z.to_nat i + 4) (a ++ q ++ r) = a ++ n4 ++ r).
  { rewrite firstn_app, <- La, firstn_all, Nat.sub_diag, firstn_O, app_nil_r. f_equal. f_equal.
    rewrite skipn_app, skipn_all2 by lia. cbn [app]. rewrite skipn_app, skipn_all2 by lia. cbn [app].
    replace (length a + 4 - length a - length q)%nat with 0%nat by lia. reflexivity. }
  rewrite E. eexists. split; [reflexivity|]. split; [rewrite !app_length; cbn [length n4]; lia|].
  split; [apply at4; [exact La|reflexivity]|].
  intros j J0 J1 D. rewrite !app_length in J1. destruct D as [D|D].
  - destruct (split4 a (Z.to_nat j)) as (a1 & q1 & r1 & -> & L1 & L2); [lia|].
    rewrite <- !app_assoc. rewrite !at4 by assumption. reflexivity.
  - destruct (split4 r (Z.to_nat (j - i - 4))) as (a1 & q1 & r1 & -> & L1 & L2); [lia|].
    replace (a ++ n4 ++ a1 ++ q1 ++ r1) with ((a ++ n4 ++ a1) ++ q1 ++ r1) by (rewrite <- !app_assoc; reflexivity).
    replace (a ++ q ++ a1 ++ q1 ++ r1) with ((a ++ q ++ a1) ++ q1 ++ r1) by (rewrite <- !app_assoc; reflexivity).
    rewrite !at4; try assumption; [reflexivity| |]; rewrite !app_length; cbn [length n4]; lia.
Qed.
Lemma index_bound w h x y : inside w h x y -> 0 <= y * w + x < w * h.
Proof. unfold inside. intros [[] []]. split; [nia|]. assert (y * w <= (h - 1) * w) by (apply Z.mul_le_mono_nonneg_r; lia). lia. Qed.
Lemma index_inj w x y x' y' : 0 <= x < w -> 0 <= x' < w -> y * w + x = y' * w + x' -> x = x' /\ y = y'.
Proof.
  intros H H' E. assert (y = y').
  { assert (D : (y * w + x) / w = y) by (rewrite Z.div_add_l, Z.div_small by lia; lia).
    assert (D' : (y' * w + x') / w = y') by (rewrite Z.div_add_l, Z.div_small by lia; lia). congruence. }
  subst. lia.
Qed.
Lemma color_index_ok chk w h x y : size_ok w h -> inside w h x y -> color_index chk w x y = Ok ((y * w + x) * 4).
Proof.
  intros (W & H & S) I. pose proof (index_bound w h x y I) as B. destruct I as [[X0 X1] [Y0 Y1]].
  unfold color_index, uwrap. assert (0 <= y * w) by nia.
  destruct (Z.ltb_spec (y * w) (2 ^ 32)); [|lia]. cbn [obind].
  destruct (Z.ltb_spec (y * w + x) (2 ^ 32)); [|lia]. cbn [obind].
  destruct (Z.ltb_spec ((y * w + x) * 4) (2 ^ 32)); [reflexivity|lia].
Qed.
Lemma pixel_in_case v w h x y : inside w h x y -> Z.of_nat (length v) = w * h * 4 ->
  exists r g b a, firstn 4 (skipn (Z.to_nat ((y * w + x) * 4)) v) = [r; g; b; a] /\ pixel_in v w h x y = Some (rgba r g b a).
Proof.
  intros I L. pose proof (index_bound w h x y I) as B. unfold pixel_in. destruct I as [[X0 X1] [Y0 Y1]].
  destruct (Z.leb_spec 0 x); [|lia]. destruct (Z.ltb_spec x w); [|lia]. destruct (Z.leb_spec 0 y); [|lia].
  destruct (Z.ltb_spec y h); [|lia]. cbn [andb].
  assert (N : length (firstn 4 (skipn (Z.to_nat ((y * w + x) * 4)) v)) = 4%nat).
  { apply firstn_length_le. rewrite skipn_length. lia. }
  destruct (firstn 4 _) as [|r [|g [|b [|a [|z l]]]]]; try discriminate. exists r, g, b, a. split; reflexivity.
Qed.
Lemma pixel_in_out v w h x y : ~ inside w h x y -> pixel_in v w h x y = None.
Proof.
  intro N. unfold pixel_in. destruct ((0 <=? x) && (x <? w) && (0 <=? y) && (y <? h)) eqn:E; [|reflexivity].
  exfalso. apply N. rewrite !andb_true_iff, !Z.leb_le, !Z.ltb_lt in E. unfold inside. lia.
Qed.
Lemma inside_dec w h x y : {inside w h x y} + {~ inside w h x y}.
Proof.
  unfold inside. destruct (Z_le_dec 0 x); [|right; lia]. destruct (Z_lt_dec x w); [|right; lia].
  destruct (Z_le_dec 0 y); [|right; lia]. destruct (Z_lt_dec y h); [left; lia|right; lia].
Qed.
Lemma draw_point_spec chk d x y c : drawable_ok d -> inside (d_w d) (d_h d) x y ->
  exists d', draw_point chk d x y c = Ok d' /\ drawable_ok d' /\ same_size d d' /\
    pixel d' x y = Some c /\ (forall x' y', (x', y') <> (x, y) -> pixel d' x' y' = pixel d x' y').
Proof.
  intros [S L] I. pose proof (index_bound _ _ _ _ I) as B. unfold draw_point.
  destruct (Z.leb_spec (d_w d) x); [unfold inside in I; lia|]. destruct (Z.leb_spec (d_h d) y); [unfold inside in I; lia|].
  cbn [orb]. rewrite (color_index_ok chk _ _ _ _ S I). cbn [obind].
  destruct (write4_at (d_values d) ((y * d_w d + x) * 4) c) as (l' & -> & L' & At & Fr); [lia|lia|].
  cbn [obind]. eexists. split; [reflexivity|]. split; [split; [exact S|cbn [d_values d_w d_h]; lia]|]. split; [split; reflexivity|].
  assert (LL : Z.of_nat (length l') = d_w d * d_h d * 4) by lia.
  split.
  - unfold pixel. cbn [d_values d_w d_h]. destruct (pixel_in_case l' _ _ _ _ I LL) as (r & g & b & a & E & ->).
    rewrite At in E. injection E as <- <- <- <-. destruct c; reflexivity.
  - intros x' y' N. unfold pixel. cbn [d_values d_w d_h]. destruct (inside_dec (d_w d) (d_h d) x' y') as [I'|I'].
    + destruct (pixel_in_case l' _ _ _ _ I' LL) as (r & g & b & a & E & ->).
      destruct (pixel_in_case (d_values d) _ _ _ _ I' L) as (r' & g' & b' & a' & E' & ->).
      pose proof (index_bound _ _ _ _ I') as B'.
      rewrite Fr in E; [rewrite E' in E; congruence|lia|lia|].
      assert (y' * d_w d + x' <> y * d_w d + x).
      { intro Q. destruct I as [IX IY], I' as [IX' IY']. destruct (index_inj _ _ _ _ _ IX' IX Q). subst. contradiction. }
      lia.
    + rewrite !pixel_in_out by exact I'. reflexivity.
Qed.
Lemma draw_point_out chk d x y c : ~ (x < d_w d /\ y < d_h d) -> draw_point chk d x y c = Panic.
Proof.
  intro H. unfold draw_point. destruct (Z.leb_spec (d_w d) x); [reflexivity|]. destruct (Z.leb_spec (d_h d) y); [reflexivity|lia].
Qed.
Lemma create_empty_spec chk w h : size_ok w h -> exists d, create_empty chk w h = Ok d /\ drawable_ok d /\
  d_w d = w /\ d_h d = h /\ forall x y, inside w h x y -> pixel d x y = Some COLOR_TRANSPARENT.
Proof.
  intros S. pose proof S as (W & H & B). unfold create_empty, uwrap.
  destruct (Z.eqb_spec w 0); [lia|]. destruct (Z.eqb_spec h 0); [lia|]. cbn [orb].
  destruct (Z.ltb_spec (w * h) (2 ^ 32)); [|lia]. cbn [obind].
  destruct (Z.ltb_spec (w * h * 4) (2 ^ 32)); [|lia]. cbn [obind].
  eexists. split; [reflexivity|]. assert (L : Z.of_nat (length (repeat 0 (Z.to_nat (w * h * 4)))) = w * h * 4) by (rewrite repeat_length; nia).
  split; [split; [exact S|exact L]|]. split; [reflexivity|]. split; [reflexivity|].
  intros x y I. unfold pixel. cbn [d_values d_w d_h]. destruct (pixel_in_case _ _ _ _ _ I L) as (r & g & b & a & E & ->).
  assert (Z0 : forall v, In v [r; g; b; a] -> v = 0).
  { intros v V. rewrite <- E in V. apply (repeat_spec (Z.to_nat (w * h * 4)) 0 v).
    rewrite <- (firstn_skipn (Z.to_nat ((y * w + x) * 4)) (repeat 0 (Z.to_nat (w * h * 4)))).
    apply in_or_app. right. rewrite <- (firstn_skipn 4 (skipn _ _)). apply in_or_app. now left. }
  rewrite (Z0 r), (Z0 g), (Z0 b), (Z0 a) by (cbn; auto). reflexivity.
Qed.

(** ** C29: rows *)
Definition row_at (rows : list (list color)) (x y : Z) : option color :=
  match nth_error rows (Z.to_nat y) with Some row => nth_error row (Z.to_nat x) | None => None end.
Lemma draw_row_ok chk row : forall d x y, drawable_ok d -> 0 <= x -> 0 <= y < d_h d -> x + Z.of_nat (length row) <= d_w d ->
  exists d', draw_row chk d x y row = Ok d' /\ drawable_ok d' /\ same_size d d' /\
    (forall k c, nth_error row k = Some c -> pixel d' (x + Z.of_nat k) (d_h d - 1 - y) = Some c) /\
    (forall x' y', y' <> d_h d - 1 - y \/ x' < x \/ x + Z.of_nat (length row) <= x' -> pixel d' x' y' = pixel d x' y').
Proof.
  induction row as [|px row IH]; intros d x y K X Y L; cbn [draw_row].
  - exists d. split; [reflexivity|]. split; [exact K|]. split; [split; reflexivity|]. split; [intros [|k] c; discriminate|reflexivity].
  - cbn [length] in L. unfold usub. destruct (Z.leb_spec y (d_h d)); [|lia]. cbn [obind].
    destruct (Z.leb_spec 1 (d_h d - y)); [|lia]. cbn [obind].
    destruct (draw_point_spec chk d x (d_h d - y - 1) px K) as (d1 & -> & K1 & [W1 H1] & P1 & F1); [unfold inside; lia|].
    cbn [obind]. destruct (IH d1 (x + 1) y K1) as (d2 & -> & K2 & [W2 H2] & P2 & F2); [lia|lia|lia|].
    exists d2. split; [reflexivity|]. split; [exact K2|]. split; [split; congruence|]. rewrite H1 in *. split.
    + intros [|k] c E; cbn in E.
      * injection E as <-. rewrite F2 by lia. replace (x + Z.of_nat 0) with x by lia.
        replace (d_h d - 1 - y) with (d_h d - y - 1) by lia. exact P1.
      * replace (x + Z.of_nat (S k)) with (x + 1 + Z.of_nat k) by lia. apply P2. exact E.
    + intros x' y' D. cbn [length] in D. rewrite F2 by lia. apply F1. intros [= -> ->]. lia.
Qed.
Lemma draw_row_panic chk row : forall d x y, drawable_ok d -> 0 <= x <= d_w d -> 0 <= y < 2 ^ 32 ->
  (d_h d <= y /\ row <> []) \/ d_w d < x + Z.of_nat (length row) -> draw_row chk d x y row = Panic.
Proof.
  induction row as [|px row IH]; intros d x y K X Y D; cbn [draw_row length] in *; [destruct D as [[_ []]|]; [reflexivity|lia]|].
  destruct (Z_lt_le_dec y (d_h d)) as [C|C].
  - unfold usub. destruct (Z.leb_spec y (d_h d)); [|lia]. cbn [obind].
    destruct (Z.leb_spec 1 (d_h d - y)); [|lia]. cbn [obind].
    destruct (Z_lt_le_dec x (d_w d)).
    + destruct (draw_point_spec chk d x (d_h d - y - 1) px K) as (d1 & -> & K1 & [W1 H1] & _); [unfold inside; lia|].
      cbn [obind]. apply IH; [exact K1|lia|lia|]. right. lia.
    + rewrite draw_point_out by lia. reflexivity.
  - destruct K as [(KW & KH & KS) _]. unfold usub. destruct (Z.leb_spec y (d_h d)).
    + cbn [obind]. destruct (Z.leb_spec 1 (d_h d - y)); [lia|]. destruct chk; [reflexivity|]. cbn [obind].
      rewrite draw_point_out by nia. reflexivity.
    + destruct chk; [reflexivity|]. cbn [obind]. destruct (Z.leb_spec 1 (d_h d - y + 2 ^ 32)); cbn [obind].
      * rewrite draw_point_out by nia. reflexivity.
      * rewrite draw_point_out by nia. reflexivity.
Qed.
Lemma draw_rows_ok chk rows : forall d y, drawable_ok d -> 0 <= y ->
  (forall k row, nth_error rows k = Some row -> Z.of_nat (length row) <= d_w d /\ (d_h d <= y + Z.of_nat k -> row = [])) ->
  exists d', draw_rows chk d y rows = Ok d' /\ drawable_ok d' /\ same_size d d' /\
    (forall k row j c, nth_error rows k = Some row -> nth_error row j = Some c -> pixel d' (Z.of_nat j) (d_h d - 1 - y - Z.of_nat k) = Some c) /\
    (forall x' y', (forall k row, nth_error rows k = Some row -> y' = d_h d - 1 - y - Z.of_nat k -> Z.of_nat (length row) <= x' \/ x' < 0) ->
       pixel d' x' y' = pixel d x' y').
Proof.
  induction rows as [|row rows IH]; intros d y K Y F; cbn [draw_rows].
  - exists d. split; [reflexivity|]. split; [exact K|]. split; [split; reflexivity|]. split; [intros [|k]; discriminate|reflexivity].
  - destruct (F 0%nat row eq_refl) as [FW FH].
    assert (R : exists d1, draw_row chk d 0 y row = Ok d1 /\ drawable_ok d1 /\ same_size d d1 /\
      (forall k c, nth_error row k = Some c -> pixel d1 (Z.of_nat k) (d_h d - 1 - y) = Some c) /\
      (forall x' y', y' <> d_h d - 1 - y \/ x' < 0 \/ Z.of_nat (length row) <= x' -> pixel d1 x' y' = pixel d x' y')).
    { destruct (Z_lt_le_dec y (d_h d)) as [C|C].
      - apply (draw_row_ok chk row d 0 y K); [lia|lia|lia].
      - rewrite (FH ltac:(lia)) in *. exists d. split; [reflexivity|]. split; [exact K|]. split; [split; reflexivity|].
        split; [intros [|k]; discriminate|reflexivity]. }
    destruct R as (d1 & -> & K1 & [W1 H1] & P1 & F1). cbn [obind].
    destruct (IH d1 (y + 1) K1) as (d2 & -> & K2 & [W2 H2] & P2 & F2); [lia| |].
    { intros k row' E. rewrite W1, H1. replace (y + 1 + Z.of_nat k) with (y + Z.of_nat (S k)) by lia. apply F. exact E. }
    exists d2. split; [reflexivity|]. split; [exact K2|]. split; [split; congruence|]. rewrite H1 in *. split.
    + intros [|k] row' j c E1 E2.
      * cbn in E1. injection E1 as ->. rewrite F2.
        -- replace (d_h d - 1 - y - Z.of_nat 0) with (d_h d - 1 - y) by lia. apply P1. exact E2.
        -- intros k r _ Q. lia.
      * replace (d_h d - 1 - y - Z.of_nat (S k)) with (d_h d - 1 - (y + 1) - Z.of_nat k) by lia. eapply P2; eassumption.
    + intros x' y' D. rewrite F2.
      * apply F1. destruct (Z.eq_dec y' (d_h d - 1 - y)) as [->|]; [right|now left].
        destruct (D 0%nat row eq_refl ltac:(lia)); [right|left]; assumption.
      * intros k r E Q. apply (D (S k) r E). lia.
Qed.
Lemma draw_rows_panic chk rows : forall d y, drawable_ok d -> 0 <= y -> y + Z.of_nat (length rows) <= 2 ^ 32 ->
  (exists k row, nth_error rows k = Some row /\ (d_w d < Z.of_nat (length row) \/ (d_h d <= y + Z.of_nat k /\ row <> []))) ->
  draw_rows chk d y rows = Panic.
Proof.
  induction rows as [|row rows IH]; intros d y K Y L (k & r & E & D); [destruct k; discriminate|]. cbn [draw_rows length] in *.
  destruct (Z_lt_le_dec (d_w d) (Z.of_nat (length row))) as [A|A].
  { rewrite draw_row_panic; [reflexivity|exact K|destruct K as [(? & ? & ?) _]; lia|lia|right; lia]. }
  destruct row as [|px row].
  { cbn [draw_row obind]. destruct k as [|k]; cbn in E.
    - injection E as <-. cbn in D. destruct D as [D|[_ []]]; [destruct K as [(? & ? & ?) _]; lia|reflexivity].
    - apply IH; [exact K|lia|lia|]. exists k, r. split; [exact E|]. destruct D as [D|[D1 D2]]; [now left|right; split; [lia|exact D2]]. }
  destruct (Z_lt_le_dec y (d_h d)) as [C|C].
  - destruct (draw_row_ok chk (px :: row) d 0 y K) as (d1 & -> & K1 & [W1 H1] & _); [lia|lia|lia|]. cbn [obind].
    destruct k as [|k]; cbn in E; [injection E as <-; destruct D as [D|[D _]]; lia|].
    apply IH; [exact K1|lia|lia|]. exists k, r. rewrite W1, H1. split; [exact E|].
    destruct D as [D|[D1 D2]]; [now left|right; split; [lia|exact D2]].
  - rewrite draw_row_panic; [reflexivity|exact K|destruct K as [(? & ? & ?) _]; lia|lia|]. left. split; [exact C|discriminate].
Qed.

(** ** C30: lines *)
Section Line.
  Variables x0 y0 dx dy sx sy : Z.
  Hypothesis Hsx : sx = 1 \/ sx = -1.
  Hypothesis Hsy : sy = 1 \/ sy = -1.
  Hypothesis Hdx : 0 <= dx.
  Hypothesis Hdy : 0 <= dy.
  Let x1 := x0 + sx * dx.
  Let y1 := y0 + sy * dy.
  (** The points that the loop visits, as a relation. *)
  Inductive walk : Z -> Z -> Z -> list (Z * Z) -> Prop :=
  | walk_end : forall e, walk x1 y1 e [(x1, y1)]
  | walk_step : forall x y e x' y' ea eb pts, ~ (x = x1 /\ y = y1) ->
      (ea, x') = (if - dx <? 2 * e then (e - dy, x + sx) else (e, x)) ->
      (eb, y') = (if 2 * e <? dy then (ea + dx, y + sy) else (ea, y)) ->
      walk x' y' eb pts -> walk x y e ((x, y) :: pts).
  Lemma walk_loop chk c : forall x y e pts, walk x y e pts -> forall d, drawable_ok d ->
    Forall (fun p => inside (d_w d) (d_h d) (fst p) (snd p)) pts ->
    exists d', drawable_ok d' /\ same_size d d' /\
      (forall fuel, line_loop chk fuel d x y x1 y1 dx dy sx sy e c = if (length pts <=? fuel)%nat then Some (Ok d') else None) /\
      (forall p, In p pts -> pixel d' (fst p) (snd p) = Some c) /\
      (forall p, ~ In p pts -> pixel d' (fst p) (snd p) = pixel d (fst p) (snd p)).
  Proof.
    induction 1 as [e|x y e x' y' ea eb pts N E1 E2 W IH]; intros d K F.
    - inversion F as [|? ? I _]; subst. cbn [fst snd] in I.
      assert (S : d_w d < 2 ^ 32 /\ d_h d < 2 ^ 32) by (destruct K as [(? & ? & ?) _]; nia).
      destruct (draw_point_spec chk d x1 y1 c K I) as (d' & R & K' & Sz & P & Fr). exists d'. split; [exact K'|]. split; [exact Sz|].
      split; [|split].
      + intros [|fuel]; [reflexivity|]. cbn [line_loop]. unfold inside in I. rewrite !Z.mod_small by lia. rewrite R, !Z.eqb_refl. reflexivity.
      + intros p [<-|[]]. exact P.
      + intros [px py] Np. apply Fr. intros E. apply Np. left. symmetry. exact E.
    - inversion F as [|? ? I F']; subst. cbn [fst snd] in I.
      assert (S : d_w d < 2 ^ 32 /\ d_h d < 2 ^ 32) by (destruct K as [(? & ? & ?) _]; nia).
      destruct (draw_point_spec chk d x y c K I) as (d1 & R & K1 & [W1 H1] & P1 & F1).
      destruct (IH d1 K1) as (d2 & K2 & [W2 H2] & L2 & P2 & F2); [rewrite W1, H1; exact F'|].
      exists d2. split; [exact K2|]. split; [split; congruence|]. split; [|split].
      + intros [|fuel]; [reflexivity|]. cbn [line_loop length Nat.leb]. unfold inside in I. rewrite !Z.mod_small by lia. rewrite R.
        replace ((x =? x1) && (y =? y1)) with false.
        * rewrite <- E1, <- E2. apply L2.
        * symmetry. apply andb_false_iff. destruct (Z.eqb_spec x x1); [right; apply Z.eqb_neq; tauto|now left].
      + intros p [<-|Ip]; [|apply P2, Ip]. destruct (in_dec (fun a b : Z * Z => ltac:(decide equality; apply Z.eq_dec)) (x, y) pts) as [Ip|Ip].
        * apply P2, Ip.
        * cbn [fst snd]. specialize (F2 (x, y) Ip). cbn [fst snd] in F2. rewrite F2. exact P1.
      + intros [px py] Np. cbn [fst snd]. specialize (F2 (px, py)). cbn [fst snd] in F2. rewrite F2 by (intro; apply Np; now right).
        apply F1. intro E. apply Np. left. symmetry. exact E.
  Qed.

  (** [pts] leads from [k] steps in x and [j] steps in y to the end. *)
  Definition on_track (p : Z * Z) : Prop := exists k j, p = (x0 + sx * k, y0 + sy * j) /\
    0 <= k <= dx /\ 0 <= j <= dy /\ 2 * Z.abs (k * dy - j * dx) <= dx + dy.
  Definition leads (k j e : Z) (pts : list (Z * Z)) (n : Z) : Prop :=
    walk (x0 + sx * k) (y0 + sy * j) e pts /\ Z.of_nat (length pts) = n /\ connected pts /\
    hd_error pts = Some (x0 + sx * k, y0 + sy * j) /\ last pts (0, 0) = (x1, y1) /\ Forall on_track pts.
  Lemma leads_end e : leads dx dy e [(x1, y1)] 1.
  Proof.
    split; [apply walk_end|]. split; [reflexivity|]. split; [exact I|]. split; [reflexivity|]. split; [reflexivity|].
    constructor; [|constructor]. exists dx, dy. split; [reflexivity|]. split; [lia|]. split; [lia|].
    replace (dx * dy - dy * dx) with 0 by ring. cbn. lia.
  Qed.
  Lemma leads_step k j e k' j' e' pts n : 0 <= k <= dx -> 0 <= j <= dy -> 2 * Z.abs (k * dy - j * dx) <= dx + dy ->
    ~ (k = dx /\ j = dy) -> k' = k + (if - dx <? 2 * e then 1 else 0) -> j' = j + (if 2 * e <? dy then 1 else 0) ->
    e' = e - (if - dx <? 2 * e then dy else 0) + (if 2 * e <? dy then dx else 0) -> (k', j') <> (k, j) ->
    leads k' j' e' pts n -> leads k j e ((x0 + sx * k, y0 + sy * j) :: pts) (n + 1).
  Proof.
    intros Hk Hj D N Ek Ej Ee Nk (W & L & C & Hh & Hl & F).
    split; [|split; [cbn [length]; lia|split; [|split; [reflexivity|split]]]].
    - eapply walk_step with (ea := e - (if - dx <? 2 * e then dy else 0)) (x' := x0 + sx * k') (y' := y0 + sy * j') (eb := e').
      + unfold x1, y1. intros [A B]. apply N. split; [destruct Hsx as [H|H]; rewrite H in A|destruct Hsy as [H|H]; rewrite H in B]; lia.
      + subst k'. destruct (- dx <? 2 * e); f_equal; lia.
      + subst j' e'. destruct (2 * e <? dy); f_equal; lia.
      + exact W.
    - destruct pts as [|q pts]; [discriminate|]. injection Hh as ->. split; [|exact C].
      unfold neighbours. cbn [fst snd]. split.
      + intros [= A B]. apply Nk. f_equal; [destruct Hsx as [H|H]; rewrite H in A|destruct Hsy as [H|H]; rewrite H in B]; lia.
      + rewrite Ek, Ej. destruct Hsx as [H|H], Hsy as [H'|H']; rewrite H, H'; destruct (- dx <? 2 * e), (2 * e <? dy); lia.
    - destruct pts as [|q pts]; [discriminate|]. exact Hl.
    - constructor; [|exact F]. exists k, j. auto.
  Qed.

  (** dx > dy: one step in x at a time. *)
  Lemma leads_flat : dy < dx -> forall m k j e, 0 <= k <= dx -> 0 <= j <= dy -> dx - k = Z.of_nat m ->
    e = dx / 2 - k * dy + j * dx -> - dy <= 2 * e < 2 * dx - dy ->
    exists pts, leads k j e pts (dx - k + 1).
  Proof.
    intro HD. pose proof (Z.div_mod dx 2 ltac:(lia)) as DM. pose proof (Z.mod_pos_bound dx 2 ltac:(lia)) as MB.
    assert (DEV : forall k j e, e = dx / 2 - k * dy + j * dx -> - dy <= 2 * e < 2 * dx - dy -> 2 * Z.abs (k * dy - j * dx) <= dx + dy) by (intros; lia).
    induction m as [|m IH]; intros k j e Hk Hj Hm He HB.
    - assert (k = dx) by lia. subst k. assert (j = dy).
      { destruct (Z_lt_le_dec j dy); [|lia]. exfalso. assert (j * dx <= (dy - 1) * dx) by (apply Z.mul_le_mono_nonneg_r; lia). nia. }
      subst j. exists [(x1, y1)]. replace (dx - dx + 1) with 1 by lia. apply leads_end.
    - assert (XA : (- dx <? 2 * e) = true) by (apply Z.ltb_lt; lia).
      assert (JD : 2 * e < dy -> j + 1 <= dy).
      { intro C. destruct (Z_lt_le_dec j dy); [lia|]. exfalso. assert (j = dy) by lia. subst j.
        assert (k * dy <= (dx - 1) * dy) by (apply Z.mul_le_mono_nonneg_r; lia). nia. }
      destruct (Z.ltb_spec (2 * e) dy) as [C|C].
      + destruct (IH (k + 1) (j + 1) (e - dy + dx)) as (pts & P); [lia|lia|lia|lia|lia|].
        exists ((x0 + sx * k, y0 + sy * j) :: pts). replace (dx - k + 1) with (dx - (k + 1) + 1 + 1) by lia.
        assert (YA : (2 * e <? dy) = true) by (apply Z.ltb_lt; exact C).
        eapply leads_step; [lia|lia|eapply DEV; eassumption|lia| | | | |exact P]; rewrite ?XA, ?YA; try lia. intros [= ? ?]; lia.
      + destruct (IH (k + 1) j (e - dy)) as (pts & P); [lia|lia|lia|lia|lia|].
        exists ((x0 + sx * k, y0 + sy * j) :: pts). replace (dx - k + 1) with (dx - (k + 1) + 1 + 1) by lia.
        assert (YA : (2 * e <? dy) = false) by (apply Z.ltb_ge; exact C).
        eapply leads_step; [lia|lia|eapply DEV; eassumption|lia| | | | |exact P]; rewrite ?XA, ?YA; try lia. intros [= ?]; lia.
  Qed.
  (** dx < dy: one step in y at a time. *)
  Lemma leads_steep : dx < dy -> forall m k j e, 0 <= k <= dx -> 0 <= j <= dy -> dy - j = Z.of_nat m ->
    - e = dy / 2 + k * dy - j * dx -> - dx <= 2 * (- e) < 2 * dy - dx ->
    exists pts, leads k j e pts (dy - j + 1).
  Proof.
    intro HD. pose proof (Z.div_mod dy 2 ltac:(lia)) as DM. pose proof (Z.mod_pos_bound dy 2 ltac:(lia)) as MB.
    assert (DEV : forall k j e, - e = dy / 2 + k * dy - j * dx -> - dx <= 2 * (- e) < 2 * dy - dx -> 2 * Z.abs (k * dy - j * dx) <= dx + dy) by (intros; lia).
    induction m as [|m IH]; intros k j e Hk Hj Hm He HB.
    - assert (j = dy) by lia. subst j. assert (k = dx).
      { destruct (Z_lt_le_dec k dx); [|lia]. exfalso. assert (k * dy <= (dx - 1) * dy) by (apply Z.mul_le_mono_nonneg_r; lia). nia. }
      subst k. exists [(x1, y1)]. replace (dy - dy + 1) with 1 by lia. apply leads_end.
    - assert (YA : (2 * e <? dy) = true) by (apply Z.ltb_lt; lia).
      assert (KD : - dx < 2 * e -> k + 1 <= dx).
      { intro C. destruct (Z_lt_le_dec k dx); [lia|]. exfalso. assert (k = dx) by lia. subst k.
        assert (j * dx <= (dy - 1) * dx) by (apply Z.mul_le_mono_nonneg_r; lia). nia. }
      destruct (Z.ltb_spec (- dx) (2 * e)) as [C|C].
      + destruct (IH (k + 1) (j + 1) (e - dy + dx)) as (pts & P); [lia|lia|lia|lia|lia|].
        exists ((x0 + sx * k, y0 + sy * j) :: pts). replace (dy - j + 1) with (dy - (j + 1) + 1 + 1) by lia.
        assert (XA : (- dx <? 2 * e) = true) by (apply Z.ltb_lt; exact C).
        eapply leads_step; [lia|lia|eapply DEV; eassumption|lia| | | | |exact P]; rewrite ?XA, ?YA; try lia. intros [= ? ?]; lia.
      + destruct (IH k (j + 1) (e + dx)) as (pts & P); [lia|lia|lia|lia|lia|].
        exists ((x0 + sx * k, y0 + sy * j) :: pts). replace (dy - j + 1) with (dy - (j + 1) + 1 + 1) by lia.
        assert (XA : (- dx <? 2 * e) = false) by (apply Z.ltb_ge; exact C).
        eapply leads_step; [lia|lia|eapply DEV; eassumption|lia| | | | |exact P]; rewrite ?XA, ?YA; try lia. intros [= ?]; lia.
  Qed.
  (** dx = dy odd: a diagonal. *)
  Lemma leads_odd : dx = dy -> dx mod 2 = 1 -> forall m k, 0 <= k <= dx -> dx - k = Z.of_nat m ->
    exists pts, leads k k (- (dx / 2)) pts (dx - k + 1).
  Proof.
    intros HD HO. pose proof (Z.div_mod dx 2 ltac:(lia)) as DM.
    induction m as [|m IH]; intros k Hk Hm.
    - assert (k = dx) by lia. subst k. exists [(x1, y1)]. replace (dx - dx + 1) with 1 by lia. rewrite HD at 2. apply leads_end.
    - destruct (IH (k + 1)) as (pts & P); [lia|lia|].
      exists ((x0 + sx * k, y0 + sy * k) :: pts). replace (dx - k + 1) with (dx - (k + 1) + 1 + 1) by lia.
      assert (XA : (- dx <? 2 * - (dx / 2)) = true) by (apply Z.ltb_lt; lia).
      assert (YA : (2 * - (dx / 2) <? dy) = true) by (apply Z.ltb_lt; lia).
      eapply leads_step; [lia|lia| |lia| | | | |exact P]; rewrite ?XA, ?YA; try lia. intros [= ?]; lia.
  Qed.
  (** dx = dy even: a staircase. *)
  Lemma leads_even : dx = dy -> dx mod 2 = 0 -> forall m k, 0 <= k <= dx -> dx - k = Z.of_nat m ->
    exists pts, leads k k (- (dx / 2)) pts (2 * (dx - k) + 1).
  Proof.
    intros HD HO. pose proof (Z.div_mod dx 2 ltac:(lia)) as DM.
    induction m as [|m IH]; intros k Hk Hm.
    - assert (k = dx) by lia. subst k. exists [(x1, y1)]. replace (2 * (dx - dx) + 1) with 1 by lia. rewrite HD at 2. apply leads_end.
    - destruct (IH (k + 1)) as (pts & P); [lia|lia|].
      exists ((x0 + sx * k, y0 + sy * k) :: (x0 + sx * k, y0 + sy * (k + 1)) :: pts).
      replace (2 * (dx - k) + 1) with (2 * (dx - (k + 1)) + 1 + 1 + 1) by lia.
      assert (XA : (- dx <? 2 * - (dx / 2)) = false) by (apply Z.ltb_ge; lia).
      assert (YA : (2 * - (dx / 2) <? dy) = true) by (apply Z.ltb_lt; lia).
      assert (XB : (- dx <? 2 * (dx / 2)) = true) by (apply Z.ltb_lt; lia).
      assert (YB : (2 * (dx / 2) <? dy) = false) by (apply Z.ltb_ge; lia).
      eapply leads_step with (k' := k) (j' := k + 1) (e' := dx / 2); [lia|lia| |lia| | | | |]; rewrite ?XA, ?YA; try lia; [intros [= ?]; lia|].
      eapply leads_step with (k' := k + 1) (j' := k + 1) (e' := - (dx / 2)); [lia|lia| |lia| | | | |exact P]; rewrite ?XB, ?YB; try lia. intros [= ?]; lia.
  Qed.
  Definition point_count : Z := if (dx =? dy) && (dx mod 2 =? 0) then 2 * dx + 1 else Z.max dx dy + 1.
  Lemma leads_all : exists pts, leads 0 0 (Z.quot (if dy <? dx then dx else - dy) 2) pts point_count.
  Proof.
    pose proof (Z.div_mod dx 2 ltac:(lia)) as DM. pose proof (Z.mod_pos_bound dx 2 ltac:(lia)) as MB.
    pose proof (Z.div_mod dy 2 ltac:(lia)) as DM'. pose proof (Z.mod_pos_bound dy 2 ltac:(lia)) as MB'.
    unfold point_count. destruct (Z.ltb_spec dy dx) as [C|C].
    - rewrite Z.quot_div_nonneg by lia. destruct (Z.eqb_spec dx dy); [lia|]. cbn [andb].
      rewrite Z.max_l by lia. destruct (leads_flat C (Z.to_nat dx) 0 0 (dx / 2)) as (pts & P); [lia|lia|lia|lia|lia|].
      exists pts. replace (dx + 1) with (dx - 0 + 1) by lia. exact P.
    - rewrite Z.quot_opp_l, Z.quot_div_nonneg by lia. destruct (Z.eqb_spec dx dy) as [E|E]; cbn [andb].
      + rewrite <- E. destruct (Z.eqb_spec (dx mod 2) 0) as [O|O].
        * destruct (leads_even E O (Z.to_nat dx) 0) as (pts & P); [lia|lia|]. exists pts.
          replace (2 * dx + 1) with (2 * (dx - 0) + 1) by lia. exact P.
        * destruct (leads_odd E ltac:(lia) (Z.to_nat dx) 0) as (pts & P); [lia|lia|]. exists pts.
          replace (Z.max dx dx + 1) with (dx - 0 + 1) by lia. exact P.
      + rewrite Z.max_r by lia. destruct (leads_steep ltac:(lia) (Z.to_nat dy) 0 0 (- (dy / 2))) as (pts & P); [lia|lia|lia|lia|lia|].
        exists pts. replace (dy + 1) with (dy - 0 + 1) by lia. exact P.
  Qed.
End Line.
Lemma draw_line_spec chk d x0 y0 x1 y1 c : drawable_ok d -> inside (d_w d) (d_h d) x0 y0 -> inside (d_w d) (d_h d) x1 y1 ->
  let dx := Z.abs (x1 - x0) in let dy := Z.abs (y1 - y0) in
  exists pts d', 
    Z.of_nat (length pts) = (if (dx =? dy) && (dx mod 2 =? 0) then 2 * dx + 1 else Z.max dx dy + 1) /\
    hd_error pts = Some (x0, y0) /\ last pts (0, 0) = (x1, y1) /\ connected pts /\
    Forall (fun p => between x0 x1 (fst p) /\ between y0 y1 (snd p) /\ 2 * deviation x0 y0 x1 y1 p <= dx + dy) pts /\
    (forall fuel, draw_line chk fuel d x0 y0 x1 y1 c = if (length pts <=? fuel)%nat then Some (Ok d') else None) /\
    drawable_ok d' /\ same_size d d' /\
    (forall p, In p pts -> pixel d' (fst p) (snd p) = Some c) /\
    (forall p, ~ In p pts -> pixel d' (fst p) (snd p) = pixel d (fst p) (snd p)).
Proof.
  intros K I0 I1 dx dy.
  set (sx := if x0 <? x1 then 1 else -1). set (sy := if y0 <? y1 then 1 else -1).
  assert (Hsx : sx = 1 \/ sx = -1) by (unfold sx; destruct (x0 <? x1); auto).
  assert (Hsy : sy = 1 \/ sy = -1) by (unfold sy; destruct (y0 <? y1); auto).
  assert (Ex : x0 + sx * dx = x1) by (unfold sx, dx; destruct (Z.ltb_spec x0 x1); lia).
  assert (Ey : y0 + sy * dy = y1) by (unfold sy, dy; destruct (Z.ltb_spec y0 y1); lia).
  destruct (leads_all x0 y0 dx dy sx sy Hsx Hsy ltac:(lia) ltac:(lia)) as (pts & W & L & C & Hh & Hl & F).
  rewrite Ex, Ey in Hl. rewrite !Z.mul_0_r, !Z.add_0_r in Hh, W.
  assert (F' : Forall (fun p => between x0 x1 (fst p) /\ between y0 y1 (snd p) /\ 2 * deviation x0 y0 x1 y1 p <= dx + dy) pts).
  { eapply Forall_impl; [|exact F]. intros p (k & j & -> & Hk & Hj & D). cbn [fst snd]. unfold between, deviation. cbn [fst snd].
    clearbody dx dy sx sy. subst x1 y1. split; [|split].
    - destruct Hsx as [H|H]; rewrite H; lia.
    - destruct Hsy as [H|H]; rewrite H; lia.
    - replace ((x0 + sx * k - x0) * (y0 + sy * dy - y0) - (y0 + sy * j - y0) * (x0 + sx * dx - x0)) with (sx * sy * (k * dy - j * dx)) by ring.
      destruct Hsx as [H|H], Hsy as [H'|H']; rewrite H, H'; lia. }
  destruct (walk_loop x0 y0 dx dy sx sy Hsx Hsy chk c _ _ _ _ W d K) as (d' & K' & S & R & P1 & P2).
  { eapply Forall_impl; [|exact F']. intros p (B1 & B2 & _). unfold between, inside in *. lia. }
  exists pts, d'. split; [exact L|]. split; [exact Hh|]. split; [exact Hl|]. split; [exact C|]. split; [exact F'|].
  split; [|auto]. intro fuel. rewrite <- R. unfold draw_line. fold sx sy.
  replace (if x1 <? x0 then x0 - x1 else x1 - x0) with dx by (unfold dx; destruct (Z.ltb_spec x1 x0); lia).
  replace (if y1 <? y0 then y0 - y1 else y1 - y0) with dy by (unfold dy; destruct (Z.ltb_spec y1 y0); lia).
  rewrite Ex, Ey. reflexivity.
Qed.

(** ** C31: interpolation *)
Lemma get_pixel_spec chk im x y : image_ok im -> 0 <= x -> 0 <= y -> get_pixel_color chk im x y = Ok (shown im x y).
Proof.
  intros (S & L & _) X Y. unfold get_pixel_color, shown, image_pixel.
  destruct (inside_dec (i_w im) (i_h im) x y) as [I|I].
  - destruct (Z.leb_spec (i_w im) x); [unfold inside in I; lia|]. destruct (Z.leb_spec (i_h im) y); [unfold inside in I; lia|].
    cbn [orb]. rewrite (color_index_ok chk _ _ _ _ S I). cbn [obind]. unfold read4.
    destruct (pixel_in_case _ _ _ _ _ I L) as (r & g & b & a & -> & ->). reflexivity.
  - rewrite pixel_in_out by exact I. destruct (Z.leb_spec (i_w im) x); [reflexivity|]. destruct (Z.leb_spec (i_h im) y); [reflexivity|].
    exfalso. apply I. unfold inside. lia.
Qed.
Lemma shown_bytes im x y ch : image_ok im -> In ch channels -> 0 <= ch (shown im x y) <= 255.
Proof.
  intros (S & L & B) I. unfold shown, image_pixel. destruct (inside_dec (i_w im) (i_h im) x y) as [N|N].
  - destruct (pixel_in_case _ _ _ _ _ N L) as (r & g & b & a & E & ->).
    assert (F : Forall is_byte [r; g; b; a]).
    { rewrite <- E. rewrite <- (firstn_skipn (Z.to_nat ((y * i_w im + x) * 4)) (i_values im)) in B. apply Forall_app in B.
      destruct B as [_ B]. rewrite <- (firstn_skipn 4 (skipn _ _)) in B. apply Forall_app in B. tauto. }
    inversion F as [|? ? F1 G1]; subst. inversion G1 as [|? ? F2 G2]; subst. inversion G2 as [|? ? F3 G3]; subst. inversion G3 as [|? ? F4 _]; subst.
    unfold is_byte in *. unfold channels in I. cbn in I. destruct I as [<-|[<-|[<-|[<-|[]]]]]; cbn; lia.
  - rewrite pixel_in_out by exact N. cbn in I. destruct I as [<-|[<-|[<-|[<-|[]]]]]; cbn; lia.
Qed.
Lemma channel_of ch c1 w1 c2 w2 : In ch channels ->
  ch (interpolate_color c1 w1 c2 w2) = interpolate_channel (ch c1) w1 (ch c2) w2.
Proof. intro I. cbn in I. destruct I as [<-|[<-|[<-|[<-|[]]]]]; reflexivity. Qed.
Lemma channel_range a w1 b w2 : 0 <= interpolate_channel a w1 b w2 <= 255.
Proof. apply f_to_int_range. lia. Qed.
Lemma channel_stage x a b : fin x -> (0 <= xr x)%R -> Zfloor (xr x) <> Zceil (xr x) -> 0 <= a <= 255 -> 0 <= b <= 255 ->
  let r := interpolate_channel a (fsub (fceil x) x) b (fsub x (ffloor x)) in
  let t := (xr x - IZR (Zfloor (xr x)))%R in
  0 <= r <= 255 /\ Z.min a b - 1 <= r <= Z.max a b /\
  (IZR a * (1 - t) + IZR b * t - 1 - / 2048 < IZR r <= IZR a * (1 - t) + IZR b * t + / 2048)%R.
Proof.
  intros Fx H0 Hn Ba Bb r t0. split; [apply channel_range|].
  destruct (frac_bounds x Hn) as [Bt _]. set (t := (xr x - IZR (Zfloor (xr x)))%R) in *. change t0 with t. clear t0.
  destruct (fin_Z a ltac:(lia)) as [Fa Ea]. destruct (fin_Z b ltac:(lia)) as [Fb Eb].
  assert (Ra : (0 <= IZR a <= 255)%R) by (split; apply IZR_le; lia).
  assert (Rb : (0 <= IZR b <= 255)%R) by (split; apply IZR_le; lia).
  assert (B8 : (255 <= bpow radix2 120)%R).
  { apply Rle_trans with (bpow radix2 8); [cbn; lra|apply bpow_le; lia]. }
  destruct (f32_stage_err x (f32_of_Z a) (f32_of_Z b) 255 Fx H0 Hn Fa Fb B8) as [Fr Er];
    [rewrite Ea; apply Rabs_le; lra|rewrite Eb; apply Rabs_le; lra|].
  fold t in Er. rewrite Ea, Eb in Er. set (s := (IZR a * (1 - t) + IZR b * t)%R) in *.
  set (m := fadd (fmul (f32_of_Z a) (fsub (fceil x) x)) (fmul (f32_of_Z b) (fsub x (ffloor x)))) in *.
  assert (E : (Rabs (xr m - s) <= / 4000)%R).
  { eapply Rle_trans; [exact Er|]. assert (bpow radix2 (-140) <= / 16777216)%R.
    { apply Rle_trans with (bpow radix2 (-24)); [apply bpow_le; lia|]. cbn. lra. }
    assert (bpow radix2 (-20) = / 1048576)%R as -> by (cbn; lra). lra. }
  apply Rabs_le_inv in E.
  assert (C : (IZR (Z.min a b) <= s <= IZR (Z.max a b))%R).
  { apply convex; [split; apply IZR_le; lia|split; apply IZR_le; lia|lra]. }
  assert (R : r = Z.max 0 (Z.min 255 (Ztrunc (xr m)))).
  { unfold r, interpolate_channel. fold m. apply f_to_int_xr; [apply Fr|apply fin_nan, Fr|lia|lia]. }
  assert (T : (IZR r <= s + / 4000 /\ s - 1 - / 4000 < IZR r)%R).
  { destruct (Ztrunc_cases (xr m)) as [[P [Q1 Q2]]|[P [Q1 Q2]]].
    - assert (0 <= Ztrunc (xr m)) by (apply Ztrunc_le in P; rewrite Ztrunc_IZR in P; exact P).
      assert (Ztrunc (xr m) <= 255).
      { apply le_IZR. assert (Lt : (IZR (Ztrunc (xr m)) < 256)%R).
        { assert (IZR (Z.max a b) <= 255)%R by (apply IZR_le; lia). lra. }
        apply lt_IZR in Lt. apply IZR_le. lia. }
      rewrite R. replace (Z.max 0 (Z.min 255 (Ztrunc (xr m)))) with (Ztrunc (xr m)) by lia. lra.
    - assert (IZR (Z.min a b) >= 0)%R by (apply Rle_ge, IZR_le; lia).
      assert (Ztrunc (xr m) = 0) by (apply Ztrunc_small, Rabs_lt; lra).
      rewrite R, H1. cbn. lra. }
  split; [|lra]. destruct T as [T1 T2]. split.
  - assert (L : (IZR (Z.min a b - 2) < IZR r)%R) by (rewrite minus_IZR; lra). apply lt_IZR in L. lia.
  - assert (L : (IZR r < IZR (Z.max a b + 1))%R) by (rewrite plus_IZR; lra). apply lt_IZR in L. lia.
Qed.
Lemma channel_bilinear x y tl tr bl br : fin x -> fin y -> (0 <= xr x)%R -> (0 <= xr y)%R ->
  Zfloor (xr x) <> Zceil (xr x) -> Zfloor (xr y) <> Zceil (xr y) ->
  0 <= tl <= 255 -> 0 <= tr <= 255 -> 0 <= bl <= 255 -> 0 <= br <= 255 ->
  let row a b := interpolate_channel a (fsub (fceil x) x) b (fsub x (ffloor x)) in
  let r := interpolate_channel (row tl tr) (fsub (fceil y) y) (row bl br) (fsub y (ffloor y)) in
  let m := bilinear (xr x - IZR (Zfloor (xr x))) (xr y - IZR (Zfloor (xr y))) (IZR tl) (IZR tr) (IZR bl) (IZR br) in
  Z.min (Z.min tl tr) (Z.min bl br) - 2 <= r <= Z.max (Z.max tl tr) (Z.max bl br) /\
  (m - 2 - / 1024 < IZR r <= m + / 1024)%R.
Proof.
  intros Fx Fy Hx Hy Nx Ny B1 B2 B3 B4 row r m.
  destruct (channel_stage x tl tr Fx Hx Nx B1 B2) as (G1 & H1 & E1). destruct (channel_stage x bl br Fx Hx Nx B3 B4) as (G2 & H2 & E2).
  fold (row tl tr) in G1, H1, E1. fold (row bl br) in G2, H2, E2.
  destruct (channel_stage y (row tl tr) (row bl br) Fy Hy Ny G1 G2) as (G & H & E). fold r in G, H, E.
  split; [lia|]. destruct (frac_bounds x Nx) as [Bt _]. destruct (frac_bounds y Ny) as [Bu _].
  unfold m, bilinear in *. clear m.
  set (t := (xr x - IZR (Zfloor (xr x)))%R) in *. set (u := (xr y - IZR (Zfloor (xr y)))%R) in *.
  set (p := (IZR tl * (1 - t) + IZR tr * t)%R) in *. set (q := (IZR bl * (1 - t) + IZR br * t)%R) in *.
  pose proof (convex (- (1 + / 2048)) (/ 2048) (IZR (row tl tr) - p) (IZR (row bl br) - q) u ltac:(lra) ltac:(lra) ltac:(lra)) as K.
  lra.
Qed.
Lemma f_integral_num g G x : is_int_part g G -> num x -> num (f_integral g x) /\
  (fis_finite x = true -> xr (f_integral g x) = IZR (G (xr x))) /\ (fis_finite x = false -> f_integral g x = x).
Proof.
  intros HG [V N]. destruct (fis_finite x) eqn:F.
  - destruct (f_integral_xr g G x HG V F) as (V' & F' & E). split; [apply fin_num; split; assumption|]. split; [intros _; exact E|discriminate].
  - destruct x; try discriminate. split; [split; assumption|]. split; [discriminate|reflexivity].
Qed.
Lemma floor_part : is_int_part sf_floor Zfloor.
Proof. left. split; reflexivity. Qed.
Lemma ceil_part : is_int_part sf_ceil Zceil.
Proof. right. left. split; reflexivity. Qed.
Lemma fzero_num : num fzero /\ xr fzero = 0%R.
Proof. split; [split; reflexivity|reflexivity]. Qed.
Lemma axis_out x w : num x -> 0 < w <= 2 ^ 24 -> (xr x <= -1 \/ IZR w <= xr x)%R ->
  flt (fceil x) fzero = true \/ fge (ffloor x) (f32_of_Z w) = true.
Proof.
  intros N W H. destruct (fin_Z w ltac:(lia)) as [Fw Ew]. destruct fzero_num as [Nz Ez]. destruct H as [H|H].
  - left. destruct (f_integral_num sf_ceil Zceil x ceil_part N) as (N' & A & B). fold (fceil x) in N', A, B.
    apply flt_num; [exact N'|exact Nz|]. rewrite Ez. destruct (fis_finite x).
    + rewrite A by reflexivity. apply IZR_lt. pose proof (Zceil_lb (xr x)). apply lt_IZR. lra.
    + rewrite B by reflexivity. lra.
  - right. destruct (f_integral_num sf_floor Zfloor x floor_part N) as (N' & A & B). fold (ffloor x) in N', A, B.
    apply (fle_num (f32_of_Z w) (ffloor x)); [apply fin_num, Fw|exact N'|]. rewrite Ew. destruct (fis_finite x).
    + rewrite A by reflexivity. apply IZR_le. apply Zfloor_lub. exact H.
    + rewrite B by reflexivity. exact H.
Qed.
Lemma axis_in x w : fin x -> 0 < w <= 2 ^ 24 -> (-1 < xr x < IZR w)%R ->
  flt (fceil x) fzero = false /\ fge (ffloor x) (f32_of_Z w) = false /\
  f_to_u32 (ffloor x) = Z.max 0 (Zfloor (xr x)) /\ f_to_u32 (fceil x) = Zceil (xr x).
Proof.
  intros F W H. destruct (fin_Z w ltac:(lia)) as [Fw Ew]. destruct fzero_num as [Nz Ez].
  destruct (f_integral_num sf_ceil Zceil x ceil_part (fin_num _ F)) as (Nc & C & _). fold (fceil x) in Nc, C.
  destruct (f_integral_num sf_floor Zfloor x floor_part (fin_num _ F)) as (Nf & D & _). fold (ffloor x) in Nf, D.
  specialize (C (proj2 F)). specialize (D (proj2 F)).
  assert (0 <= Zceil (xr x)). { assert (Zceil (-1) < Zceil (xr x) \/ Zceil (xr x) <= -1) as [K|K] by (rewrite (Zceil_IZR (-1)); lia).
    - rewrite (Zceil_IZR (-1)) in K. lia.
    - apply IZR_le in K. pose proof (Zceil_ub (xr x)). lra. }
  assert (Zfloor (xr x) < w). { apply lt_IZR. pose proof (Zfloor_lb (xr x)). lra. }
  assert (Zceil (xr x) <= w) by (apply Zceil_glb; lra).
  assert (-1 <= Zfloor (xr x)) by (apply Zfloor_lub; lra).
  split; [|split; [|split]].
  - apply flt_num_false; [exact Nc|exact Nz|]. rewrite Ez, C. apply IZR_le. lia.
  - destruct (fge (ffloor x) (f32_of_Z w)) eqn:E; [|reflexivity]. apply (fle_num (f32_of_Z w) (ffloor x)) in E; [|apply fin_num, Fw|exact Nf].
    rewrite Ew, D in E. apply le_IZR in E. lia.
  - unfold f_to_u32. rewrite f_to_int_xr; [|apply Nf|apply Nf|lia|lia]. rewrite D, Ztrunc_IZR. lia.
  - unfold f_to_u32. rewrite f_to_int_xr; [|apply Nc|apply Nc|lia|lia]. rewrite C, Ztrunc_IZR. lia.
Qed.
Lemma interpolate_ok chk im x y : image_ok im ->
  exists c, interpolate_pixel_color chk im x y = Ok c /\ (forall ch, In ch channels -> 0 <= ch c <= 255).
Proof.
  intro I. unfold interpolate_pixel_color.
  assert (T : forall ch, In ch channels -> 0 <= ch COLOR_TRANSPARENT <= 255).
  { intros ch J. cbn in J. destruct J as [<-|[<-|[<-|[<-|[]]]]]; cbn; lia. }
  pose proof (f_to_int_range 0 4294967295) as P.
  destruct (_ || _); [exists COLOR_TRANSPARENT; auto|].
  assert (G : forall a b, get_pixel_color chk im (f_to_u32 a) (f_to_u32 b) = Ok (shown im (f_to_u32 a) (f_to_u32 b))).
  { intros a b. apply get_pixel_spec; [exact I|apply P; lia|apply P; lia]. }
  destruct (_ || _).
  - rewrite G. eexists. split; [reflexivity|]. intros ch J. apply shown_bytes; assumption.
  - rewrite !G. cbn [obind]. eexists. split; [reflexivity|]. intros ch J. rewrite channel_of by exact J. apply channel_range.
Qed.
Lemma interpolate_out chk im x y : i_w im <= 2 ^ 24 -> i_h im <= 2 ^ 24 -> image_ok im ->
  num x /\ (xr x <= -1 \/ IZR (i_w im) <= xr x)%R \/ num y /\ (xr y <= -1 \/ IZR (i_h im) <= xr y)%R ->
  interpolate_pixel_color chk im x y = Ok COLOR_TRANSPARENT.
Proof.
  intros W H ((W0 & H0 & _) & _) [[N O]|[N O]]; unfold interpolate_pixel_color.
  - destruct (axis_out x (i_w im) N ltac:(lia) O) as [E|E]; rewrite E; rewrite ?orb_true_r; reflexivity.
  - destruct (axis_out y (i_h im) N ltac:(lia) O) as [E|E]; rewrite E; rewrite ?orb_true_r; reflexivity.
Qed.
Lemma interpolate_in chk im x y : i_w im <= 2 ^ 24 -> i_h im <= 2 ^ 24 -> image_ok im -> fin x -> fin y ->
  (-1 < xr x < IZR (i_w im))%R -> (-1 < xr y < IZR (i_h im))%R ->
  let i := Z.max 0 (Zfloor (xr x)) in let j := Z.max 0 (Zfloor (xr y)) in
  let i' := Zceil (xr x) in let j' := Zceil (xr y) in
  interpolate_pixel_color chk im x y =
    if (i =? i') || (j =? j') then Ok (shown im i j)
    else Ok (interpolate_color (interpolate_color (shown im i j) (fsub (fceil x) x) (shown im i' j) (fsub x (ffloor x)))
                               (fsub (fceil y) y)
                               (interpolate_color (shown im i j') (fsub (fceil x) x) (shown im i' j') (fsub x (ffloor x)))
                               (fsub y (ffloor y))).
Proof.
  intros W H I Fx Fy Bx By i j i' j'. pose proof I as ((W0 & H0 & _) & _). unfold interpolate_pixel_color.
  destruct (axis_in x (i_w im) Fx ltac:(lia) Bx) as (E1 & E2 & E3 & E4).
  destruct (axis_in y (i_h im) Fy ltac:(lia) By) as (E5 & E6 & E7 & E8).
  assert (0 <= i') by (unfold i'; rewrite <- E4; apply f_to_int_range; lia).
  assert (0 <= j') by (unfold j'; rewrite <- E8; apply f_to_int_range; lia).
  rewrite E1, E2, E3, E4, E5, E6, E7, E8. cbn [orb]. fold i j i' j'.
  destruct (_ || _); [apply get_pixel_spec; [exact I|lia|lia]|].
  rewrite !get_pixel_spec by (exact I || lia). reflexivity.
Qed.
Lemma interpolate_plain chk im x y : i_w im <= 2 ^ 24 -> i_h im <= 2 ^ 24 -> image_ok im -> fin x -> fin y ->
  (-1 < xr x < IZR (i_w im))%R -> (-1 < xr y < IZR (i_h im))%R ->
  (xr x <= 0 \/ xr y <= 0 \/ (exists k, xr x = IZR k) \/ (exists k, xr y = IZR k))%R ->
  interpolate_pixel_color chk im x y = Ok (shown im (Z.max 0 (Zfloor (xr x))) (Z.max 0 (Zfloor (xr y)))).
Proof.
  intros W H I Fx Fy Bx By K. rewrite interpolate_in by assumption.
  assert (L : forall r, (-1 < r)%R -> (r <= 0 \/ exists k, r = IZR k)%R -> Z.max 0 (Zfloor r) =? Zceil r = true).
  { intros r R [Q|(k & ->)]; apply Z.eqb_eq.
    - assert (Zceil r <= 0) by (apply Zceil_glb; lra). assert (Zfloor r <= 0) by (apply le_IZR; pose proof (Zfloor_lb r); lra).
      assert (-1 < Zceil r) by (apply lt_IZR; pose proof (Zceil_ub r); lra). lia.
    - rewrite Zfloor_IZR, Zceil_IZR. apply (lt_IZR (-1) k) in R. lia. }
  destruct K as [K|[K|[K|K]]].
  - rewrite (L (xr x)) by (lra || auto). reflexivity.
  - rewrite (L (xr y)) by (lra || auto). rewrite orb_true_r. reflexivity.
  - rewrite (L (xr x)) by (lra || auto). reflexivity.
  - rewrite (L (xr y)) by (lra || auto). rewrite orb_true_r. reflexivity.
Qed.
Lemma interpolate_bilinear chk im x y i j : i_w im <= 2 ^ 24 -> i_h im <= 2 ^ 24 -> image_ok im -> fin x -> fin y ->
  0 <= i < i_w im -> 0 <= j < i_h im -> (IZR i < xr x < IZR i + 1)%R -> (IZR j < xr y < IZR j + 1)%R ->
  exists c, interpolate_pixel_color chk im x y = Ok c /\
  forall ch, In ch channels ->
    let tl := ch (shown im i j) in let tr := ch (shown im (i + 1) j) in
    let bl := ch (shown im i (j + 1)) in let br := ch (shown im (i + 1) (j + 1)) in
    let m := bilinear (xr x - IZR i) (xr y - IZR j) (IZR tl) (IZR tr) (IZR bl) (IZR br) in
    Z.min (Z.min tl tr) (Z.min bl br) - 2 <= ch c <= Z.max (Z.max tl tr) (Z.max bl br) /\
    (m - 2 - / 1024 < IZR (ch c) <= m + / 1024)%R.
Proof.
  intros W H I Fx Fy Bi Bj Bx By. destruct (open_cell _ _ Bx) as [F1 C1]. destruct (open_cell _ _ By) as [F2 C2].
  assert (0 <= IZR i)%R by (apply IZR_le; lia). assert (0 <= IZR j)%R by (apply IZR_le; lia).
  assert (IZR i + 1 <= IZR (i_w im))%R by (rewrite <- plus_IZR; apply IZR_le; lia).
  assert (IZR j + 1 <= IZR (i_h im))%R by (rewrite <- plus_IZR; apply IZR_le; lia).
  rewrite interpolate_in by (assumption || lra). rewrite F1, F2, C1, C2, !Z.max_r by lia.
  destruct (Z.eqb_spec i (i + 1)); [lia|]. destruct (Z.eqb_spec j (j + 1)); [lia|]. cbn [orb].
  eexists. split; [reflexivity|]. intros ch Ic. rewrite !channel_of by exact Ic.
  pose proof (channel_bilinear x y (ch (shown im i j)) (ch (shown im (i + 1) j)) (ch (shown im i (j + 1))) (ch (shown im (i + 1) (j + 1)))
    Fx Fy ltac:(lra) ltac:(lra) ltac:(lia) ltac:(lia)) as K. cbv zeta in K. rewrite F1, F2 in K. apply K; apply shown_bytes; assumption.
Qed.

Lemma c28_no_pixels_proof : forall chk w h, w = 0 \/ h = 0 -> exists e, create_empty chk w h = Err e.
Proof. intros chk w h [->| ->]; unfold create_empty; cbn; rewrite ?orb_true_r; eauto. Qed.

Lemma c28_outside_proof : forall chk d x y c, 0 <= x -> 0 <= y -> ~ inside (d_w d) (d_h d) x y -> draw_point chk d x y c = Panic.
Proof. intros chk d x y c X Y N. apply draw_point_out. unfold inside in N. lia. Qed.

Lemma c29_rows_proof : forall chk w h rows, size_ok w h -> rows_fit w h rows ->
  exists d, create_with_data chk w h rows = Ok d /\ drawable_ok d /\ d_w d = w /\ d_h d = h /\
    forall x y, inside w h x y ->
      pixel d x y = match nth_error rows (Z.to_nat (h - 1 - y)) with
                    | Some row => match nth_error row (Z.to_nat x) with Some c => Some c | None => Some COLOR_TRANSPARENT end
                    | None => Some COLOR_TRANSPARENT
                    end.
Proof.
  intros chk w h rows S F. destruct (create_empty_spec chk w h S) as (d0 & E0 & K0 & W0 & H0 & T0).
  unfold create_with_data. rewrite E0. cbn [obind].
  destruct (draw_rows_ok chk rows d0 0 K0) as (d & E & K & [Sw Sh] & At & Fr); [lia| |].
  { intros k row N. rewrite W0, H0. rewrite Z.add_0_l. apply F. exact N. }
  exists d. split; [exact E|]. split; [exact K|]. split; [congruence|]. split; [congruence|].
  intros x y I. pose proof I as [Ix Iy]. rewrite H0 in At, Fr. destruct (nth_error rows (Z.to_nat (h - 1 - y))) as [row|] eqn:Nr.
  - destruct (nth_error row (Z.to_nat x)) as [c|] eqn:Nc.
    + specialize (At _ _ _ _ Nr Nc). rewrite !Z2Nat.id in At by lia. replace (h - 1 - 0 - (h - 1 - y)) with y in At by lia. exact At.
    + rewrite Fr; [apply T0, I|]. intros k r Nk ->. left. replace (Z.to_nat (h - 1 - (h - 1 - 0 - Z.of_nat k))) with k in Nr by lia.
      rewrite Nr in Nk. injection Nk as <-. apply nth_error_None in Nc. lia.
  - rewrite Fr; [apply T0, I|]. intros k r Nk ->. exfalso. replace (Z.to_nat (h - 1 - (h - 1 - 0 - Z.of_nat k))) with k in Nr by lia. congruence.
Qed.

Lemma c29_too_many_proof : forall chk w h rows, size_ok w h -> ~ rows_fit w h rows -> Z.of_nat (length rows) <= 2 ^ 32 ->
  create_with_data chk w h rows = Panic.
Proof.
  intros chk w h rows S F L. destruct (create_empty_spec chk w h S) as (d0 & E0 & K0 & W0 & H0 & T0).
  unfold create_with_data. rewrite E0. cbn [obind]. apply draw_rows_panic; [exact K0|lia|lia|]. rewrite W0, H0.
  assert (D : forall row k, Z.of_nat (length row) <= w /\ (h <= Z.of_nat k -> row = []) \/
     (w < Z.of_nat (length (row : list color)) \/ (h <= 0 + Z.of_nat k /\ row <> []))).
  { intros row k. destruct (Z_lt_le_dec w (Z.of_nat (length row))) as [A|A]; [right; left; lia|].
    destruct (Z_lt_le_dec (Z.of_nat k) h) as [B|B]; [left; split; [lia|lia]|].
    destruct row; [left; split; [lia|reflexivity]|right; right; split; [lia|discriminate]]. }
  assert (G : forall rs n, (forall k row, nth_error rs k = Some row -> Z.of_nat (length row) <= w /\ (h <= Z.of_nat (n + k) -> row = [])) \/
     exists k row, nth_error rs k = Some row /\ (w < Z.of_nat (length (row : list color)) \/ (h <= 0 + Z.of_nat (n + k) /\ row <> []))).
  { induction rs as [|r rs IH]; intro n; [left; intros [|k]; discriminate|].
    destruct (D r n) as [A|A]; [|right; exists 0%nat, r; rewrite Nat.add_0_r; auto].
    destruct (IH (Datatypes.S n)) as [B|(k & row & N & B)].
    - left. intros [|k] row N; [injection N as <-; rewrite Nat.add_0_r; exact A|]. replace (n + Datatypes.S k)%nat with (Datatypes.S n + k)%nat by lia. apply B, N.
    - right. exists (Datatypes.S k), row. replace (n + Datatypes.S k)%nat with (Datatypes.S n + k)%nat by lia. auto. }
  destruct (G rows 0%nat) as [A|A]; [|exact A]. exfalso. apply F. intros k row N. apply A, N.
Qed.
