(** Proofs about the lookup maps of unstructured grids and about regridding (C18-C20, C22). *)
From Coq Require Import ZArith Reals Psatz Bool List Lia Lra Permutation.
From Coq Require Import Floats.SpecFloat.
From Flocq Require Import Core.Core.
From Verif Require Import Base F32 F32Facts Grib2Model GeoModel GeoSpec GeoProofs GeoValueProofs.
Import ListNotations.
Open Scope Z_scope.

(** ** C18 *)
Lemma triple_step ks rej l cd : (length ks <= 3)%nat -> (rej <> [] -> length ks = 3%nat) ->
  Forall num_dist ks -> num_dist cd ->
  (forall k r, In k ks -> In r rej -> (xr (snd k) <= xr (snd r))%R) ->
  Permutation l (ks ++ rej) ->
  exists ks' rej', triple_add (map Some ks ++ repeat None (3 - length ks)) cd = map Some ks' ++ repeat None (3 - length ks') /\
    (length ks' <= 3)%nat /\ (rej' <> [] -> length ks' = 3%nat) /\ Forall num_dist ks' /\
    (forall k r, In k ks' -> In r rej' -> (xr (snd k) <= xr (snd r))%R) /\
    Permutation (l ++ [cd]) (ks' ++ rej').
Proof.
  intros L R N Nc O P.
  destruct (Nat.eq_dec (length ks) 3) as [L3|L3].
  - destruct ks as [|a [|b [|c [|]]]]; try discriminate L3. cbn [length Nat.sub map repeat app].
    pose proof (Forall_inv N) as Na. pose proof (Forall_inv (Forall_inv_tail N)) as Nb.
    pose proof (Forall_inv (Forall_inv_tail (Forall_inv_tail N))) as Nd.
    unfold num_dist in *. unfold triple_add. cbn [triple_search].
    assert (Perm : forall ks1 rej1, Permutation ([a; b; c] ++ [cd]) (ks1 ++ rej1) -> Permutation (l ++ [cd]) (ks1 ++ rej1 ++ rej)).
    { intros ks1 rej1 Q. rewrite P. rewrite <- app_assoc. rewrite (Permutation_app_comm rej [cd]).
      rewrite app_assoc, Q, <- app_assoc. reflexivity. }
    Ltac orders := repeat match goal with
      | H : fgt ?a ?b = true |- _ => apply (flt_num b a) in H; [|assumption|assumption]
      | H : fgt ?a ?b = false |- _ => apply (flt_num_false b a) in H; [|assumption|assumption] end.
    Ltac fin_case := split; [reflexivity|]; split; [cbn; lia|]; split; [reflexivity|];
      split; [repeat first [apply Forall_nil | apply Forall_cons; [assumption|]]|]; split.
    assert (OA := fun r => O a r ltac:(now left)). assert (OB := fun r => O b r ltac:(right; now left)).
    assert (OC := fun r => O c r ltac:(right; right; now left)).
    destruct (fgt (snd a) (snd cd)) eqn:E1.
    + destruct (fgt (snd b) (snd a)) eqn:E2.
      * destruct (fgt (snd c) (snd b)) eqn:E3; cbn [set_nth]; orders.
        -- exists [a; b; cd], ([c] ++ rej). fin_case; [|apply Perm].
           ++ intros k r [<-|[<-|[<-|[]]]] [<-|I]; try lra; try (apply OA; exact I); try (apply OB; exact I); try (specialize (OC r I); lra).
           ++ cbn. apply perm_skip, perm_skip, perm_swap.
        -- exists [a; cd; c], ([b] ++ rej). fin_case; [|apply Perm].
           ++ intros k r [<-|[<-|[<-|[]]]] [<-|I]; try lra; try (apply OA; exact I); try (apply OC; exact I); try (specialize (OB r I); lra).
           ++ cbn. apply perm_skip. apply (Permutation_trans (l' := [cd; b; c])); [|apply perm_skip, perm_swap].
              apply (Permutation_trans (l' := [b; cd; c])); [apply perm_skip, perm_swap|apply perm_swap].
      * destruct (fgt (snd c) (snd a)) eqn:E3; cbn [set_nth]; orders.
        -- exists [a; b; cd], ([c] ++ rej). fin_case; [|apply Perm].
           ++ intros k r [<-|[<-|[<-|[]]]] [<-|I]; try lra; try (apply OA; exact I); try (apply OB; exact I); try (specialize (OC r I); lra).
           ++ cbn. apply perm_skip, perm_skip, perm_swap.
        -- exists [cd; b; c], ([a] ++ rej). fin_case; [|apply Perm].
           ++ intros k r [<-|[<-|[<-|[]]]] [<-|I]; try lra; try (apply OB; exact I); try (apply OC; exact I); try (specialize (OA r I); lra).
           ++ cbn. apply Permutation_sym. apply (Permutation_trans (l' := cd :: [a; b; c])).
              ** apply perm_skip. apply Permutation_sym, (Permutation_cons_append [b; c] a).
              ** apply (Permutation_cons_append [a; b; c] cd).
    + destruct (fgt (snd b) (snd cd)) eqn:E2.
      * destruct (fgt (snd c) (snd b)) eqn:E3; cbn [set_nth]; orders.
        -- exists [a; b; cd], ([c] ++ rej). fin_case; [|apply Perm].
           ++ intros k r [<-|[<-|[<-|[]]]] [<-|I]; try lra; try (apply OA; exact I); try (apply OB; exact I); try (specialize (OC r I); lra).
           ++ cbn. apply perm_skip, perm_skip, perm_swap.
        -- exists [a; cd; c], ([b] ++ rej). fin_case; [|apply Perm].
           ++ intros k r [<-|[<-|[<-|[]]]] [<-|I]; try lra; try (apply OA; exact I); try (apply OC; exact I); try (specialize (OB r I); lra).
           ++ cbn. apply perm_skip. apply (Permutation_trans (l' := [cd; b; c])); [|apply perm_skip, perm_swap].
              apply (Permutation_trans (l' := [b; cd; c])); [apply perm_skip, perm_swap|apply perm_swap].
      * destruct (fgt (snd c) (snd cd)) eqn:E3; cbn [set_nth]; orders.
        -- exists [a; b; cd], ([c] ++ rej). fin_case; [|apply Perm].
           ++ intros k r [<-|[<-|[<-|[]]]] [<-|I]; try lra; try (apply OA; exact I); try (apply OB; exact I); try (specialize (OC r I); lra).
           ++ cbn. apply perm_skip, perm_skip, perm_swap.
        -- exists [a; b; c], ([cd] ++ rej). fin_case; [|apply Perm; reflexivity].
           intros k r [<-|[<-|[<-|[]]]] [<-|I]; try lra; auto.
  - assert (rej = []) as -> by (destruct rej; [reflexivity|exfalso; apply L3, R; discriminate]).
    exists (ks ++ [cd]), []. rewrite app_nil_r in *. rewrite app_length. cbn [length].
    split; [|split; [lia|split; [congruence|split; [apply Forall_app; auto|split; [intros k r _ []|now rewrite P]]]]].
    destruct ks as [|a [|b [|c ks]]]; cbn [length] in *; try lia; unfold triple_add;
      cbn [length Nat.sub Nat.add map repeat app triple_search set_nth]; repeat match goal with |- context [fgt ?u ?v] => destruct (fgt u v) end; reflexivity.
Qed.
Lemma triple_fold l : Forall num_dist l ->
  exists ks rej, fold_left triple_add l triple_new = map Some ks ++ repeat None (3 - length ks) /\
    (length ks <= 3)%nat /\ (rej <> [] -> length ks = 3%nat) /\ Forall num_dist ks /\
    (forall k r, In k ks -> In r rej -> (xr (snd k) <= xr (snd r))%R) /\
    Permutation l (ks ++ rej).
Proof.
  induction l as [|cd l IH] using rev_ind; intro N.
  - exists [], []. repeat split; try reflexivity; try (cbn; lia); try congruence; try constructor; intros k r [].
  - apply Forall_app in N. destruct N as [N1 N2]. destruct (IH N1) as (ks & rej & E & L & R & Nk & O & P).
    rewrite fold_left_app. cbn [fold_left]. rewrite E. apply (triple_step ks rej l cd); try assumption. apply (Forall_inv N2).
Qed.
Lemma triple_dists_some ks n : triple_dists (map Some ks ++ repeat None n) = ks.
Proof.
  unfold triple_dists. rewrite flat_map_app. assert (flat_map (fun o : option coord_dist => match o with Some cd => [cd] | None => [] end) (repeat None n) = []) as ->.
  { induction n; [reflexivity|exact IHn]. }
  rewrite app_nil_r. induction ks as [|k ks IH]; [reflexivity|]. cbn. now rewrite IH.
Qed.
Lemma triple_nearest l : Forall num_dist l ->
  let kept := triple_dists (fold_left triple_add l triple_new) in
  length kept = Nat.min 3 (length l) /\
  exists rejected, Permutation l (kept ++ rejected) /\
    forall k r, In k kept -> In r rejected -> (xr (snd k) <= xr (snd r))%R.
Proof.
  intros N kept. destruct (triple_fold l N) as (ks & rej & E & L & R & _ & O & P).
  assert (kept = ks) as -> by (unfold kept; rewrite E; apply triple_dists_some).
  split; [|exists rej; split; assumption].
  apply Permutation_length in P. rewrite app_length in P. destruct rej as [|r rej].
  - cbn in P. lia.
  - rewrite R by discriminate. cbn [length] in P. rewrite R in P by discriminate. lia.
Qed.

(** ** The lookup map, cell by cell *)
Lemma set_nth_length {T} i (v : T) l : length (set_nth i v l) = length l.
Proof. revert i. induction l as [|a l IH]; intros [|i]; cbn; auto. Qed.
Lemma set_nth_same {T} i (v : T) l : (i < length l)%nat -> nth_error (set_nth i v l) i = Some v.
Proof. revert i. induction l as [|a l IH]; intros [|i] H; cbn in *; try lia; [reflexivity|]. apply IH. lia. Qed.
Lemma set_nth_other {T} i j (v : T) l : i <> j -> nth_error (set_nth i v l) j = nth_error l j.
Proof. revert i j. induction l as [|a l IH]; intros [|i] [|j] H; cbn; try reflexivity; try congruence. apply IH. congruence. Qed.
Lemma zrange_In a b z : In z (zrange a b) <-> a <= z <= b.
Proof.
  unfold zrange. rewrite in_map_iff. split.
  - intros (i & <- & I). apply in_seq in I. lia.
  - intro H. exists (Z.to_nat (z - a)). split; [lia|]. apply in_seq. lia.
Qed.
Lemma zrange_NoDup a b : NoDup (zrange a b).
Proof.
  unfold zrange. apply FinFun.Injective_map_NoDup; [|apply seq_NoDup]. intros i j. lia.
Qed.

Section Map.
  Context {S : Type} (offer : Z -> f32 -> S -> S) (chk : bool) (g : grid) (d : f32).
  Let w := g_w g.
  Let h := g_h g.
  (** The squared distance at which a coordinate reaches a cell of its window. *)
  Definition reach (c : lat_lon) (x y : Z) : option f32 :=
    match cell_centre g x y with
    | None => None
    | Some p => if fgt (dist_squared c p) (fmul d d) then None else Some (dist_squared c p)
    end.
  Definition idx (x y : Z) : nat := Z.to_nat (x + y * w).
  Definition slot (o : option f32) (i : Z) (s : S) : S := match o with Some d2 => offer i d2 s | None => s end.

  Lemma idx_inj x y x' y' : 0 <= x < w -> 0 <= y -> 0 <= x' < w -> 0 <= y' -> idx x y = idx x' y' -> x = x' /\ y = y'.
  Proof.
    unfold idx. intros Hx Hy Hx' Hy' E. apply Z2Nat.inj in E; [|nia|nia].
    assert (y = y'); [|split; [nia|assumption]].
    assert (E' : (x + y * w) / w = (x' + y' * w) / w) by now rewrite E.
    rewrite !Z.div_add in E' by lia. rewrite !Z.div_small in E' by lia. lia.
  Qed.
  Lemma visit_cell_length i c m x y : length (visit_cell offer g d i c m x y) = length m.
  Proof.
    unfold visit_cell. destruct (index_by_xy g x y); [|reflexivity]. destruct (cell_centre g x y); [|reflexivity].
    destruct fgt; [reflexivity|]. destruct nth_error; [apply set_nth_length|reflexivity].
  Qed.
  Lemma visit_cell_slot i c m x y x' y' : length m = Z.to_nat (w * h) -> 0 <= x -> 0 <= y -> 0 <= x' < w -> 0 <= y' < h ->
    nth_error (visit_cell offer g d i c m x y) (idx x' y') =
    if (x =? x') && (y =? y') then option_map (slot (reach c x' y') i) (nth_error m (idx x' y'))
    else nth_error m (idx x' y').
  Proof.
    intros L Hx Hy Hx' Hy'. unfold visit_cell, index_by_xy. fold w h.
    destruct (Z.leb_spec w x); cbn [orb].
    { destruct (Z.eqb_spec x x'); [lia|]. reflexivity. }
    destruct (Z.leb_spec h y).
    { destruct (Z.eqb_spec y y'); [lia|]. rewrite andb_false_r. reflexivity. }
    fold (idx x y).
    destruct (Z.eqb_spec x x') as [Ex|Ex]; [destruct (Z.eqb_spec y y') as [Ey|Ey]|]; cbn [andb].
    - subst x' y'. unfold reach. destruct (cell_centre g x y) as [p|]; [|cbn; destruct (nth_error m (idx x y)); reflexivity].
      destruct (fgt (dist_squared c p) (fmul d d)); [cbn; destruct (nth_error m (idx x y)); reflexivity|].
      destruct (nth_error m (idx x y)) as [s|] eqn:E; [|cbn; assumption].
      cbn [option_map slot]. rewrite set_nth_same; [reflexivity|]. apply nth_error_Some. congruence.
    - destruct (cell_centre g x y); [|reflexivity]. destruct fgt; [reflexivity|].
      destruct (nth_error m (idx x y)); [|reflexivity]. apply set_nth_other.
      intro E. apply idx_inj in E; lia.
    - destruct (cell_centre g x y); [|reflexivity]. destruct fgt; [reflexivity|].
      destruct (nth_error m (idx x y)); [|reflexivity]. apply set_nth_other.
      intro E. apply idx_inj in E; lia.
  Qed.
  Lemma column_slot i c m x ys x' y' : length m = Z.to_nat (w * h) -> 0 <= x -> Forall (fun y => 0 <= y) ys -> NoDup ys ->
    0 <= x' < w -> 0 <= y' < h ->
    length (fold_left (fun m y => visit_cell offer g d i c m x y) ys m) = length m /\
    nth_error (fold_left (fun m y => visit_cell offer g d i c m x y) ys m) (idx x' y') =
    if (x =? x') && existsb (Z.eqb y') ys then option_map (slot (reach c x' y') i) (nth_error m (idx x' y'))
    else nth_error m (idx x' y').
  Proof.
    intros L Hx F N Hx' Hy'. revert m L. induction ys as [|y ys IH]; intros m L.
    - cbn. rewrite andb_false_r. auto.
    - cbn [fold_left existsb]. inversion F as [|? ? Hy F']; subst. inversion N as [|? ? Ny N']; subst.
      destruct (IH F' N' (visit_cell offer g d i c m x y)) as [L1 E1].
      { rewrite visit_cell_length. exact L. }
      rewrite visit_cell_length in L1. split; [exact L1|]. rewrite E1. clear E1.
      rewrite visit_cell_slot by assumption. rewrite (Z.eqb_sym y' y).
      destruct (Z.eqb_spec x x'); cbn [andb]; [|reflexivity].
      destruct (Z.eqb_spec y y') as [->|]; cbn [orb]; [|reflexivity].
      destruct (existsb (Z.eqb y') ys) eqn:Ex; [|reflexivity].
      apply existsb_exists in Ex. destruct Ex as (z & I & K). apply Z.eqb_eq in K. subst z. contradiction.
  Qed.
  Lemma window_slot i c m xs ys x' y' : length m = Z.to_nat (w * h) -> Forall (fun x => 0 <= x) xs -> NoDup xs ->
    Forall (fun y => 0 <= y) ys -> NoDup ys -> 0 <= x' < w -> 0 <= y' < h ->
    length (fold_left (fun m x => fold_left (fun m y => visit_cell offer g d i c m x y) ys m) xs m) = length m /\
    nth_error (fold_left (fun m x => fold_left (fun m y => visit_cell offer g d i c m x y) ys m) xs m) (idx x' y') =
    if existsb (Z.eqb x') xs && existsb (Z.eqb y') ys then option_map (slot (reach c x' y') i) (nth_error m (idx x' y'))
    else nth_error m (idx x' y').
  Proof.
    intros L F N Fy Ny Hx' Hy'. revert m L. induction xs as [|x xs IH]; intros m L.
    - cbn. auto.
    - cbn [fold_left existsb]. inversion F as [|? ? Hx F']; subst. inversion N as [|? ? Nx N']; subst.
      destruct (column_slot i c m x ys x' y' L Hx Fy Ny Hx' Hy') as [L0 E0].
      destruct (IH F' N' (fold_left (fun m y => visit_cell offer g d i c m x y) ys m)) as [L1 E1]; [congruence|].
      split; [congruence|]. rewrite E1, E0. clear E1 E0. rewrite (Z.eqb_sym x' x).
      destruct (Z.eqb_spec x x') as [->|]; cbn [andb orb]; [|reflexivity].
      destruct (existsb (Z.eqb x') xs) eqn:Ex; [|reflexivity].
      apply existsb_exists in Ex. destruct Ex as (z & I & K). apply Z.eqb_eq in K. subst z. contradiction.
  Qed.
  (** Does the window of a coordinate cover the cell? *)
  Definition covered (c : lat_lon) (x y : Z) : bool :=
    match min_max_xy chk g c d with
    | Ok ((x0, y0), (x1, y1)) => (x0 <=? x) && (x <=? x1) && ((y0 <=? y) && (y <=? y1))
    | _ => false
    end.
  Definition touch (c : lat_lon) (x y : Z) : option f32 :=
    if negb (skipped g d c) && covered c x y then reach c x y else None.
  Lemma min_max_ok c : 1 <= w -> 1 <= h -> exists x0 y0 x1 y1, min_max_xy chk g c d = Ok ((x0, y0), (x1, y1)) /\ 0 <= x0 /\ 0 <= y0.
  Proof.
    intros Hw Hh. unfold min_max_xy.
    assert (U : forall n, 1 <= n -> usub chk 64 n 1 = Ok (n - 1)).
    { intros n Hn. unfold usub. destruct (Z.leb_spec 1 n); [reflexivity|lia]. }
    fold w h. rewrite (U w Hw), (U h Hh). cbn [obind].
    assert (P : forall o : option (f32 * f32), exists a b,
      (match o with Some (x, y) => (f_to_usize x, f_to_usize y) | None => (0, 0) end) = (a, b) /\ 0 <= a /\ 0 <= b).
    { intros [[x y]|]; eexists; eexists; (split; [reflexivity|]); [|lia].
      unfold f_to_usize. split; apply f_to_int_range; lia. }
    destruct (P (xy_by_lat_lon g (lat_lon_new (fsub (lat c) d) (fsub (lon c) d)))) as (a & b & -> & Ha & Hb).
    destruct (xy_by_lat_lon g (lat_lon_new (fadd (lat c) d) (fadd (lon c) d))) as [[x1 y1]|]; repeat eexists; assumption.
  Qed.
  Lemma existsb_zrange z a b : existsb (Z.eqb z) (zrange a b) = (a <=? z) && (z <=? b).
  Proof.
    apply Bool.eq_true_iff_eq. rewrite existsb_exists, andb_true_iff, !Z.leb_le. split.
    - intros (y & I & E). apply Z.eqb_eq in E. subst y. apply zrange_In in I. exact I.
    - intro H. exists z. split; [apply zrange_In; exact H|apply Z.eqb_refl].
  Qed.
  Lemma visit_coord_slot i c m x y : length m = Z.to_nat (w * h) -> 0 <= x < w -> 0 <= y < h ->
    exists m', visit_coord offer chk g d i c m = Ok m' /\ length m' = length m /\
    nth_error m' (idx x y) = option_map (slot (touch c x y) i) (nth_error m (idx x y)).
  Proof.
    intros L Hx Hy. unfold visit_coord, touch, covered.
    destruct (skipped g d c); cbn [negb andb].
    { exists m. split; [reflexivity|]. split; [reflexivity|]. cbn. destruct (nth_error m (idx x y)); reflexivity. }
    destruct (min_max_ok c ltac:(lia) ltac:(lia)) as (x0 & y0 & x1 & y1 & -> & Hx0 & Hy0). cbn [obind].
    eexists. split; [reflexivity|].
    destruct (window_slot i c m (zrange x0 x1) (zrange y0 y1) x y L) as [L1 E1]; try assumption; try apply zrange_NoDup.
    { apply Forall_forall. intros z I. apply zrange_In in I. lia. }
    { apply Forall_forall. intros z I. apply zrange_In in I. lia. }
    split; [exact L1|]. rewrite E1, !existsb_zrange.
    destruct ((x0 <=? x) && (x <=? x1) && ((y0 <=? y) && (y <=? y1))); [reflexivity|].
    cbn. destruct (nth_error m (idx x y)); reflexivity.
  Qed.
  (** The slot of a cell after all coordinates have been visited. *)
  Fixpoint offers (i : Z) (cs : list lat_lon) (x y : Z) (s : S) : S :=
    match cs with
    | [] => s
    | c :: rest => offers (i + 1) rest x y (slot (touch c x y) i s)
    end.
  Lemma visit_coords_ok i cs m : 1 <= w -> 1 <= h -> length m = Z.to_nat (w * h) ->
    exists m', visit_coords offer chk g d i cs m = Ok m' /\ length m' = length m /\
    forall x y, 0 <= x < w -> 0 <= y < h ->
      nth_error m' (idx x y) = option_map (offers i cs x y) (nth_error m (idx x y)).
  Proof.
    intros Hw Hh. revert i m. induction cs as [|c cs IH]; intros i m L.
    - exists m. split; [reflexivity|]. split; [reflexivity|]. intros x y _ _. cbn. destruct (nth_error m (idx x y)); reflexivity.
    - cbn [visit_coords offers].
      destruct (visit_coord_slot i c m 0 0 L ltac:(lia) ltac:(lia)) as (m1 & E1 & L1 & _).
      rewrite E1. cbn [obind]. destruct (IH (i + 1) m1 ltac:(congruence)) as (m2 & E2 & L2 & S2).
      exists m2. split; [exact E2|]. split; [congruence|]. intros x y Hx Hy. rewrite S2 by assumption.
      destruct (visit_coord_slot i c m x y L Hx Hy) as (m1' & E1' & _ & S1). assert (m1' = m1) as -> by congruence.
      rewrite S1. destruct (nth_error m (idx x y)); reflexivity.
  Qed.
End Map.

(** ** C19 *)
Lemma offers_app {S} (offer : Z -> f32 -> S -> S) chk g d i cs c x y s :
  offers offer chk g d i (cs ++ [c]) x y s =
  slot offer (touch chk g d c x y) (i + Z.of_nat (length cs)) (offers offer chk g d i cs x y s).
Proof.
  revert i s. induction cs as [|c0 cs IH]; intros i s.
  - cbn. now rewrite Z.add_0_r.
  - cbn [app offers length]. rewrite IH. f_equal. lia.
Qed.
Lemma reach_some g d c x y e : reach g d c x y = Some e -> fgt e (fmul d d) = false.
Proof.
  unfold reach. destruct (cell_centre g x y); [|discriminate].
  destruct (fgt (dist_squared c l) (fmul d d)) eqn:E; [discriminate|]. intro H. injection H as <-. exact E.
Qed.
Lemma touch_reach chk g d c x y e : touch chk g d c x y = Some e -> reach g d c x y = Some e.
Proof. unfold touch. destruct (_ && _); [auto|discriminate]. Qed.
Lemma nearest_fold chk g d cs x y : num (fmul d d) ->
  (forall c e, In c cs -> reach g d c x y = Some e -> num e) ->
  match offers (offer_nearest d) chk g d 0 cs x y None with
  | None => forall j c, nth_error cs j = Some c -> touch chk g d c x y = None
  | Some (i, d2) => 0 <= i /\ exists c, nth_error cs (Z.to_nat i) = Some c /\ touch chk g d c x y = Some d2 /\
      forall j c' e, nth_error cs j = Some c' -> touch chk g d c' x y = Some e ->
        (xr d2 <= xr e)%R /\ ((Z.to_nat i < j)%nat -> (xr d2 < xr e)%R)
  end.
Proof.
  intros Nd. induction cs as [|c cs IH] using rev_ind; intro H.
  - cbn. intros [|j] c E; discriminate.
  - rewrite offers_app. rewrite Z.add_0_l.
    assert (H1 : forall c0 e, In c0 cs -> reach g d c0 x y = Some e -> num e).
    { intros c0 e I. apply H. apply in_or_app. now left. }
    specialize (IH H1). set (s := offers (offer_nearest d) chk g d 0 cs x y None) in *.
    assert (Last : forall j c', nth_error (cs ++ [c]) j = Some c' -> nth_error cs j = Some c' /\ (j < length cs)%nat \/ j = length cs /\ c' = c).
    { intros j c' E. destruct (Nat.lt_trichotomy j (length cs)) as [L|[L|L]].
      - rewrite nth_error_app1 in E by exact L. left. auto.
      - subst j. rewrite nth_error_app2, Nat.sub_diag in E by lia. right. cbn in E. split; congruence.
      - assert (nth_error (cs ++ [c]) j = None) as K by (apply nth_error_None; rewrite app_length; cbn; lia). congruence. }
    assert (At : nth_error (cs ++ [c]) (Z.to_nat (Z.of_nat (length cs))) = Some c).
    { rewrite Nat2Z.id, nth_error_app2, Nat.sub_diag by lia. reflexivity. }
    destruct (touch chk g d c x y) as [e|] eqn:T; cbn [slot].
    + assert (Ne : num e) by (apply (H c); [apply in_or_app; right; now left|eapply touch_reach; exact T]).
      pose proof (reach_some _ _ _ _ _ _ (touch_reach _ _ _ _ _ _ _ T)) as Le.
      destruct s as [[i d2]|]; cbn [offer_nearest snd].
      * destruct IH as (Hi & c0 & E0 & T0 & O).
        assert (N2 : num d2) by (apply (H1 c0); [apply nth_error_In in E0; exact E0|eapply touch_reach; exact T0]).
        assert (Li : (Z.to_nat i < length cs)%nat) by (apply nth_error_Some; congruence).
        unfold offer_nearest. cbn [snd]. destruct (fgt e d2) eqn:G.
        -- apply (flt_num d2 e) in G; try assumption. split; [exact Hi|]. exists c0.
           split; [rewrite nth_error_app1 by exact Li; exact E0|]. split; [exact T0|].
           intros j c' e' E' T'. destruct (Last j c' E') as [[E1 _]|[-> ->]]; [eapply O; eassumption|].
           assert (e' = e) as -> by congruence. split; [lra|auto].
        -- apply (flt_num_false d2 e) in G; try assumption. split; [lia|]. exists c. split; [exact At|]. split; [exact T|].
           intros j c' e' E' T'. destruct (Last j c' E') as [[E1 L1]|[-> ->]].
           ++ destruct (O j c' e' E1 T') as [O1 _]. split; [lra|]. intro. lia.
           ++ assert (e' = e) as -> by congruence. split; [lra|]. intro. lia.
      * unfold offer_nearest. rewrite Le. split; [lia|]. exists c. split; [exact At|]. split; [exact T|].
        intros j c' e' E' T'. destruct (Last j c' E') as [[E1 L1]|[-> ->]].
        -- rewrite (IH j c' E1) in T'. discriminate.
        -- assert (e' = e) as -> by congruence. split; [lra|]. intro. lia.
    + destruct s as [[i d2]|].
      * destruct IH as (Hi & c0 & E0 & T0 & O). split; [exact Hi|]. exists c0.
        assert (Li : (Z.to_nat i < length cs)%nat) by (apply nth_error_Some; congruence).
        split; [rewrite nth_error_app1 by exact Li; exact E0|]. split; [exact T0|].
        intros j c' e' E' T'. destruct (Last j c' E') as [[E1 _]|[-> ->]]; [eapply O; eassumption|congruence].
      * intros j c' E'. destruct (Last j c' E') as [[E1 _]|[-> ->]]; [eapply IH; eassumption|exact T].
Qed.
Lemma triple_offers chk g d cs x y :
  offers offer_triple chk g d 0 cs x y triple_new =
  fold_left triple_add (flat_map (fun '(i, c) => match touch chk g d c x y with Some e => [(Z.of_nat i, e)] | None => [] end)
                          (combine (seq 0 (length cs)) cs)) triple_new.
Proof.
  assert (G : forall k s, offers offer_triple chk g d (Z.of_nat k) cs x y s =
    fold_left triple_add (flat_map (fun '(i, c) => match touch chk g d c x y with Some e => [(Z.of_nat i, e)] | None => [] end)
                          (combine (seq k (length cs)) cs)) s).
  { induction cs as [|c cs IH]; intros k s; [reflexivity|].
    cbn [offers length seq combine flat_map]. replace (Z.of_nat k + 1) with (Z.of_nat (S k)) by lia. rewrite IH.
    rewrite fold_left_app. f_equal. unfold slot. destruct (touch chk g d c x y); reflexivity. }
  apply (G 0%nat).
Qed.

(** Squared distances of finite coordinates are not NaN. *)
Lemma sq_num z : num z -> num (fmul z z) /\ (0 <= xr (fmul z z))%R.
Proof.
  intros [V N]. destruct (fis_finite z) eqn:F.
  - pose proof (fin_mul z z (conj V F) (conj V F)) as R. split; [eapply rounds_num; exact R|].
    destruct R as (_ & _ & ->). assert (0 <= rnd (xr z * xr z))%R.
    { rewrite <- rnd_0 at 1. apply rnd_mono. apply Rle_0_sqr. }
    assert (sat 0 = 0%R) as <-.
    { apply sat_id. rewrite Rabs_R0. apply Rlt_le, big_pos. }
    apply sat_mono. assumption.
  - destruct z as [s|s| |s m e]; try discriminate. assert (fmul (S754_infinity s) (S754_infinity s) = S754_infinity false) as ->
      by (destruct s; reflexivity). split; [split; reflexivity|]. cbn. apply Rlt_le, big_pos.
Qed.
Lemma add_num a b : num a -> num b -> (0 <= xr a)%R -> (0 <= xr b)%R -> num (fadd a b).
Proof.
  intros [Va Na] [Vb Nb] Ha Hb. pose proof big_pos.
  destruct (fis_finite a) eqn:Fa, (fis_finite b) eqn:Fb.
  - eapply rounds_num. apply fin_add; split; assumption.
  - destruct b as [s|s| |s m e]; try discriminate. destruct s; [cbn in Hb; lra|].
    destruct a as [s|s| |s m e]; try discriminate; split; reflexivity.
  - destruct a as [s|s| |s m e]; try discriminate. destruct s; [cbn in Ha; lra|].
    destruct b as [s|s| |s m e]; try discriminate; split; reflexivity.
  - destruct a as [s|s| |s m e]; try discriminate. destruct s; [cbn in Ha; lra|].
    destruct b as [s|s| |s m e]; try discriminate. destruct s; [cbn in Hb; lra|]. split; reflexivity.
Qed.
Lemma dist_num a b : fin_coord a -> fin_coord b -> num (dist_squared a b).
Proof.
  intros [A1 A2] [B1 B2]. unfold dist_squared.
  destruct (sq_num (fsub (lat a) (lat b))) as [N1 P1]; [eapply rounds_num; apply fin_sub; assumption|].
  destruct (sq_num (fsub (lon a) (lon b))) as [N2 P2]; [eapply rounds_num; apply fin_sub; assumption|].
  apply add_num; assumption.
Qed.

(** ** Completeness of the windows *)
Section GeoAxis.
  Variables (mn mx : f32) (n : Z).
  Hypothesis G : axis_geo mn mx n.
  Let inc := fdiv (fsub mx mn) (f32_of_Z n).
  Lemma geo_n : 1 <= n <= 184320.
  Proof.
    destruct G as (_ & _ & H1 & H2 & H3 & H4). split; [exact H1|]. apply le_IZR. lra.
  Qed.
  Lemma geo_ok : axis_ok mn mx n.
  Proof.
    pose proof geo_n as Hn. destruct G as (F1 & F2 & H1 & H2 & H3 & H4).
    assert (1 <= IZR n)%R by (apply IZR_le; exact H1).
    split; [exact F1|]. split; [exact F2|]. split; [lia|]. split.
    - apply Rle_trans with (/ 512)%R; [|lra]. apply Rle_trans with (bpow radix2 (-9)); [apply bpow_le; lia|]. cbn. lra.
    - apply Rle_trans with 1024%R; [lra|]. change 1024%R with (bpow radix2 10). apply bpow_le. lia.
  Qed.
  Lemma geo_inc : fin inc /\ (/ 513 <= xr inc)%R /\ (Rabs (IZR n * xr inc - (xr mx - xr mn)) <= / 8192)%R.
  Proof.
    pose proof geo_n as Hn. destruct geo_ok as (F1 & F2 & Hn' & B1 & B2). destruct G as (_ & _ & H1 & H2 & H3 & H4).
    destruct (axis_inc mn mx n F1 F2 Hn' B1 B2) as (Fi & Pi & (R1 & R2) & _). fold inc in Fi, Pi, R1, R2.
    destruct (axis_extent mn mx F1 F2 B1 B2) as (_ & Ee & _).
    pose proof (rnd_err (xr mx - xr mn)) as E. rewrite ulp_half_val in E. rewrite <- Ee in E.
    set (D := (xr mx - xr mn)%R) in *. set (D' := xr (fsub mx mn)) in *.
    assert (N1 : (1 <= IZR n <= 184320)%R) by (split; apply IZR_le; lia).
    assert (S : (bpow radix2 (-150) <= / 4294967296)%R).
    { apply Rle_trans with (bpow radix2 (-32)); [apply bpow_le; lia|]. cbn. lra. }
    assert (Dp : (0 <= D <= 360)%R) by (unfold D in *; lra).
    rewrite (Rabs_pos_eq D) in E by lra. apply Rabs_le_inv in E.
    split; [exact Fi|].
    assert (M1 : (D' * (1 - / 16777216) <= IZR n * xr inc)%R).
    { replace (D' * (1 - / 16777216))%R with (IZR n * (D' / IZR n * (1 - / 16777216)))%R by (field; lra).
      apply Rmult_le_compat_l; lra. }
    assert (M2 : (IZR n * xr inc <= D' * (1 + / 16777216))%R).
    { replace (D' * (1 + / 16777216))%R with (IZR n * (D' / IZR n * (1 + / 16777216)))%R by (field; lra).
      apply Rmult_le_compat_l; lra. }
    split.
    - apply Rmult_le_reg_l with (IZR n); [lra|]. 
      assert (D * (1 - / 1000000) <= IZR n * xr inc)%R by nra. nra.
    - apply Rabs_le. nra.
  Qed.
  (** The centre of cell [x]. *)
  Definition centre (x : Z) : f32 :=
    normalize_deg (fadd mn (fmul (fadd (f32_of_Z x) (f32_lit 1 2)) inc)).
  Lemma half_plus x : 0 <= x < n -> fin (fadd (f32_of_Z x) (f32_lit 1 2)) /\ xr (fadd (f32_of_Z x) (f32_lit 1 2)) = (IZR x + / 2)%R.
  Proof.
    intro Hx. pose proof geo_n as Hn. destruct (fin_Z x ltac:(lia)) as [Fx Ex].
    assert (Fh : fin (f32_lit 1 2) /\ xr (f32_lit 1 2) = (/ 2)%R).
    { split; [split; [apply f32_lit_valid|reflexivity]|]. change (f32_lit 1 2) with (S754_finite false 8388608 (-24)).
      rewrite xr_F2R. unfold F2R. cbn. lra. }
    destruct Fh as [Fh Eh]. pose proof (fin_add _ _ Fx Fh) as R. rewrite Ex, Eh in R.
    apply exact_fin; [exact R| |].
    - replace (IZR x + / 2)%R with (F2R (Float radix2 (2 * x + 1) (-1))).
      + apply gen_F2R; lia.
      + unfold F2R. cbn [Fnum Fexp]. rewrite plus_IZR, mult_IZR. cbn. lra.
    - assert (0 <= IZR x <= 184320)%R by (split; apply IZR_le; lia). lt_big.
  Qed.
  Lemma centre_spec x : 0 <= x < n -> fin (centre x) /\
    (Rabs (xr (centre x) - (xr mn + (IZR x + / 2) * xr inc)) <= / 16384)%R.
  Proof.
    intro Hx. pose proof geo_n as Hn. destruct geo_inc as (Fi & Li & Ni). destruct G as (F1 & F2 & H1 & H2 & H3 & H4).
    destruct (half_plus x Hx) as [Fp Ep].
    assert (N1 : (1 <= IZR n <= 184320)%R) by (split; apply IZR_le; lia).
    assert (X1 : (0 <= IZR x <= IZR n - 1)%R).
    { split; [apply IZR_le; lia|]. rewrite <- minus_IZR. apply IZR_le. lia. }
    set (t := ((IZR x + / 2) * xr inc)%R).
    apply Rabs_le_inv in Ni.
    assert (T : (0 <= t <= xr mx - xr mn - / 1026 + / 8192)%R).
    { unfold t. split; [nra|]. assert ((IZR x + / 2) * xr inc <= (IZR n - / 2) * xr inc)%R by nra. nra. }
    assert (S : (bpow radix2 (-150) <= / 4294967296)%R).
    { apply Rle_trans with (bpow radix2 (-32)); [apply bpow_le; lia|]. cbn. lra. }
    pose proof (fin_mul _ _ Fp Fi) as R1. rewrite Ep in R1. fold t in R1.
    pose proof (rnd_err t) as E1. rewrite ulp_half_val, (Rabs_pos_eq t) in E1 by lra. apply Rabs_le_inv in E1.
    destruct (rounds_fin _ _ R1) as [Fm Em]; [lt_big|].
    pose proof (fin_add _ _ F1 Fm) as R2. rewrite Em in R2.
    set (s := (xr mn + rnd t)%R) in *.
    assert (Sb : (-180 - / 16384 <= s <= 180 - / 1026 + / 8192 + / 16384)%R) by (unfold s; lra).
    pose proof (rnd_err s) as E2. rewrite ulp_half_val in E2.
    assert (Sa : (Rabs s <= 181)%R) by (apply Rabs_le; lra).
    assert (E2' : (Rabs (rnd s - s) <= / 65536)%R) by lra. apply Rabs_le_inv in E2'.
    destruct (rounds_fin _ _ R2) as [Fs Es]; [lt_big|].
    assert (Lo : (-180 <= rnd s)%R).
    { rewrite <- (rnd_gen (-180)) by (apply (gen_Z (-180)); lia). apply rnd_mono. unfold s.
      assert (0 <= rnd t)%R by (rewrite <- rnd_0 at 1; apply rnd_mono; lra). lra. }
    unfold centre. fold inc. rewrite normalize_id; [|exact Fs|rewrite Es; lra].
    split; [exact Fs|]. rewrite Es. apply Rabs_le. unfold s in *. lra.
  Qed.

  (** A coordinate whose distance to the cell centre along this axis is at most [d] (up to
      rounding) has the cell in its window and is not skipped. *)
  Variables (c d : f32).
  Hypothesis Fc : fin c.
  Hypothesis Fd : fin d.
  Hypothesis Bd : (0 <= xr d <= 64)%R.
  Hypothesis Bc : (Rabs (xr c) + xr d <= 179)%R.
  Variable x : Z.
  Hypothesis Hx : 0 <= x < n.
  Hypothesis Near : (Rabs (xr c - xr (centre x)) <= xr d + / 16384)%R.
  Lemma geo_shift : fin (fsub c d) /\ fin (fadd c d) /\
    (-180 <= xr (fsub c d) < 180)%R /\ (-180 <= xr (fadd c d) < 180)%R /\
    (Rabs (xr (fsub c d) - (xr c - xr d)) <= / 65536)%R /\ (Rabs (xr (fadd c d) - (xr c + xr d)) <= / 65536)%R.
  Proof.
    assert (S : (bpow radix2 (-150) <= / 4294967296)%R).
    { apply Rle_trans with (bpow radix2 (-32)); [apply bpow_le; lia|]. cbn. lra. }
    assert (C : (- 179 + xr d <= xr c <= 179 - xr d)%R) by (assert (K := Bc); clear - K; unfold Rabs in K; destruct Rcase_abs in K; lra).
    assert (P : forall r, (-179 <= r <= 179)%R -> (Rabs (rnd r - r) <= / 65536)%R).
    { intros r Hr. pose proof (rnd_err r) as E. rewrite ulp_half_val in E.
      assert (Rabs r <= 179)%R by (apply Rabs_le; lra). lra. }
    pose proof (P (xr c - xr d)%R ltac:(lra)) as E1. pose proof (P (xr c + xr d)%R ltac:(lra)) as E2.
    pose proof E1 as E1'. pose proof E2 as E2'. apply Rabs_le_inv in E1', E2'.
    destruct (rounds_fin _ _ (fin_sub c d Fc Fd)) as [Fs Es]; [lt_big|].
    destruct (rounds_fin _ _ (fin_add c d Fc Fd)) as [Fa Ea]; [lt_big|].
    rewrite Es, Ea. repeat (split; [try assumption; try lra|]); try assumption.
  Qed.
  Lemma geo_lower : (xr mn <= xr (fsub c d) < xr mx)%R -> f_to_usize (axis_coord mn mx n (fsub c d)) <= x.
  Proof.
    intro B. pose proof geo_n as Hn. destruct geo_shift as (Fs & _ & _ & _ & Es & _).
    destruct geo_ok as (F1 & F2 & Hn' & B1 & B2). destruct geo_inc as (Fi & Li & Ni).
    destruct (axis_coord_spec mn mx n F1 F2 Hn' B1 B2 (fsub c d) Fs B) as (Fa & Ea & Ra).
    assert (S : (bpow radix2 (-150) <= / 4294967296)%R).
    { apply Rle_trans with (bpow radix2 (-32)); [apply bpow_le; lia|]. cbn. lra. }
    destruct (centre_spec x Hx) as [_ Ec]. fold inc in Ea.
    set (A := xr (fsub c d)) in *. apply Rabs_le_inv in Es. assert (Nr := Near). apply Rabs_le_inv in Nr. apply Rabs_le_inv in Ec.
    pose proof (rnd_err (A - xr mn)) as E1. rewrite ulp_half_val in E1.
    assert (W : (0 <= A - xr mn <= 360)%R) by (destruct G as (_ & _ & _ & K1 & K2 & _); lra).
    rewrite (Rabs_pos_eq (A - xr mn)) in E1 by lra. apply Rabs_le_inv in E1.
    set (Q := rnd (A - xr mn)) in *.
    assert (QX : (Q <= (IZR x + / 2) * xr inc + / 2048)%R) by lra.
    assert (I0 : (0 < xr inc)%R) by lra.
    assert (QI : (Q / xr inc <= IZR x + / 2 + / 3)%R).
    { apply Rmult_le_reg_r with (xr inc); [exact I0|]. replace (Q / xr inc * xr inc)%R with Q by (field; lra). nra. }
    assert (Lt : (xr (axis_coord mn mx n (fsub c d)) < IZR x + 1)%R).
    { rewrite Ea. pose proof (rnd_err (Q / xr inc)) as E2. rewrite ulp_half_val in E2.
      assert (Q0 : (0 <= Q)%R) by (unfold Q; rewrite <- rnd_0 at 1; apply rnd_mono; lra).
      assert (QI0 : (0 <= Q / xr inc)%R) by (apply Rmult_le_pos; [exact Q0|apply Rlt_le, Rinv_0_lt_compat, I0]).
      rewrite (Rabs_pos_eq (Q / xr inc)) in E2 by lra. apply Rabs_le_inv in E2.
      assert (IZR x <= 184320)%R by (apply IZR_le; lia). lra. }
    unfold f_to_usize. rewrite f_to_int_xr; [|apply Fa|apply fin_nan, Fa|lia|lia].
    rewrite Ztrunc_floor by apply Ra.
    assert (Zfloor (xr (axis_coord mn mx n (fsub c d))) < x + 1); [|lia].
    apply lt_IZR. rewrite plus_IZR. eapply Rle_lt_trans; [apply Zfloor_lb|exact Lt].
  Qed.
  Lemma geo_upper : (xr mn <= xr (fadd c d) < xr mx)%R -> x <= f_to_usize (axis_coord mn mx n (fadd c d)).
  Proof.
    intro B. pose proof geo_n as Hn. destruct geo_shift as (_ & Fs & _ & _ & _ & Es).
    destruct geo_ok as (F1 & F2 & Hn' & B1 & B2). destruct geo_inc as (Fi & Li & Ni).
    destruct (axis_coord_spec mn mx n F1 F2 Hn' B1 B2 (fadd c d) Fs B) as (Fa & Ea & Ra).
    assert (S : (bpow radix2 (-150) <= / 4294967296)%R).
    { apply Rle_trans with (bpow radix2 (-32)); [apply bpow_le; lia|]. cbn. lra. }
    destruct (centre_spec x Hx) as [_ Ec]. fold inc in Ea.
    set (A := xr (fadd c d)) in *. apply Rabs_le_inv in Es. assert (Nr := Near). apply Rabs_le_inv in Nr. apply Rabs_le_inv in Ec.
    pose proof (rnd_err (A - xr mn)) as E1. rewrite ulp_half_val in E1.
    assert (W : (0 <= A - xr mn <= 360)%R) by (destruct G as (_ & _ & _ & K1 & K2 & _); lra).
    rewrite (Rabs_pos_eq (A - xr mn)) in E1 by lra. apply Rabs_le_inv in E1.
    set (Q := rnd (A - xr mn)) in *.
    assert (QX : ((IZR x + / 2) * xr inc - / 2048 <= Q)%R) by lra.
    assert (I0 : (0 < xr inc)%R) by lra.
    assert (QI : (IZR x + / 2 - / 3 <= Q / xr inc)%R).
    { apply Rmult_le_reg_r with (xr inc); [exact I0|]. replace (Q / xr inc * xr inc)%R with Q by (field; lra). nra. }
    assert (X0 : (0 <= IZR x)%R) by (apply IZR_le; lia).
    assert (Gx : (IZR x <= xr (axis_coord mn mx n (fadd c d)))%R).
    { rewrite Ea. rewrite <- (rnd_gen (IZR x)) by (apply gen_Z; lia). apply rnd_mono. lra. }
    unfold f_to_usize. rewrite f_to_int_xr; [|apply Fa|apply fin_nan, Fa|lia|lia].
    rewrite Ztrunc_floor by apply Ra.
    assert (x <= Zfloor (xr (axis_coord mn mx n (fadd c d)))) by (apply Zfloor_lub; exact Gx). lia.
  Qed.
  Lemma geo_not_skipped : flt c (fsub mn d) = false /\ fgt c (fadd mx d) = false.
  Proof.
    pose proof geo_n as Hn. destruct geo_inc as (Fi & Li & Ni). destruct (centre_spec x Hx) as [_ Ec].
    destruct G as (F1 & F2 & H1 & H2 & H3 & H4).
    assert (S : (bpow radix2 (-150) <= / 4294967296)%R).
    { apply Rle_trans with (bpow radix2 (-32)); [apply bpow_le; lia|]. cbn. lra. }
    assert (Nr := Near). apply Rabs_le_inv in Nr. apply Rabs_le_inv in Ec, Ni.
    assert (P : forall r, (-300 <= r <= 300)%R -> (Rabs (rnd r - r) <= / 32768)%R).
    { intros r Hr. pose proof (rnd_err r) as E. rewrite ulp_half_val in E.
      assert (Rabs r <= 300)%R by (apply Rabs_le; lra). lra. }
    assert (X1 : (0 <= IZR x <= IZR n - 1)%R).
    { split; [apply IZR_le; lia|]. rewrite <- minus_IZR. apply IZR_le. lia. }
    assert (N1 : (1 <= IZR n <= 184320)%R) by (split; apply IZR_le; lia).
    assert (T : (/ 1026 <= (IZR x + / 2) * xr inc <= xr mx - xr mn - / 1026 + / 8192)%R).
    { split; [nra|]. assert ((IZR x + / 2) * xr inc <= (IZR n - / 2) * xr inc)%R by nra. nra. }
    pose proof (P (xr mn - xr d)%R ltac:(lra)) as E1. pose proof (P (xr mx + xr d)%R ltac:(lra)) as E2.
    apply Rabs_le_inv in E1, E2.
    destruct (rounds_fin _ _ (fin_sub mn d F1 Fd)) as [Fs Es]; [lt_big|].
    destruct (rounds_fin _ _ (fin_add mx d F2 Fd)) as [Fa Ea]; [lt_big|].
    split; [apply flt_false; try assumption; rewrite Es; lra|apply fgt_false; try assumption; rewrite Ea; lra].
  Qed.
End GeoAxis.

(** From the squared distance to the two axes. *)
Lemma sq_le a d : fin a -> fin d -> (0 <= xr d <= 64)%R -> (Rabs (xr a) <= 1024)%R ->
  (rnd (xr a * xr a) <= rnd (xr d * xr d))%R -> (Rabs (xr a) <= xr d + / 65536)%R.
Proof.
  intros Fa Fd Bd Ba H. set (A := Rabs (xr a)) in *.
  assert (A0 : (0 <= A)%R) by apply Rabs_pos.
  assert (AA : (xr a * xr a = A * A)%R) by (unfold A; unfold Rabs; destruct Rcase_abs; ring). rewrite AA in H.
  apply Rnot_lt_le. intro L.
  pose proof (rnd_err (A * A)) as E1. pose proof (rnd_err (xr d * xr d)) as E2. rewrite ulp_half_val in E1, E2.
  rewrite (Rabs_pos_eq (A * A)) in E1 by nra. rewrite (Rabs_pos_eq (xr d * xr d)) in E2 by nra.
  apply Rabs_le_inv in E1, E2.
  assert (S : (bpow radix2 (-150) <= / 4294967296 * / 4294967296)%R).
  { apply Rle_trans with (bpow radix2 (-64)); [apply bpow_le; lia|]. cbn. lra. }
  set (k := (/ 16777216)%R) in *.
  assert (K : (A * A * (1 - k) <= xr d * xr d * (1 + k) + 2 * bpow radix2 (-150))%R) by lra.
  assert (K2 : ((xr d + / 65536) * (xr d + / 65536) <= A * A)%R) by nra.
  assert (K3 : ((xr d + / 65536) * (xr d + / 65536) * (1 - k) <= A * A * (1 - k))%R) by (apply Rmult_le_compat_r; [unfold k; lra|exact K2]).
  assert (Dq : (xr d * xr d <= 64 * xr d)%R) by nra.
  unfold k in *. nra.
Qed.
Lemma axis_near a b d : fin a -> fin b -> fin d -> (0 <= xr d <= 64)%R ->
  (Rabs (xr a) <= 181)%R -> (Rabs (xr b) <= 181)%R ->
  (rnd (xr (fsub a b) * xr (fsub a b)) <= rnd (xr d * xr d))%R ->
  (Rabs (xr a - xr b) <= xr d + / 16384)%R.
Proof.
  intros Fa Fb Fd Bd Ba Bb H.
  assert (S : (bpow radix2 (-150) <= / 4294967296)%R).
  { apply Rle_trans with (bpow radix2 (-32)); [apply bpow_le; lia|]. cbn. lra. }
  pose proof (rnd_err (xr a - xr b)) as E. rewrite ulp_half_val in E.
  apply Rabs_le_inv in Ba, Bb.
  assert (B : (Rabs (xr a - xr b) <= 362)%R) by (apply Rabs_le; lra).
  assert (E' : (Rabs (rnd (xr a - xr b) - (xr a - xr b)) <= / 32768)%R) by lra.
  pose proof B as B'. apply Rabs_le_inv in B'. apply Rabs_le_inv in E'.
  destruct (rounds_fin _ _ (fin_sub a b Fa Fb)) as [Fs Es]; [lt_big|].
  pose proof (sq_le (fsub a b) d Fs Fd Bd) as Q. rewrite Es in *.
  assert (Rabs (rnd (xr a - xr b)) <= 1024)%R by (apply Rabs_le; lra).
  specialize (Q H0 H). apply Rabs_le_inv in Q. apply Rabs_le. lra.
Qed.

Lemma geo_grid_ok w h e : geo_grid w h e -> grid_ok w h e.
Proof. intros [A B]. split; apply geo_ok; assumption. Qed.
Lemma geo_centre w h e x y : geo_grid w h e -> 0 <= x < w -> 0 <= y < h ->
  cell_centre (grid_new w h e) x y =
  Some {| lat := centre (lat (min_coord e)) (lat (max_coord e)) h y;
          lon := centre (lon (min_coord e)) (lon (max_coord e)) w x |}.
Proof.
  intros [A B] Hx Hy. unfold cell_centre, lat_lon_by_xy. cbn [grid_new g_w g_h g_extent g_lat_inc g_lon_inc].
  destruct (half_plus _ _ _ A x Hx) as [Fx Ex]. destruct (half_plus _ _ _ B y Hy) as [Fy Ey].
  pose proof (geo_n _ _ _ A) as Nw. pose proof (geo_n _ _ _ B) as Nh.
  destruct (fin_Z w ltac:(lia)) as [Fw Ew]. destruct (fin_Z h ltac:(lia)) as [Fh Eh].
  destruct (fin_Z 0 ltac:(lia)) as [F0 E0]. change fzero with (f32_of_Z 0).
  assert (X1 : (0 <= IZR x <= IZR w - 1)%R).
  { split; [apply IZR_le; lia|]. rewrite <- minus_IZR. apply IZR_le. lia. }
  assert (Y1 : (0 <= IZR y <= IZR h - 1)%R).
  { split; [apply IZR_le; lia|]. rewrite <- minus_IZR. apply IZR_le. lia. }
  rewrite (proj2 (flt_false _ _ Fx F0)) by lra. rewrite (proj2 (fge_false _ _ Fx Fw)) by lra.
  rewrite (proj2 (flt_false _ _ Fy F0)) by lra. rewrite (proj2 (fge_false _ _ Fy Fh)) by lra.
  reflexivity.
Qed.
Lemma centre_bound mn mx n x : axis_geo mn mx n -> 0 <= x < n -> (Rabs (xr (centre mn mx n x)) <= 181)%R.
Proof.
  intros G Hx. destruct (centre_spec mn mx n G x Hx) as [_ E]. pose proof (geo_inc mn mx n G) as (Fi & Li & Ni).
  pose proof (geo_n mn mx n G) as Hn. destruct G as (_ & _ & _ & H2 & H3 & H4).
  assert (X1 : (0 <= IZR x <= IZR n - 1)%R).
  { split; [apply IZR_le; lia|]. rewrite <- minus_IZR. apply IZR_le. lia. }
  apply Rabs_le_inv in E, Ni. set (inc := fdiv (fsub mx mn) (f32_of_Z n)) in *.
  assert (0 <= (IZR x + / 2) * xr inc)%R by nra.
  assert ((IZR x + / 2) * xr inc <= (IZR n) * xr inc)%R by nra.
  apply Rabs_le. lra.
Qed.
Lemma dist_axes c p d : fin_coord c -> fin_coord p -> fin d -> (0 <= xr d <= 64)%R ->
  (Rabs (xr (lat c)) <= 181)%R -> (Rabs (xr (lon c)) <= 181)%R ->
  (Rabs (xr (lat p)) <= 181)%R -> (Rabs (xr (lon p)) <= 181)%R ->
  fgt (dist_squared c p) (fmul d d) = false ->
  (Rabs (xr (lat c) - xr (lat p)) <= xr d + / 16384)%R /\ (Rabs (xr (lon c) - xr (lon p)) <= xr d + / 16384)%R.
Proof.
  intros [C1 C2] [P1 P2] Fd Bd B1 B2 B3 B4 H.
  assert (Sub : forall a b, fin a -> fin b -> (Rabs (xr a) <= 181)%R -> (Rabs (xr b) <= 181)%R ->
    fin (fmul (fsub a b) (fsub a b)) /\ xr (fmul (fsub a b) (fsub a b)) = rnd (xr (fsub a b) * xr (fsub a b)) /\
    (0 <= rnd (xr (fsub a b) * xr (fsub a b)) <= 500000)%R).
  { intros a b Fa Fb Ba Bb. apply Rabs_le_inv in Ba, Bb.
    assert (K : (-400 <= rnd (xr a - xr b) <= 400)%R).
    { apply rnd_between; [apply (gen_Z (-400)); lia|apply (gen_Z 400); lia|lra]. }
    destruct (rounds_fin _ _ (fin_sub a b Fa Fb)) as [Fs Es]; [lt_big|]. rewrite <- Es in K.
    assert (K2 : (0 <= rnd (xr (fsub a b) * xr (fsub a b)) <= 500000)%R).
    { apply rnd_between; [apply (gen_Z 0); lia|apply (gen_Z 500000); lia|nra]. }
    destruct (rounds_fin _ _ (fin_mul _ _ Fs Fs)) as [Fm Em]; [lt_big|]. auto. }
  destruct (Sub _ _ C1 P1 B1 B3) as (F1 & E1 & K1). destruct (Sub _ _ C2 P2 B2 B4) as (F2 & E2 & K2).
  unfold dist_squared in H.
  pose proof (fin_add _ _ F1 F2) as R. rewrite E1, E2 in R.
  set (q1 := rnd (xr (fsub (lat c) (lat p)) * xr (fsub (lat c) (lat p)))) in *.
  set (q2 := rnd (xr (fsub (lon c) (lon p)) * xr (fsub (lon c) (lon p)))) in *.
  assert (K3 : (0 <= rnd (q1 + q2) <= 1000000)%R).
  { apply rnd_between; [apply (gen_Z 0); lia|apply (gen_Z 1000000); lia|lra]. }
  destruct (rounds_fin _ _ R) as [Fs Es]; [lt_big|].
  assert (K4 : (0 <= rnd (xr d * xr d) <= 4096)%R).
  { apply rnd_between; [apply (gen_Z 0); lia|apply (gen_Z 4096); lia|nra]. }
  destruct (rounds_fin _ _ (fin_mul d d Fd Fd)) as [Fq Eq]; [lt_big|].
  apply fgt_false in H; [|exact Fs|exact Fq]. rewrite Es, Eq in H.
  assert (G1 : rnd q1 = q1) by (apply rnd_gen, gen_rnd). assert (G2 : rnd q2 = q2) by (apply rnd_gen, gen_rnd).
  assert (L1 : (q1 <= rnd (q1 + q2))%R) by (rewrite <- G1 at 1; apply rnd_mono; lra).
  assert (L2 : (q2 <= rnd (q1 + q2))%R) by (rewrite <- G2 at 1; apply rnd_mono; lra).
  split; apply axis_near; try assumption; [fold q1|fold q2]; lra.
Qed.
Lemma window_complete chk w h e d c x y s : geo_grid w h e -> fin_coord c -> fin d -> (0 <= xr d <= 64)%R ->
  (Rabs (xr (lat c)) + xr d <= 179)%R -> (Rabs (xr (lon c)) + xr d <= 179)%R ->
  0 <= x < w -> 0 <= y < h ->
  reach (grid_new w h e) d c x y = Some s -> touch chk (grid_new w h e) d c x y = Some s.
Proof.
  intros GG Fc Fd Bd Bla Blo Hx Hy R. pose proof GG as [A B]. set (g := grid_new w h e) in *.
  pose proof R as R'. unfold reach in R'. unfold g in R' at 1. rewrite (geo_centre w h e x y GG Hx Hy) in R'.
  destruct (fgt _ _) eqn:L in R'; [discriminate|]. clear R'.
  destruct (centre_spec _ _ _ A x Hx) as [Fpx _]. destruct (centre_spec _ _ _ B y Hy) as [Fpy _].
  match type of L with fgt (dist_squared c ?q) _ = _ => set (p := q) in * end.
  assert (Fp : fin_coord p) by (split; assumption).
  destruct (dist_axes c p d Fc Fp Fd Bd) as [Nla Nlo]; try exact L; unfold p; cbn [lat lon].
  { pose proof (Rabs_pos (xr (lat c))). lra. }
  { pose proof (Rabs_pos (xr (lon c))). lra. }
  { apply centre_bound; assumption. }
  { apply centre_bound; assumption. }
  unfold p in Nla, Nlo. cbn [lat lon] in Nla, Nlo. destruct Fc as [Fla Flo].
  unfold touch.
  assert (skipped g d c = false) as ->.
  { unfold skipped, g. cbn [g_extent grid_new].
    destruct (geo_not_skipped _ _ _ A (lon c) d Flo Fd Bd x Hx Nlo) as [-> ->].
    destruct (geo_not_skipped _ _ _ B (lat c) d Fla Fd Bd y Hy Nla) as [-> ->]. reflexivity. }
  cbn [negb andb]. assert (covered chk g d c x y = true) as ->; [|exact R].
  destruct (geo_shift (lon c) d Flo Fd Bd Blo) as (S1 & S2 & S3 & S4 & _).
  destruct (geo_shift (lat c) d Fla Fd Bd Bla) as (T1 & T2 & T3 & T4 & _).
  unfold covered, min_max_xy, lat_lon_new. rewrite !normalize_id by assumption.
  assert (U : forall n, 1 <= n -> usub chk 64 n 1 = Ok (n - 1)).
  { intros n Hn. unfold usub. destruct (Z.leb_spec 1 n); [reflexivity|lia]. }
  pose proof (geo_n _ _ _ A) as Nw. pose proof (geo_n _ _ _ B) as Nh.
  change (g_w g) with w. change (g_h g) with h. rewrite (U w), (U h) by lia. cbn [obind].
  pose proof (geo_grid_ok w h e GG) as GO. pose proof (grid_ok_extent w h e GO) as FE.
  assert (Lo : exists x0 y0, (match xy_by_lat_lon g {| lat := fsub (lat c) d; lon := fsub (lon c) d |} with
      | Some (x0, y0) => (f_to_usize x0, f_to_usize y0) | None => (0, 0) end) = (x0, y0) /\ x0 <= x /\ y0 <= y).
  { destruct (xy_spec w h e {| lat := fsub (lat c) d; lon := fsub (lon c) d |} GO (conj T1 S1)) as [[_ E]|[I E]]; fold g in E; rewrite E.
    - exists 0, 0. split; [reflexivity|lia].
    - apply is_inside_spec in I; [|exact FE|exact (conj T1 S1)]. cbn [lat lon] in I. cbn [lat lon].
      eexists; eexists; split; [reflexivity|]. split.
      + apply (geo_lower _ _ _ A (lon c) d Flo Fd Bd Blo x Hx Nlo). apply I.
      + apply (geo_lower _ _ _ B (lat c) d Fla Fd Bd Bla y Hy Nla). apply I. }
  destruct Lo as (x0 & y0 & -> & Lx & Ly).
  destruct (xy_spec w h e {| lat := fadd (lat c) d; lon := fadd (lon c) d |} GO (conj T2 S2)) as [[_ E]|[I E]]; fold g in E; rewrite E.
  - apply andb_true_iff. split; apply andb_true_iff; split; apply Z.leb_le; lia.
  - apply is_inside_spec in I; [|exact FE|exact (conj T2 S2)]. cbn [lat lon] in I. cbn [lat lon].
    apply andb_true_iff. split; apply andb_true_iff; split; apply Z.leb_le; try lia.
    + apply (geo_upper _ _ _ A (lon c) d Flo Fd Bd Blo x Hx Nlo). apply I.
    + apply (geo_upper _ _ _ B (lat c) d Fla Fd Bd Bla y Hy Nla). apply I.
Qed.
