(** Proofs of the property about the memory that readers take (C82). *)
From Coq Require Import ZArith List Bool Lia.
From Verif Require Import Base F32 Grib2Model NetCdfModel AllocModel AllocSpec.
Import ListNotations.
Open Scope Z_scope.

(** ** The same results *)

Definition same {A} (m : areader A) (m' : reader A) : Prop := forall bs, snd (m bs) = m' bs.
Lemma same_ret {A} (a : A) : same (a_ret a) (ret a). Proof. easy. Qed.
Lemma same_fail {A} e : same (@a_fail A e) (fail e). Proof. easy. Qed.
Lemma same_plain {A} (m : reader A) : same (plain m) m. Proof. easy. Qed.
Lemma same_buffer n : same (buffer n) (take_bytes n). Proof. easy. Qed.
Lemma same_bind {A B} (m : areader A) m' (k : A -> areader B) k' : same m m' -> (forall a, same (k a) (k' a)) -> same (a_bind m k) (bind m' k').
Proof.
  intros H K bs. unfold a_bind, bind. specialize (H bs). destruct (m bs) as [l r]. cbn [snd] in H. subst r. destruct (m' bs) as [[a rest]|e|]; [|reflexivity|reflexivity].
  specialize (K a rest). destruct (k a rest) as [l' r']. exact K.
Qed.
Lemma same_if {A} (b : bool) (m n : areader A) m' n' : same m m' -> same n n' -> same (if b then m else n) (if b then m' else n').
Proof. now destruct b. Qed.
Lemma same_ignore {A} (m : areader A) m' : same m m' -> same (a_ignore m) (ignore_read m').
Proof. intros H bs. unfold a_ignore, ignore_read. specialize (H bs). destruct (m bs) as [l r]. cbn [snd] in *. now subst r. Qed.
Lemma same_times {A} n (m : areader A) m' : same m m' -> same (a_times n m) (read_times n m').
Proof. intro H. induction n as [|n IH]; [apply same_ret|]. cbn. apply same_bind; [exact H|]. intro x. apply same_bind; [exact IH|]. intro l. apply same_ret. Qed.
Lemma same_push n : same (a_push n) read_u8. Proof. easy. Qed.
Lemma same_push_u32 : same a_push_u32 read_u32. Proof. easy. Qed.
Ltac same_tac :=
  repeat first [ apply same_ret | apply same_fail | apply same_plain | apply same_buffer | apply same_push | apply same_push_u32 | apply same_times | apply same_ignore | apply same_if
               | (apply same_bind; [|intro]) ].
Lemma same_be_into k n : same (a_be_into k n) (read_be_into k n). Proof. unfold a_be_into, read_be_into. same_tac. Qed.
Lemma same_values n t : same (a_values n t) (read_values n t).
Proof. destruct t; cbn [a_values read_values]; repeat first [apply same_be_into|progress same_tac]. Qed.
Lemma same_nc_chars n : same (a_n_chars n) (NetCdfModel.read_n_chars n). Proof. unfold a_n_chars, NetCdfModel.read_n_chars. same_tac. Qed.
Lemma same_chars n : same (a_n_chars n) (Grib2Model.read_n_chars n). Proof. unfold a_n_chars, Grib2Model.read_n_chars. same_tac. Qed.
Lemma same_name : same a_name read_name. Proof. unfold a_name, read_name. repeat first [apply same_nc_chars|progress same_tac]. Qed.
Lemma same_attr : same a_attr read_attr. Proof. unfold a_attr, read_attr. repeat first [apply same_name|apply same_values|progress same_tac]. Qed.
Lemma same_list {A} tag (m : areader A) m' : same m m' -> same (a_list tag m) (read_list tag m').
Proof. intro H. unfold a_list, read_list. same_tac. exact H. Qed.
Lemma same_dim : same a_dim read_dim. Proof. unfold a_dim, read_dim. repeat first [apply same_name|progress same_tac]. Qed.
Lemma same_var : same a_var read_var.
Proof. unfold a_var, read_var, read_attr_list. repeat first [apply same_name|apply same_values|apply same_attr|apply same_list|progress same_tac]. Qed.
Lemma same_header : same a_header read_header.
Proof.
  unfold a_header, read_header, a_magic, read_magic, read_dim_list, read_attr_list, read_var_list.
  repeat first [apply same_nc_chars|apply same_name|apply same_values|apply same_attr|apply same_dim|apply same_var|apply same_list|progress same_tac].
Qed.
Lemma same_doc chk : same (a_single_doc chk) (read_single_doc chk).
Proof.
  unfold a_single_doc, read_single_doc, a_section0, read_section0, a_section1, read_section1, a_section2, read_section2, a_section4, read_section4, a_section5, read_section5,
    a_section6, read_section6, a_section7, read_section7, a_section8, read_section8, a_product_definition_template, read_product_definition_template, a_data_representation_template,
    read_data_representation_template, a_template4_0, read_template4_0, a_template4_8, read_template4_8, a_n_bytes, read_n_bytes.
  repeat first [apply same_chars|apply same_be_into|progress same_tac].
Qed.
Lemma same_docs chk fuel : forall bs, snd (a_docs chk fuel bs) = read_docs chk fuel bs.
Proof.
  induction fuel as [|f IH]; intro bs; [reflexivity|]. cbn [a_docs read_docs]. pose proof (same_doc chk bs) as H. destruct (a_single_doc chk bs) as [l r]. cbn [snd] in H. subst r.
  destruct (read_single_doc chk bs) as [[d rest]|e|]; [|reflexivity|reflexivity]. rewrite <- (IH rest). destruct (a_docs chk f rest) as [l' [[]|]]; reflexivity.
Qed.
Lemma c82_same_proof : forall chk bs, snd (a_multi_doc chk bs) = read_multi_doc chk bs.
Proof.
  intros chk bs. unfold a_multi_doc, read_multi_doc. pose proof (same_docs chk (S (length bs)) bs) as H. rewrite <- H. destruct (a_docs chk (S (length bs)) bs) as [l [[[|]| |]|]]; reflexivity.
Qed.
Lemma same_data_by_var file h name : snd (a_data_by_var file h name) = read_data_by_var file h name.
Proof.
  unfold a_data_by_var, read_data_by_var. destruct (find_var h name) as [v|]; [|reflexivity]. destruct (isize_max <? var_begin v); [reflexivity|].
  pose proof (same_values (entry_count v) (var_type v) (skipn (Z.to_nat (var_begin v)) file)) as H. destruct (a_values _ _ _) as [l r]. cbn [snd] in *. now subst r.
Qed.
Lemma same_data_map file h names : forall m, snd (a_data_map file h names m) = read_data_map file h names m.
Proof.
  induction names as [|n names IH]; intro m; [reflexivity|]. cbn [a_data_map read_data_map]. pose proof (same_data_by_var file h n) as H. destruct (a_data_by_var file h n) as [l r]. cbn [snd] in H. subst r.
  destruct (read_data_by_var file h n) as [v|e|]; [|reflexivity|reflexivity]. cbn [obind]. specialize (IH (map_insert n v m)). destruct (a_data_map file h names (map_insert n v m)) as [l' r']. exact IH.
Qed.
Lemma c82_same_netcdf_proof : forall names file, snd (a_document names file) = read_document names file.
Proof.
  intros names file. unfold a_document, read_document. pose proof (same_header file) as H. destruct (a_header file) as [l r]. cbn [snd] in H. subst r.
  destruct (read_header file) as [[h rest]|e|]; [|reflexivity|reflexivity]. cbn [obind]. pose proof (same_data_map file h names []) as M. destruct (a_data_map file h names []) as [l' r']. cbn [snd] in *. now subst r'.
Qed.

(** ** Sizes *)

Lemma total_app l l' : total (l ++ l') = total l + total l'.
Proof. induction l; cbn; [reflexivity|]. unfold total in *. cbn. lia. Qed.
Lemma total_nonneg l : Forall (fun n => 0 <= n) l -> 0 <= total l.
Proof. intro H. induction H as [|x l H0 H IH]; cbn; [lia|]. unfold total in *. cbn. lia. Qed.

Lemma be_acc_range bs : forall acc, Forall is_byte bs -> 0 <= acc -> 0 <= be_acc acc bs < (acc + 1) * 256 ^ Z.of_nat (length bs).
Proof.
  induction bs as [|b bs IH]; intros acc H P; [cbn; lia|]. inversion H as [|? ? B H']; subst. cbn [be_acc length]. unfold is_byte in B.
  specialize (IH (acc * 256 + b) H' ltac:(lia)). rewrite Nat2Z.inj_succ, Z.pow_succ_r by lia. nia.
Qed.
(** A reader without buffers. *)
Definition steady {A} (P : A -> Prop) (m : reader A) : Prop := forall bs a rest, Forall is_byte bs -> m bs = Ok (a, rest) ->
  P a /\ Forall is_byte rest /\ size rest <= size bs.
Lemma steady_ret {A} (P : A -> Prop) a : P a -> steady P (ret a).
Proof. intros H bs x rest B E. injection E as <- <-. repeat split; [exact H|exact B|lia]. Qed.
Lemma steady_fail {A} (P : A -> Prop) e : steady P (fail e). Proof. easy. Qed.
Lemma steady_panic {A} (P : A -> Prop) : steady P rpanic. Proof. easy. Qed.
Lemma steady_bind {A B} (P : A -> Prop) (Q : B -> Prop) m k : steady P m -> (forall a, P a -> steady Q (k a)) -> steady Q (bind m k).
Proof.
  intros H K bs b rest F E. unfold bind in E. destruct (m bs) as [[a r]|e|] eqn:M; try discriminate. destruct (H _ _ _ F M) as (Pa & F' & S). destruct (K a Pa _ _ _ F' E) as (Qb & F'' & S').
  repeat split; try assumption. lia.
Qed.
Lemma firstn_bytes n bs : Forall is_byte bs -> Forall is_byte (firstn n bs).
Proof. rewrite !Forall_forall. intros H x I. apply H. rewrite <- (firstn_skipn n bs). apply in_or_app. now left. Qed.
Lemma skipn_bytes n bs : Forall is_byte bs -> Forall is_byte (skipn n bs).
Proof. rewrite !Forall_forall. intros H x I. apply H. rewrite <- (firstn_skipn n bs). apply in_or_app. now right. Qed.
Lemma take_steady n bs b rest : Forall is_byte bs -> take_bytes n bs = Ok (b, rest) -> 0 <= n ->
  Forall is_byte b /\ length b = Z.to_nat n /\ Forall is_byte rest /\ size rest = size bs - n.
Proof.
  unfold take_bytes, size. intros F E N. destruct (n >? isize_max); [discriminate|]. destruct (Z.leb_spec n (Z.of_nat (length bs))); [|discriminate]. injection E as <- <-.
  repeat split; [now apply firstn_bytes|rewrite firstn_length; lia|now apply skipn_bytes|rewrite skipn_length; lia].
Qed.
Lemma steady_be n : 0 <= n -> steady (fun v => 0 <= v < 256 ^ n) (read_be n).
Proof.
  intros N bs v rest F E. unfold read_be, bind in E. destruct (take_bytes n bs) as [[b r]|e|] eqn:T; try discriminate. injection E as <- <-.
  destruct (take_steady _ _ _ _ F T N) as (Fb & L & Fr & S). split; [|split; [exact Fr|lia]]. pose proof (be_acc_range b 0 Fb ltac:(lia)) as R. rewrite L, Z2Nat.id in R by lia. unfold be_value. lia.
Qed.
Lemma steady_weak {A} (P : A -> Prop) m : steady P m -> steady (fun _ => True) m.
Proof. intros H bs a rest F E. destruct (H _ _ _ F E) as (_ & R). split; [exact I|exact R]. Qed.
Lemma steady_skip n (P : unit -> Prop) : P tt -> steady P (skip n).
Proof. intros H bs a rest F E. injection E as <- <-. repeat split; [exact H|now apply skipn_bytes|]. unfold size. rewrite skipn_length. lia. Qed.
Lemma steady_lift {A} (P : A -> Prop) o : (forall a, o = Ok a -> P a) -> steady P (lift o).
Proof. intros H bs a rest F E. unfold lift in E. destruct o; try discriminate. injection E as <- <-. repeat split; [now apply H|exact F|lia]. Qed.
Ltac steady_tac :=
  repeat first
    [ apply steady_ret; exact I | apply steady_fail | apply steady_panic | (apply steady_skip; exact I)
    | (apply steady_weak with (P := fun v => 0 <= v < 256 ^ 1); apply steady_be; lia) | (apply steady_weak with (P := fun v => 0 <= v < 256 ^ 2); apply steady_be; lia)
    | (apply steady_weak with (P := fun v => 0 <= v < 256 ^ 3); apply steady_be; lia) | (apply steady_weak with (P := fun v => 0 <= v < 256 ^ 4); apply steady_be; lia)
    | (apply steady_weak with (P := fun v => 0 <= v < 256 ^ 8); apply steady_be; lia) | (apply steady_weak with (P := fun v => 0 <= v < 256 ^ 16); apply steady_be; lia)
    | (apply steady_bind with (P := fun _ => True); [|intros ? _])
    | match goal with |- steady _ (if ?b then _ else _) => destruct b end ].
Notation any := (fun _ => True).
Lemma steady_discipline : steady any read_discipline. Proof. unfold read_discipline. steady_tac. Qed.
Lemma steady_significance : steady any read_ref_time_significance. Proof. unfold read_ref_time_significance. steady_tac. Qed.
Lemma steady_ref_time : steady any read_ref_time. Proof. unfold read_ref_time. steady_tac. Qed.
Lemma steady_status : steady any read_production_status. Proof. unfold read_production_status. steady_tac. Qed.
Lemma steady_data_type : steady any read_processed_data_type. Proof. unfold read_processed_data_type. steady_tac. Qed.
Lemma steady_section3 : steady any read_section3.
Proof.
  unfold read_section3, read_grid_definition_source, read_optional_point_interpretation, read_grid_definition_template, read_template3_0, read_template3_101, read_shape_of_earth,
    read_resolution_flags, read_scanning_flags, read_lat_lon, read_angle, read_scale_factor_value.
  steady_tac.
Qed.
Lemma steady_category : steady any read_parameter_category. Proof. unfold read_parameter_category. steady_tac. Qed.
Lemma steady_template4_1 : steady any read_template4_1.
Proof. unfold read_template4_1, read_parameter_category, read_i8. steady_tac. Qed.
Lemma steady_template5_0 : steady any read_template5_0.
Proof. unfold read_template5_0, read_signed, read_original_field_type. steady_tac. Qed.
Lemma steady_nc_type : steady any read_nc_type. Proof. unfold read_nc_type. steady_tac. Qed.
Lemma steady_padding n k : steady any (read_padding n k). Proof. unfold read_padding. cbv zeta. steady_tac. Qed.

(** What a reader does with its input, for its buffers. *)
Definition frugal {A} (k lim : Z) (P : A -> Prop) (m : areader A) : Prop := forall bs l r, Forall is_byte bs -> m bs = (l, r) ->
  match r with
  | Ok (a, rest) => P a /\ Forall is_byte rest /\ size rest <= size bs /\ Forall (fun n => 0 <= n) l /\ total l <= k * (size bs - size rest)
  | _ => within k lim (size bs) l
  end.
Lemma size_nonneg bs : 0 <= size bs. Proof. unfold size. lia. Qed.
Lemma within_nil k lim n : 0 <= k -> 0 <= n -> within k lim n [].
Proof. intros K N. split; [constructor|]. exists [], []. repeat split; [cbn; nia|now left]. Qed.
Lemma within_app k lim n n' l l' : Forall (fun n => 0 <= n) l -> total l <= k * n -> within k lim n' l' -> within k lim (n + n') (l ++ l').
Proof.
  intros F T (F' & f & la & -> & T' & L). split; [now apply Forall_app|]. exists (l ++ f)%list, la. rewrite total_app. repeat split; [now rewrite app_assoc|nia|exact L].
Qed.
Lemma within_more k lim n n' l : 0 <= k -> n <= n' -> within k lim n l -> within k lim n' l.
Proof. intros K N (F & f & la & E & T & L). split; [exact F|]. exists f, la. repeat split; [exact E|nia|exact L]. Qed.
Lemma frugal_bind {A B} k lim (P : A -> Prop) (Q : B -> Prop) m f : 0 <= k -> frugal k lim P m -> (forall a, P a -> frugal k lim Q (f a)) -> frugal k lim Q (a_bind m f).
Proof.
  intros K H F bs l r B0 E. unfold a_bind in E. destruct (m bs) as [l1 r1] eqn:M. specialize (H _ _ _ B0 M). destruct r1 as [[a rest]|e|].
  - destruct H as (Pa & Br & Sr & N1 & T1). destruct (f a rest) as [l2 r2] eqn:M2. injection E as <- <-. specialize (F a Pa _ _ _ Br M2). destruct r2 as [[b rest2]|e|].
    + destruct F as (Qb & Br2 & Sr2 & N2 & T2). rewrite total_app. repeat split; [exact Qb|exact Br2|lia|now apply Forall_app|nia].
    + replace (size bs) with ((size bs - size rest) + size rest) by lia. now apply within_app.
    + replace (size bs) with ((size bs - size rest) + size rest) by lia. now apply within_app.
  - injection E as <- <-. exact H.
  - injection E as <- <-. exact H.
Qed.
Lemma frugal_ret {A} k lim (P : A -> Prop) a : P a -> frugal k lim P (a_ret a).
Proof. intros H bs l r B E. injection E as <- <-. repeat split; [exact H|exact B|lia|constructor|cbn; lia]. Qed.
Lemma frugal_fail {A} k lim (P : A -> Prop) e : 0 <= k -> frugal k lim P (a_fail e).
Proof. intros K bs l r B E. injection E as <- <-. apply within_nil; [exact K|apply size_nonneg]. Qed.
Lemma frugal_plain {A} k lim (P : A -> Prop) m : 0 <= k -> steady P m -> frugal k lim P (plain m).
Proof.
  intros K S bs l r B E. injection E as <- <-. destruct (m bs) as [[a rest]|e|] eqn:M.
  - destruct (S _ _ _ B M) as (Pa & Br & Sr). repeat split; [exact Pa|exact Br|exact Sr|constructor|cbn; nia].
  - apply within_nil; [exact K|apply size_nonneg].
  - apply within_nil; [exact K|apply size_nonneg].
Qed.
Lemma frugal_buffer k lim n : 1 <= k -> 0 <= n -> n <= lim \/ n > isize_max -> frugal k lim (fun b => Forall is_byte b) (buffer n).
Proof.
  intros K N L bs l r B E. unfold buffer in E. injection E as <- <-. destruct (take_bytes n bs) as [[b rest]|e|] eqn:T.
  - destruct (take_steady _ _ _ _ B T N) as (Bb & _ & Br & Sr). destruct (Z.gtb_spec n isize_max); [unfold take_bytes in T; destruct (Z.gtb_spec n isize_max); [discriminate|lia]|].
    repeat split; [exact Bb|exact Br|lia|repeat constructor; exact N|]. cbn. nia.
  - destruct (Z.gtb_spec n isize_max); [apply within_nil; [lia|apply size_nonneg]|]. split; [repeat constructor; exact N|]. exists [], [n]. repeat split; [cbn; pose proof (size_nonneg bs); nia|]. right. exists n. split; [reflexivity|lia].
  - destruct (Z.gtb_spec n isize_max); [apply within_nil; [lia|apply size_nonneg]|]. split; [repeat constructor; exact N|]. exists [], [n]. repeat split; [cbn; pose proof (size_nonneg bs); nia|]. right. exists n. split; [reflexivity|lia].
Qed.
Lemma frugal_weak {A} k lim (P Q : A -> Prop) m : (forall a, P a -> Q a) -> frugal k lim P m -> frugal k lim Q m.
Proof. intros W H bs l r B E. specialize (H _ _ _ B E). destruct r as [[a rest]|e|]; [|exact H|exact H]. destruct H as (Pa & R). split; [now apply W|exact R]. Qed.
Lemma frugal_be_into k lim c n : 1 <= k -> 0 <= c * n -> c * n <= lim -> frugal k lim any (a_be_into c n).
Proof.
  intros K N L. unfold a_be_into. apply frugal_bind with (P := any); [lia| |intros b _; apply frugal_ret; exact I]. apply frugal_weak with (P := fun b => Forall is_byte b); [easy|]. apply frugal_buffer; [exact K|exact N|now left].
Qed.
Lemma frugal_chars k lim n : 1 <= k -> 0 <= n -> n <= lim -> frugal k lim any (a_n_chars n).
Proof.
  intros K N L. unfold a_n_chars. apply frugal_bind with (P := any); [lia| |intros b _; destruct (utf8_valid b); [apply frugal_ret; exact I|apply frugal_fail; lia]].
  apply frugal_weak with (P := fun b => Forall is_byte b); [easy|]. apply frugal_buffer; [exact K|exact N|now left].
Qed.

(** ** GRIB2 *)

Lemma usub_range chk bits a b n : 0 <= bits -> 0 <= a < 2 ^ bits -> 0 <= b -> b <= 2 ^ bits -> usub chk bits a b = Ok n -> 0 <= n < 2 ^ bits.
Proof.
  intros W A B C. unfold usub. destruct (Z.leb_spec b a); [intro E; injection E as <-; lia|]. destruct chk; [discriminate|]. intro E. injection E as <-. lia.
Qed.

Lemma frugal_ignore {A} k lim (P : A -> Prop) n f : 1 <= k -> 0 <= n <= lim -> lim <= isize_max -> (forall e l r, f tt [] = (l, r) -> r = Ok e -> False) -> fst (f tt []) = [] ->
  frugal k lim P (f tt) -> frugal k lim P (a_bind (a_ignore (a_n_bytes n)) f).
Proof.
  intros K N L NE NL F bs l r B E. unfold a_bind, a_ignore, a_n_bytes in E. destruct (buffer n bs) as [l1 r1] eqn:M. pose proof (frugal_buffer k lim n K (proj1 N) (or_introl (proj2 N)) _ _ _ B M) as H.
  destruct r1 as [[a rest]|e|].
  - destruct H as (_ & Br & Sr & N1 & T1). destruct (f tt rest) as [l2 r2] eqn:M2. injection E as <- <-. specialize (F _ _ _ Br M2). destruct r2 as [[b rest2]|e|].
    + destruct F as (Qb & Br2 & Sr2 & N2 & T2). rewrite total_app. repeat split; [exact Qb|exact Br2|lia|now apply Forall_app|nia].
    + replace (size bs) with ((size bs - size rest) + size rest) by lia. now apply within_app.
    + replace (size bs) with ((size bs - size rest) + size rest) by lia. now apply within_app.
  - destruct (f tt []) as [l2 r2] eqn:M2. cbn [fst] in NL. subst l2. injection E as <- <-. rewrite app_nil_r. destruct r2 as [x|e2|]; [destruct (NE x _ _ eq_refl eq_refl)|exact H|exact H].
  - injection E as <- <-. exact H.
Qed.
Definition gib4 : Z := 2 ^ 32.
Notation grib P := (frugal 1 gib4 P).
Lemma grib_bind {A B} (P : A -> Prop) (Q : B -> Prop) m f : grib P m -> (forall a, P a -> grib Q (f a)) -> grib Q (a_bind m f).
Proof. apply frugal_bind. lia. Qed.
Lemma grib_plain {A} (m : reader A) : steady any m -> grib any (plain m). Proof. apply frugal_plain. lia. Qed.
Lemma grib_be n : 0 <= n -> grib (fun v => 0 <= v < 256 ^ n) (plain (read_be n)).
Proof. intro N. apply frugal_plain; [lia|]. now apply steady_be. Qed.
Lemma steady_be_any n : 0 <= n -> steady any (read_be n). Proof. intro N. now apply steady_weak with (P := fun v => 0 <= v < 256 ^ n), steady_be. Qed.
Lemma grib_buffer n : 0 <= n -> n <= gib4 \/ n > isize_max -> grib any (a_n_bytes n).
Proof. intros N L. apply frugal_weak with (P := fun b => Forall is_byte b); [easy|]. apply frugal_buffer; [lia|exact N|exact L]. Qed.
Lemma grib_usub32 chk a b : 0 <= a < 256 ^ 4 -> 0 <= b <= 11 -> grib (fun n => 0 <= n < 256 ^ 4) (plain (lift (usub chk 32 a b))).
Proof. intros A B. apply frugal_plain; [lia|]. apply steady_lift. intros n. change (256 ^ 4) with (2 ^ 32) in *. apply usub_range; lia. Qed.
Lemma grib_usub64 chk a b : 0 <= a < 256 ^ 4 -> 0 <= b <= 21 -> grib (fun n => 0 <= n /\ (n <= gib4 \/ n > isize_max)) (plain (lift (usub chk 64 a b))).
Proof.
  intros A B. apply frugal_plain; [lia|]. apply steady_lift. intros n. unfold usub. destruct (Z.leb_spec b a); [intro E; injection E as <-; unfold gib4; split; lia|]. destruct chk; [discriminate|].
  intro E. injection E as <-. unfold gib4, isize_max. split; lia.
Qed.
Ltac num n := apply grib_bind with (P := fun v => 0 <= v < 256 ^ n); [apply grib_be; lia|intros ? ?].
Ltac sub t := apply grib_bind with (P := any); [t|intros ? _].
Ltac fin := match goal with |- frugal _ _ _ (if ?b then _ else _) => destruct b end; [apply frugal_ret; exact I|apply frugal_fail; lia].
Lemma grib_section0 : grib any a_section0.
Proof.
  unfold a_section0. sub ltac:(apply frugal_chars; unfold gib4; lia). apply (frugal_ignore 1 gib4 any 2 (fun _ => _)); [lia|unfold gib4; lia|unfold gib4, isize_max; lia| |reflexivity|].
  - intros e l r E R. subst r. cbn in E. discriminate.
  - sub ltac:(apply grib_plain, steady_discipline). num 1. num 8. fin.
Qed.
Lemma grib_section1 chk : grib any (a_section1 chk).
Proof.
  unfold a_section1. num 4. num 1. num 2. num 2. num 1. num 1. sub ltac:(apply grib_plain, steady_significance). sub ltac:(apply grib_plain, steady_ref_time). sub ltac:(apply grib_plain, steady_status).
  sub ltac:(apply grib_plain, steady_data_type). match goal with |- frugal _ _ _ (if ?b then _ else _) => destruct b end; [|apply frugal_fail; lia].
  eapply grib_bind; [apply grib_usub64; [eassumption|lia]|]. intros n [N L]. sub ltac:(now apply grib_buffer). apply frugal_ret. exact I.
Qed.
Lemma grib_section2 chk : grib any (a_section2 chk).
Proof.
  unfold a_section2. num 4. num 1. match goal with |- frugal _ _ _ (if ?b then _ else _) => destruct b end; [|apply frugal_fail; lia].
  eapply grib_bind; [apply grib_usub64; [eassumption|lia]|]. intros n [N L]. sub ltac:(now apply grib_buffer). apply frugal_ret. exact I.
Qed.
Lemma grib_template4 n tl : 0 <= tl < 256 ^ 4 -> grib any (a_product_definition_template n tl).
Proof.
  intro T. unfold a_product_definition_template. destruct (n =? 0); [|destruct (n =? 1); [|destruct (n =? 8)]].
  - sub ltac:(idtac). unfold a_template4_0. sub ltac:(apply grib_plain, steady_category). num 1. sub ltac:(apply grib_buffer; unfold gib4; lia). apply frugal_ret; exact I. apply frugal_ret; exact I.
  - sub ltac:(apply grib_plain, steady_template4_1). apply frugal_ret; exact I.
  - sub ltac:(idtac). unfold a_template4_8. sub ltac:(apply grib_plain, steady_category). num 1. sub ltac:(apply grib_buffer; unfold gib4; lia). num 1.
    sub ltac:(apply grib_buffer; unfold gib4; lia). apply frugal_ret; exact I. apply frugal_ret; exact I.
  - sub ltac:(apply grib_buffer; unfold gib4; lia). apply frugal_ret; exact I.
Qed.
Lemma grib_section4 chk : grib any (a_section4 chk).
Proof.
  unfold a_section4. num 4. num 1. num 2. num 2. eapply grib_bind; [apply grib_usub32; [eassumption|lia]|]. intros n N. cbv beta in N. sub ltac:(now apply grib_template4).
  sub ltac:(apply frugal_be_into; unfold gib4; lia). fin.
Qed.
Lemma grib_section5 chk : grib any (a_section5 chk).
Proof.
  unfold a_section5. num 4. num 1. num 4. num 2. eapply grib_bind; [apply grib_usub32; [eassumption|lia]|]. intros n N. cbv beta in N. sub ltac:(idtac); [|fin].
  unfold a_data_representation_template. match goal with |- frugal _ _ _ (if ?b then _ else _) => destruct b end.
  - sub ltac:(apply grib_plain, steady_template5_0). apply frugal_ret; exact I.
  - sub ltac:(apply grib_buffer; unfold gib4; lia). apply frugal_ret; exact I.
Qed.
Lemma grib_section6 chk : grib any (a_section6 chk).
Proof.
  unfold a_section6. num 4. num 1. num 1. eapply grib_bind; [apply grib_usub32; [eassumption|lia]|]. intros n N. cbv beta in N. sub ltac:(apply grib_buffer; unfold gib4; lia). fin.
Qed.
Lemma grib_section7 chk : grib any (a_section7 chk).
Proof.
  unfold a_section7. num 4. num 1. eapply grib_bind; [apply grib_usub32; [eassumption|lia]|]. intros n N. cbv beta in N.
  assert (D : 0 <= n / 2 /\ 2 * (n / 2) <= n) by (pose proof (Z.div_mod n 2); pose proof (Z.mod_pos_bound n 2); lia).
  sub ltac:(apply frugal_be_into; unfold gib4; lia). fin.
Qed.
Lemma grib_section8 : grib any a_section8.
Proof. unfold a_section8. sub ltac:(apply frugal_chars; unfold gib4; lia). fin. Qed.
Lemma grib_doc chk : grib any (a_single_doc chk).
Proof.
  unfold a_single_doc. sub ltac:(apply grib_section0). sub ltac:(apply grib_section1). sub ltac:(apply grib_section2). sub ltac:(apply grib_plain, steady_section3). sub ltac:(apply grib_section4).
  sub ltac:(apply grib_section5). sub ltac:(apply grib_section6). sub ltac:(apply grib_section7). sub ltac:(apply grib_section8). apply frugal_ret. exact I.
Qed.
Lemma grib_docs chk fuel : forall bs, Forall is_byte bs -> within 1 gib4 (size bs) (fst (a_docs chk fuel bs)).
Proof.
  induction fuel as [|f IH]; intros bs B; [apply within_nil; [lia|apply size_nonneg]|]. cbn [a_docs]. destruct (a_single_doc chk bs) as [l r] eqn:E. pose proof (grib_doc chk _ _ _ B E) as H.
  destruct r as [[d rest]|e|]; [|exact H|exact H]. destruct H as (_ & Br & S & N & T). specialize (IH rest Br). destruct (a_docs chk f rest) as [l' r']. cbn [fst] in *.
  replace (size bs) with ((size bs - size rest) + size rest) by lia. now apply within_app.
Qed.
Lemma c82_message_proof : forall chk bs l d rest, Forall is_byte bs -> a_single_doc chk bs = (l, Ok (d, rest)) -> total l <= size bs - size rest.
Proof. intros chk bs l d rest B E. pose proof (grib_doc chk _ _ _ B E) as (_ & _ & _ & _ & T). lia. Qed.
Lemma c82_grib_proof : forall chk bs, Forall is_byte bs -> within 1 (2 ^ 32) (size bs) (fst (a_multi_doc chk bs)).
Proof. intros chk bs B. unfold a_multi_doc. pose proof (grib_docs chk (S (length bs)) bs B) as H. destruct (a_docs chk (S (length bs)) bs) as [l r]. exact H. Qed.

(** ** NetCDF *)

Definition gib32 : Z := 2 ^ 35.
Notation netcdf P := (frugal 4 gib32 P).
Lemma netcdf_bind {A B} (P : A -> Prop) (Q : B -> Prop) m f : netcdf P m -> (forall a, P a -> netcdf Q (f a)) -> netcdf Q (a_bind m f).
Proof. apply frugal_bind. lia. Qed.
Lemma netcdf_plain {A} (m : reader A) : steady any m -> netcdf any (plain m). Proof. apply frugal_plain. lia. Qed.
Lemma netcdf_be n : 0 <= n -> netcdf (fun v => 0 <= v < 256 ^ n) (plain (read_be n)).
Proof. intro N. apply frugal_plain; [lia|]. now apply steady_be. Qed.
Lemma netcdf_push n w : 1 <= w -> 0 <= n <= 4 * w -> netcdf any (fun bs => let r := read_be w bs in ((match r with Ok _ => [n] | _ => [] end), r)).
Proof.
  intros W N bs l r B E. cbv zeta in E. injection E as <- <-. unfold read_be, bind. destruct (take_bytes w bs) as [[b rest]|e|] eqn:T.
  - destruct (take_steady _ _ _ _ B T ltac:(lia)) as (_ & _ & Br & S). assert (F : Forall (fun n => 0 <= n) [n]) by (apply Forall_cons; [lia|apply Forall_nil]). unfold ret. repeat split; [exact Br|lia|exact F|unfold total; cbn [fold_right]; lia].
  - apply within_nil; [lia|apply size_nonneg].
  - apply within_nil; [lia|apply size_nonneg].
Qed.
Lemma netcdf_times {A} (P : A -> Prop) n m : netcdf P m -> netcdf (Forall P) (a_times n m).
Proof.
  intro H. induction n as [|n IH]; [apply frugal_ret; constructor|]. cbn [a_times]. apply netcdf_bind with (P := P); [exact H|]. intros x Px. apply netcdf_bind with (P := Forall P); [exact IH|].
  intros l Pl. apply frugal_ret. now constructor.
Qed.
Lemma netcdf_list {A} (P : A -> Prop) tag m : netcdf P m -> netcdf (Forall P) (a_list tag m).
Proof.
  intro H. unfold a_list. apply netcdf_bind with (P := fun v => 0 <= v < 256 ^ 4); [apply netcdf_be; lia|]. intros t _. apply netcdf_bind with (P := fun v => 0 <= v < 256 ^ 4); [apply netcdf_be; lia|]. intros n _.
  destruct (_ && _); [apply frugal_ret; constructor|]. destruct (_ && _); [now apply netcdf_times|apply frugal_fail; lia].
Qed.
Ltac nnum n := apply netcdf_bind with (P := fun v => 0 <= v < 256 ^ n); [apply netcdf_be; lia|intros ? ?].
Ltac nsub t := apply netcdf_bind with (P := any); [t|intros ? _].
Lemma netcdf_values n t : 0 <= n < 256 ^ 4 -> netcdf any (a_values n t).
Proof.
  intro N. destruct t; cbn [a_values].
  - nsub ltac:(apply frugal_weak with (P := fun b => Forall is_byte b); [easy|apply frugal_buffer; unfold gib32; lia]). nsub ltac:(apply netcdf_plain, steady_padding). apply frugal_ret; exact I.
  - nsub ltac:(apply frugal_weak with (P := Forall any); [easy|]; apply netcdf_times; apply netcdf_push; lia). nsub ltac:(apply netcdf_plain, steady_padding). apply frugal_ret; exact I.
  - nsub ltac:(apply frugal_be_into; unfold gib32; lia). nsub ltac:(apply netcdf_plain, steady_padding). apply frugal_ret; exact I.
  - nsub ltac:(apply frugal_be_into; unfold gib32; lia). apply frugal_ret; exact I.
  - nsub ltac:(apply frugal_be_into; unfold gib32; lia). apply frugal_ret; exact I.
  - nsub ltac:(apply frugal_be_into; unfold gib32; lia). apply frugal_ret; exact I.
Qed.
Lemma netcdf_name : netcdf any a_name.
Proof.
  unfold a_name. nnum 4. nsub ltac:(apply frugal_chars; unfold gib32; lia). nsub ltac:(apply netcdf_plain; destruct (0 <? _); [apply steady_skip; exact I|apply steady_ret; exact I]). apply frugal_ret; exact I.
Qed.
Lemma netcdf_dim : netcdf any a_dim.
Proof. unfold a_dim. nsub ltac:(apply netcdf_name). nnum 4. apply frugal_ret; exact I. Qed.
Lemma netcdf_attr : netcdf any a_attr.
Proof. unfold a_attr. nsub ltac:(apply netcdf_name). nsub ltac:(apply netcdf_plain, steady_nc_type). nnum 4. nsub ltac:(now apply netcdf_values). apply frugal_ret; exact I. Qed.
Definition sized (v : nc_var) : Prop := 0 <= var_size v < 256 ^ 4.
Lemma netcdf_var : netcdf sized a_var.
Proof.
  unfold a_var. nsub ltac:(apply netcdf_name). nnum 4. nsub ltac:(apply frugal_weak with (P := Forall any); [easy|]; apply netcdf_times; apply netcdf_push; lia).
  nsub ltac:(apply frugal_weak with (P := Forall any); [easy|]; apply netcdf_list, netcdf_attr). nsub ltac:(apply netcdf_plain, steady_nc_type). nnum 4. nnum 8. apply frugal_ret. assumption.
Qed.
Lemma netcdf_header : netcdf (fun h => Forall sized (h_vars h)) a_header.
Proof.
  unfold a_header. nsub ltac:(idtac).
  - unfold a_magic. nsub ltac:(apply frugal_chars; unfold gib32; lia). nnum 1. destruct (negb _); [apply frugal_fail; lia|]. destruct (negb _); [apply frugal_fail; lia|apply frugal_ret; exact I].
  - nnum 4. nsub ltac:(apply frugal_weak with (P := Forall any); [easy|]; apply netcdf_list, netcdf_dim). nsub ltac:(apply frugal_weak with (P := Forall any); [easy|]; apply netcdf_list, netcdf_attr).
    apply netcdf_bind with (P := Forall sized); [apply netcdf_list, netcdf_var|]. intros vs V. apply frugal_ret. exact V.
Qed.
Lemma c82_header_proof : forall bs l h rest, Forall is_byte bs -> a_header bs = (l, Ok (h, rest)) -> total l <= 4 * (size bs - size rest).
Proof. intros bs l h rest B E. now pose proof (netcdf_header _ _ _ B E) as (_ & _ & _ & _ & T). Qed.
Lemma entry_range v : sized v -> 0 <= entry_count v < 256 ^ 4.
Proof.
  intros [L H]. unfold entry_count. assert (P : 1 <= byte_size (var_type v)) by (destruct (var_type v); cbn; lia). split; [apply Z.div_pos; lia|]. apply Z.le_lt_trans with (m := var_size v); [|exact H]. apply Z.div_le_upper_bound; nia.
Qed.
Lemma netcdf_data file h name : Forall is_byte file -> Forall sized (h_vars h) ->
  match snd (a_data_by_var file h name) with
  | Ok _ => Forall (fun n => 0 <= n) (fst (a_data_by_var file h name)) /\ total (fst (a_data_by_var file h name)) <= 4 * size file
  | _ => within 4 gib32 (size file) (fst (a_data_by_var file h name))
  end.
Proof.
  intros B V. unfold a_data_by_var. destruct (find_var h name) as [v|] eqn:F; [|cbn; apply within_nil; [lia|apply size_nonneg]].
  destruct (isize_max <? var_begin v); [cbn; apply within_nil; [lia|apply size_nonneg]|].
  assert (Sv : sized v). { unfold find_var in F. apply find_some in F. rewrite Forall_forall in V. now apply V. }
  set (bs := skipn (Z.to_nat (var_begin v)) file). assert (Sb : size bs <= size file) by (unfold bs, size; rewrite skipn_length; lia).
  destruct (a_values (entry_count v) (var_type v) bs) as [l r] eqn:E. pose proof (netcdf_values _ (var_type v) (entry_range v Sv) _ _ _ (skipn_bytes _ _ B) E) as H. cbn [fst snd].
  destruct r as [[a rest]|e|]; cbn [omap].
  - destruct H as (_ & _ & S & N & T). split; [exact N|]. pose proof (size_nonneg rest). fold bs in T, S. nia.
  - apply within_more with (n := size bs); [lia|exact Sb|exact H].
  - apply within_more with (n := size bs); [lia|exact Sb|exact H].
Qed.
Lemma netcdf_map file h names : Forall is_byte file -> Forall sized (h_vars h) -> forall m,
  within (4 * Z.of_nat (length names)) gib32 (size file) (fst (a_data_map file h names m)).
Proof.
  intros B V. induction names as [|n names IH]; intro m; [apply within_nil; [lia|apply size_nonneg]|]. cbn [a_data_map length]. pose proof (netcdf_data file h n B V) as H.
  destruct (a_data_by_var file h n) as [l r]. cbn [fst snd] in H. pose proof (size_nonneg file) as P. destruct r as [v|e|].
  - destruct H as (N & T). specialize (IH (map_insert n v m)). destruct (a_data_map file h names (map_insert n v m)) as [l' r']. cbn [fst] in *.
    destruct IH as (F' & f & la & -> & T' & L). split; [now apply Forall_app|]. exists (l ++ f)%list, la. rewrite total_app. repeat split; [now rewrite app_assoc|nia|exact L].
  - destruct H as (F' & f & la & E & T' & L). split; [exact F'|]. exists f, la. repeat split; [exact E|nia|exact L].
  - destruct H as (F' & f & la & E & T' & L). split; [exact F'|]. exists f, la. repeat split; [exact E|nia|exact L].
Qed.
Lemma c82_netcdf_proof : forall names file, Forall is_byte file ->
  within (4 * (1 + Z.of_nat (length names))) (2 ^ 35) (size file) (fst (a_document names file)).
Proof.
  intros names file B. unfold a_document. destruct (a_header file) as [l r] eqn:E. pose proof (netcdf_header _ _ _ B E) as H. pose proof (size_nonneg file) as P. destruct r as [[h rest]|e|].
  - destruct H as (V & _ & S & N & T). pose proof (netcdf_map file h names B V []) as M. destruct (a_data_map file h names []) as [l' r']. cbn [fst] in *. pose proof (size_nonneg rest).
    destruct M as (F' & f & la & -> & T' & L). split; [now apply Forall_app|]. exists (l ++ f)%list, la. rewrite total_app. repeat split; [now rewrite app_assoc|nia|exact L].
  - cbn [fst]. destruct H as (F' & f & la & E' & T' & L). split; [exact F'|]. exists f, la. repeat split; [exact E'|nia|exact L].
  - cbn [fst]. destruct H as (F' & f & la & E' & T' & L). split; [exact F'|]. exists f, la. repeat split; [exact E'|nia|exact L].
Qed.

(** ** Values of a message *)

Lemma bind_ok {A B} (m : reader A) (k : A -> reader B) bs x : bind m k bs = Ok x -> exists a rest, m bs = Ok (a, rest) /\ k a rest = Ok x.
Proof. unfold bind. destruct (m bs) as [[a rest]|e|]; try discriminate. intro E. now exists a, rest. Qed.
Lemma grib_shrinks {A} (m : areader A) (m' : reader A) bs a rest : grib any m -> same m m' -> Forall is_byte bs -> m' bs = Ok (a, rest) -> Forall is_byte rest /\ size rest <= size bs.
Proof.
  intros G S B E. specialize (S bs). destruct (m bs) as [l r] eqn:M. cbn [snd] in S. subst r. specialize (G _ _ _ B M). rewrite E in G. now destruct G as (_ & ? & ? & _).
Qed.
Lemma bitmap_size chk bs a rest : Forall is_byte bs -> read_section6 chk bs = Ok (a, rest) -> Z.of_nat (length (s6_bitmap a)) <= size bs - size rest.
Proof.
  intros B E. unfold read_section6 in E. apply bind_ok in E as (len & r1 & E1 & E). apply bind_ok in E as (num & r2 & E2 & E). apply bind_ok in E as (ind & r3 & E3 & E). apply bind_ok in E as (n & r4 & E4 & E).
  apply bind_ok in E as (bm & r5 & E5 & E). destruct (num =? 6); [|discriminate]. injection E as <- <-. cbn [s6_bitmap].
  destruct (steady_be 4 ltac:(lia) _ _ _ B E1) as (L & B1 & S1). destruct (steady_be 1 ltac:(lia) _ _ _ B1 E2) as (_ & B2 & S2). destruct (steady_be 1 ltac:(lia) _ _ _ B2 E3) as (_ & B3 & S3).
  unfold lift in E4. destruct (usub chk 32 len 6) as [x| |] eqn:U; try discriminate. injection E4 as -> <-. apply usub_range in U; [|lia|lia|lia|lia].
  destruct (take_steady _ _ _ _ B3 E5 ltac:(lia)) as (_ & Lb & _ & S5). lia.
Qed.
Lemma chunks_length fuel k : forall bs, (1 <= k)%nat -> forall n, length bs = (n * k)%nat -> (n <= fuel)%nat -> length (chunks fuel k bs) = n.
Proof.
  induction fuel as [|f IH]; intros bs K n E N; cbn [chunks]; [cbn; lia|]. destruct bs as [|b bs]; [cbn in *; nia|]. cbn [length]. destruct n as [|n]; [cbn in E; lia|]. f_equal.
  apply IH; [exact K| |lia]. rewrite skipn_length. cbn [Nat.mul] in E. lia.
Qed.
Lemma be_into_size k n bs vs rest : Forall is_byte bs -> 1 <= k -> 0 <= n -> read_be_into k n bs = Ok (vs, rest) -> Z.of_nat (length vs) = n /\ Forall is_byte rest /\ k * n = size bs - size rest.
Proof.
  intros B K N E. unfold read_be_into in E. apply bind_ok in E as (b & r & E & R). injection R as <- <-. destruct (take_steady _ _ _ _ B E ltac:(nia)) as (_ & L & Br & S).
  split; [|split; [exact Br|lia]]. rewrite map_length. rewrite (chunks_length (length b) (Z.to_nat k) b ltac:(lia) (Z.to_nat n)); [lia| |]; rewrite L.
  - rewrite Z2Nat.inj_mul by lia. lia.
  - apply Z2Nat.inj_le; nia.
Qed.
Lemma raw_size chk bs a rest : Forall is_byte bs -> read_section7 chk bs = Ok (a, rest) -> 2 * Z.of_nat (length (s7_data a)) <= size bs - size rest.
Proof.
  intros B E. unfold read_section7 in E. apply bind_ok in E as (len & r1 & E1 & E). apply bind_ok in E as (num & r2 & E2 & E). apply bind_ok in E as (n & r4 & E4 & E).
  apply bind_ok in E as (ds & r5 & E5 & E). destruct (num =? 7); [|discriminate]. injection E as <- <-. cbn [s7_data].
  destruct (steady_be 4 ltac:(lia) _ _ _ B E1) as (L & B1 & S1). destruct (steady_be 1 ltac:(lia) _ _ _ B1 E2) as (_ & B2 & S2).
  unfold lift in E4. destruct (usub chk 32 len 5) as [x| |] eqn:U; try discriminate. injection E4 as -> <-. apply usub_range in U; [|lia|lia|lia|lia].
  assert (D : 0 <= n / 2) by (apply Z.div_pos; lia). destruct (be_into_size 2 (n / 2) _ _ _ B2 ltac:(lia) D E5) as (Lv & _ & S5). lia.
Qed.
Lemma doc_sizes chk bs d rest : Forall is_byte bs -> read_single_doc chk bs = Ok (d, rest) ->
  Z.of_nat (length (s6_bitmap (d_s6 d))) + 2 * Z.of_nat (length (s7_data (d_s7 d))) <= size bs - size rest.
Proof.
  intros B E. unfold read_single_doc in E. apply bind_ok in E as (s0 & r0 & E0 & E). apply bind_ok in E as (s1 & r1 & E1 & E). apply bind_ok in E as (s2 & r2 & E2 & E).
  apply bind_ok in E as (s3 & r3 & E3 & E). apply bind_ok in E as (s4 & r4 & E4 & E). apply bind_ok in E as (s5 & r5 & E5 & E). apply bind_ok in E as (s6 & r6 & E6 & E).
  apply bind_ok in E as (s7 & r7 & E7 & E). apply bind_ok in E as (s8 & r8 & E8 & E). injection E as <- <-. cbn [d_s6 d_s7].
  assert (H0 : same a_section0 read_section0) by (unfold a_section0, read_section0, a_n_bytes, read_n_bytes; repeat first [apply same_chars|progress same_tac]).
  assert (H1 : same (a_section1 chk) (read_section1 chk)) by (unfold a_section1, read_section1, a_n_bytes, read_n_bytes; same_tac).
  assert (H2 : same (a_section2 chk) (read_section2 chk)) by (unfold a_section2, read_section2, a_n_bytes, read_n_bytes; same_tac).
  assert (H4 : same (a_section4 chk) (read_section4 chk)) by (unfold a_section4, read_section4, a_product_definition_template, read_product_definition_template, a_template4_0, read_template4_0, a_template4_8, read_template4_8, a_n_bytes, read_n_bytes; repeat first [apply same_be_into|progress same_tac]).
  assert (H5 : same (a_section5 chk) (read_section5 chk)) by (unfold a_section5, read_section5, a_data_representation_template, read_data_representation_template, a_n_bytes, read_n_bytes; same_tac).
  assert (H6 : same (a_section6 chk) (read_section6 chk)) by (unfold a_section6, read_section6, a_n_bytes, read_n_bytes; same_tac).
  assert (H7 : same (a_section7 chk) (read_section7 chk)) by (unfold a_section7, read_section7; repeat first [apply same_be_into|progress same_tac]).
  assert (H8 : same a_section8 read_section8) by (unfold a_section8, read_section8; repeat first [apply same_chars|progress same_tac]).
  destruct (grib_shrinks _ _ _ _ _ grib_section0 H0 B E0) as (B0 & S0). destruct (grib_shrinks _ _ _ _ _ (grib_section1 chk) H1 B0 E1) as (B1 & S1).
  destruct (grib_shrinks _ _ _ _ _ (grib_section2 chk) H2 B1 E2) as (B2 & S2). destruct (steady_section3 _ _ _ B2 E3) as (_ & B3 & S3).
  destruct (grib_shrinks _ _ _ _ _ (grib_section4 chk) H4 B3 E4) as (B4 & S4). destruct (grib_shrinks _ _ _ _ _ (grib_section5 chk) H5 B4 E5) as (B5 & S5).
  destruct (grib_shrinks _ _ _ _ _ (grib_section6 chk) H6 B5 E6) as (B6 & S6). destruct (grib_shrinks _ _ _ _ _ (grib_section7 chk) H7 B6 E7) as (B7 & S7).
  destruct (grib_shrinks _ _ _ _ _ grib_section8 H8 B7 E8) as (_ & S8). pose proof (bitmap_size _ _ _ _ B5 E6). pose proof (raw_size _ _ _ _ B6 E7). lia.
Qed.
Lemma loop_length {T} r c1 c2 (missing : T) tr bitmap raw : forall n i j vs, 0 <= i -> 0 <= j -> data_points_loop r c1 c2 missing tr bitmap raw n i j = Ok vs ->
  length vs = n /\ (n <> O -> match bitmap with [] => j + Z.of_nat n <= Z.of_nat (length raw) | _ => i + Z.of_nat n <= 8 * Z.of_nat (length bitmap) end).
Proof.
  induction n as [|n IH]; intros i j vs I J E; [injection E as <-; split; [reflexivity|easy]|]. cbn [data_points_loop] in E.
  destruct bitmap as [|b0 bm]; cbn [obind] in E.
  - destruct (nth_error raw (Z.to_nat j)) as [x|] eqn:X; [|discriminate]. destruct (data_points_loop _ _ _ _ _ _ _ n _ _) as [l| |] eqn:L; try discriminate. injection E as <-.
    destruct (IH (i + 1) (j + 1) _ ltac:(lia) ltac:(lia) L) as (Ln & H). split; [cbn; lia|]. intros _. assert (XX : (Z.to_nat j < length raw)%nat) by (apply nth_error_Some; congruence).
    destruct n; [lia|]. specialize (H ltac:(lia)). lia.
  - destruct (nth_error (b0 :: bm) (Z.to_nat (i / 8))) as [x|] eqn:X; [|discriminate]. cbn [obind] in E. assert (XX : (Z.to_nat (i / 8) < length (b0 :: bm))%nat) by (apply nth_error_Some; congruence).
    assert (Q : i + 1 <= 8 * Z.of_nat (length (b0 :: bm))). { pose proof (Z.div_mod i 8 ltac:(lia)). pose proof (Z.mod_pos_bound i 8 ltac:(lia)). assert (0 <= i / 8) by (apply Z.div_pos; lia). lia. }
    destruct (0 <? Z.land x _).
    + destruct (nth_error raw (Z.to_nat j)) as [y|]; [|discriminate]. destruct (data_points_loop _ _ _ _ _ _ _ n _ _) as [l| |] eqn:L; try discriminate. injection E as <-.
      destruct (IH (i + 1) (j + 1) _ ltac:(lia) ltac:(lia) L) as (Ln & H). split; [cbn; lia|]. intros _. destruct n; [lia|]. specialize (H ltac:(lia)). lia.
    + destruct (data_points_loop _ _ _ _ _ _ _ n _ _) as [l| |] eqn:L; try discriminate. injection E as <-.
      destruct (IH (i + 1) j _ ltac:(lia) ltac:(lia) L) as (Ln & H). split; [cbn; lia|]. intros _. destruct n; [lia|]. specialize (H ltac:(lia)). lia.
Qed.
Lemma c82_values_proof : forall chk bs d rest T powi (missing : T) transform vs, Forall is_byte bs -> read_single_doc chk bs = Ok (d, rest) -> s7_data (d_s7 d) <> [] ->
  calculate_data_points powi d missing transform = Ok vs -> Z.of_nat (length vs) <= 8 * (size bs - size rest).
Proof.
  intros chk bs d rest T powi missing transform vs B E NE V. pose proof (doc_sizes _ _ _ _ B E) as S. unfold calculate_data_points in V. destruct (s5_template (d_s5 d)) as [t|]; [|discriminate].
  destruct (s7_data (d_s7 d)) as [|x raw]; [easy|]. apply loop_length in V as (L & H); [|lia|lia]. destruct (Z.to_nat (s3_points (d_s3 d))) as [|n]; [lia|]. specialize (H ltac:(lia)).
  destruct (s6_bitmap (d_s6 d)); lia.
Qed.

Lemma within_total k lim n l : 0 <= lim -> within k lim n l -> total l <= k * n + lim.
Proof. intros P (F & f & la & -> & T & [->|(x & -> & L)]); rewrite total_app; unfold total at 2; cbn [fold_right]; lia. Qed.
Lemma c82_grib_total_proof : forall chk bs, Forall is_byte bs -> total (fst (a_multi_doc chk bs)) <= size bs + 2 ^ 32.
Proof. intros chk bs B. pose proof (within_total 1 (2 ^ 32) _ _ ltac:(lia) (c82_grib_proof chk bs B)). lia. Qed.
Lemma c82_netcdf_total_proof : forall names file, Forall is_byte file -> total (fst (a_document names file)) <= 4 * (1 + Z.of_nat (length names)) * size file + 2 ^ 35.
Proof. intros names file B. exact (within_total _ (2 ^ 35) _ _ ltac:(lia) (c82_netcdf_proof names file B)). Qed.
