(** Proofs about NetCDF files shown as text (C77). *)
From Coq Require Import ZArith List Bool Ascii String Lia.
From Coq Require Import Floats.SpecFloat.
From Verif Require Import Base F32 Text TextFacts Grib2Spec Utf8Spec NetCdfModel NetCdfSpec NetCdfProofs NcTextModel NcTextSpec.
Import ListNotations.
Open Scope Z_scope.

(** ** Strings of bytes *)

Lemma ascii_byte a b : is_byte a -> is_byte b -> ascii_of_nat (Z.to_nat a) = ascii_of_nat (Z.to_nat b) -> a = b.
Proof.
  unfold is_byte. intros A B E. apply (f_equal nat_of_ascii) in E. rewrite !nat_ascii_embedding in E by lia. lia.
Qed.
Lemma str_of_inj a : forall b, Forall is_byte a -> Forall is_byte b -> str_of a = str_of b -> a = b.
Proof.
  induction a as [|x a IH]; intros [|y b] A B E; try discriminate E; [reflexivity|]. inversion A as [|? ? A1 A2]; inversion B as [|? ? B1 B2]; subst.
  change (String (ascii_of_nat (Z.to_nat x)) (str_of a) = String (ascii_of_nat (Z.to_nat y)) (str_of b)) in E.
  assert (H : ascii_of_nat (Z.to_nat x) = ascii_of_nat (Z.to_nat y)) by congruence. assert (K : str_of a = str_of b) by congruence.
  f_equal; [exact (ascii_byte x y A1 B1 H)|exact (IH b A2 B2 K)].
Qed.
Lemma str_of_contains c a : Forall is_byte a -> ~ In (Z.of_nat (nat_of_ascii c)) a -> contains c (str_of a) = false.
Proof.
  induction a as [|x a IH]; intros A N; [reflexivity|]. inversion A as [|? ? A1 A2]; subst.
  change (Ascii.eqb c (ascii_of_nat (Z.to_nat x)) || contains c (str_of a) = false). rewrite (IH A2) by (intro; apply N; now right). rewrite orb_false_r.
  destruct (Ascii.eqb_spec c (ascii_of_nat (Z.to_nat x))) as [E|E]; [|reflexivity]. exfalso. apply N. left. rewrite E. unfold is_byte in A1.
  rewrite nat_ascii_embedding by lia. lia.
Qed.
Lemma str_of_line a : Forall is_byte a -> one_line a -> contains "010" (str_of a) = false.
Proof. intros A N. apply str_of_contains; [exact A|]. exact N. Qed.

(** ** Characters *)

Lemma char_bytes_byte c : is_byte c -> Forall is_byte (char_bytes c).
Proof.
  unfold is_byte, char_bytes. intro C. destruct (Z.ltb_spec c 128); repeat constructor; try lia; try (pose proof (Z.mod_pos_bound c 64); lia).
  all: assert (2 <= c / 64 <= 3) by (split; [apply Z.div_le_lower_bound; lia|apply Z.lt_succ_r; apply Z.div_lt_upper_bound; lia]); lia.
Qed.
Lemma chars_byte l : Forall is_byte l -> Forall is_byte (flat_map char_bytes l).
Proof. induction 1; cbn; [constructor|]. apply Forall_app. split; [now apply char_bytes_byte|assumption]. Qed.
Lemma char_bytes_inj a b x y : is_byte a -> is_byte b -> char_bytes a ++ x = char_bytes b ++ y -> a = b /\ x = y.
Proof.
  unfold is_byte, char_bytes. intros A B E. pose proof (Z.div_mod a 64 ltac:(lia)) as D1. pose proof (Z.div_mod b 64 ltac:(lia)) as D2.
  assert (P1 : 128 <= a -> 2 <= a / 64) by (intro; apply Z.div_le_lower_bound; lia). assert (P2 : 128 <= b -> 2 <= b / 64) by (intro; apply Z.div_le_lower_bound; lia).
  assert (C : forall u v (p q : list Z), u :: p = v :: q -> u = v /\ p = q) by (intros u v p q H; injection H; auto).
  destruct (Z.ltb_spec a 128), (Z.ltb_spec b 128); cbn [app] in E; apply C in E; destruct E as [E1 E2]; [auto|lia|lia|].
  apply C in E2. destruct E2 as [E2 E3]. split; [lia|exact E3].
Qed.
Lemma chars_inj l : forall k, Forall is_byte l -> Forall is_byte k -> flat_map char_bytes l = flat_map char_bytes k -> l = k.
Proof.
  induction l as [|a l IH]; intros [|b k] A B E; [reflexivity| | |].
  - exfalso. cbn in E. unfold char_bytes in E. destruct (b <? 128); discriminate E.
  - exfalso. cbn in E. unfold char_bytes in E. destruct (a <? 128); discriminate E.
  - inversion A as [|? ? A1 A2]; inversion B as [|? ? B1 B2]; subst. cbn in E. apply char_bytes_inj in E; [|assumption|assumption].
    destruct E as [-> E]. f_equal. apply IH; assumption.
Qed.
Lemma chars_line l : Forall is_byte l -> one_line l -> one_line (flat_map char_bytes l).
Proof.
  unfold one_line. intros B N H. apply in_flat_map in H. destruct H as (c & C & H). rewrite Forall_forall in B. specialize (B c C).
  unfold is_byte in B. unfold char_bytes in H. destruct (Z.ltb_spec c 128) as [L|L].
  - destruct H as [->|[]]. exact (N C).
  - destruct H as [H|[H|[]]]; [|pose proof (Z.mod_pos_bound c 64); lia]. assert (2 <= c / 64) by (apply Z.div_le_lower_bound; lia). lia.
Qed.
Lemma chars_text_inj l k : Forall is_byte l -> Forall is_byte k -> chars_text l = chars_text k -> l = k.
Proof. intros A B E. apply chars_inj; [exact A|exact B|]. apply str_of_inj; [now apply chars_byte|now apply chars_byte|exact E]. Qed.

(** ** Numbers *)

Lemma dec_first n : 0 <= n -> exists c s, dec n = String c s /\ is_digit c = true.
Proof. intro N. destruct (dec_spec n N) as (D & NE & _). destruct (dec n) as [|c s]; [congruence|]. cbn in D. apply andb_true_iff in D. exists c, s. tauto. Qed.
Lemma dec_signed_inj a b : dec_signed a = dec_signed b -> a = b.
Proof.
  unfold dec_signed. destruct (Z.ltb_spec a 0) as [A|A], (Z.ltb_spec b 0) as [B|B]; intro E.
  - injection E as E. apply dec_inj in E; lia.
  - exfalso. destruct (dec_first b B) as (c & s & Q & D). rewrite Q in E. injection E as <- _. discriminate D.
  - exfalso. destruct (dec_first a A) as (c & s & Q & D). rewrite Q in E. injection E as -> _. discriminate D.
  - apply dec_inj in E; lia.
Qed.
Lemma dec_signed_no c n : is_digit c = false -> c <> "-"%char -> contains c (dec_signed n) = false.
Proof.
  intros D M. unfold dec_signed. destruct (Z.ltb_spec n 0) as [N|N]; [|apply dec_no_char; [lia|exact D]].
  cbn [contains]. rewrite dec_no_char by (lia || exact D). rewrite orb_false_r. destruct (Ascii.eqb_spec c "-"); congruence.
Qed.

(** ** Lists of values *)

Lemma fold_text_spaced {A} (show : A -> string) l : fold_text show l = spaced show (rev l).
Proof.
  unfold fold_text. assert (G : forall acc, fold_left (fun val x => show x ++ " " ++ val)%string l acc = (spaced show (rev l) ++ acc)%string).
  { induction l as [|a l IH]; intro acc; [reflexivity|]. cbn [fold_left rev]. rewrite IH. clear IH. generalize (rev l) as k. intro k.
    induction k as [|b k IH]; [cbn; now rewrite append_assoc|]. cbn [spaced app]. rewrite !append_assoc. now rewrite <- IH. }
  rewrite G. apply append_nil.
Qed.
Lemma spaced_inj {A} (show : A -> string) (ok : A -> Prop) (I : forall a b, ok a -> ok b -> show a = show b -> a = b)
  (N : forall a, ok a -> contains " " (show a) = false) l : forall k, Forall ok l -> Forall ok k -> spaced show l = spaced show k -> l = k.
Proof.
  induction l as [|a l IH]; intros [|b k] A1 A2 E; [reflexivity| | |].
  - exfalso. apply (f_equal (contains " ")) in E. cbn [spaced] in E. rewrite contains_app in E. cbn in E. rewrite orb_true_r in E. discriminate E.
  - exfalso. apply (f_equal (contains " ")) in E. cbn [spaced] in E. rewrite contains_app in E. cbn in E. rewrite orb_true_r in E. discriminate E.
  - inversion A1; inversion A2; subst. cbn [spaced] in E. apply sep_inv in E; [|auto|auto]. destruct E as [E1 E2]. f_equal; [auto|apply IH; auto].
Qed.
Lemma fold_text_inj {A} (show : A -> string) (ok : A -> Prop) (I : forall a b, ok a -> ok b -> show a = show b -> a = b)
  (N : forall a, ok a -> contains " " (show a) = false) l k : Forall ok l -> Forall ok k -> fold_text show l = fold_text show k -> l = k.
Proof.
  intros L K E. rewrite !fold_text_spaced in E. apply (spaced_inj show ok I N) in E; [|now apply Forall_rev|now apply Forall_rev].
  rewrite <- (rev_involutive l), <- (rev_involutive k). now rewrite E.
Qed.
Lemma spaced_no {A} (show : A -> string) c (ok : A -> Prop) l : c <> " "%char -> (forall a, ok a -> contains c (show a) = false) -> Forall ok l -> contains c (spaced show l) = false.
Proof.
  intros C N. induction 1 as [|a l A1 _ IH]; [reflexivity|]. cbn [spaced]. rewrite contains_app, (N a A1). cbn. rewrite IH. rewrite orb_false_r.
  destruct (Ascii.eqb_spec c " "); congruence.
Qed.
Lemma fold_text_no {A} (show : A -> string) c (ok : A -> Prop) l : c <> " "%char -> (forall a, ok a -> contains c (show a) = false) -> Forall ok l -> contains c (fold_text show l) = false.
Proof. intros C N L. rewrite fold_text_spaced. apply (spaced_no show c ok); [exact C|exact N|now apply Forall_rev]. Qed.

(** ** Texts that can be told apart with anything behind them *)

Definition told {A} (ok : A -> Prop) (show : A -> string) : Prop :=
  forall a b x y, ok a -> ok b -> (show a ++ x = show b ++ y)%string -> a = b /\ x = y.
Lemma line_inv a b x y : contains "010" a = false -> contains "010" b = false -> (a ++ LF ++ x = b ++ LF ++ y)%string -> a = b /\ x = y.
Proof. intros A B E. exact (sep_inv "010" a b x y A B E). Qed.
Lemma dec_line a b x y : 0 <= a -> 0 <= b -> (dec a ++ LF ++ x = dec b ++ LF ++ y)%string -> a = b /\ x = y.
Proof.
  intros A B E. apply line_inv in E; [|apply dec_no_char; [exact A|reflexivity]|apply dec_no_char; [exact B|reflexivity]].
  destruct E as [E ->]. split; [now apply dec_inj|reflexivity].
Qed.
Lemma each_told {A} (ok : A -> Prop) show : told ok show -> forall l k x y, Forall ok l -> Forall ok k -> List.length l = List.length k ->
  (each_text show l ++ x = each_text show k ++ y)%string -> l = k /\ x = y.
Proof.
  intros T l. induction l as [|a l IH]; intros [|b k] x y L K N E; try discriminate N; [auto|].
  inversion L; inversion K; subst. cbn [each_text fold_right] in E. rewrite !append_assoc in E. apply T in E; [|assumption|assumption].
  destruct E as [-> E]. apply IH in E; [|assumption|assumption|now injection N]. destruct E as [-> ->]. auto.
Qed.
Lemma counted {A} (ok : A -> Prop) show : told ok show -> forall l k x y, Forall ok l -> Forall ok k ->
  (dec (Z.of_nat (List.length l)) ++ LF ++ each_text show l ++ LF ++ x = dec (Z.of_nat (List.length k)) ++ LF ++ each_text show k ++ LF ++ y)%string -> l = k /\ x = y.
Proof.
  intros T l k x y L K E. apply dec_line in E; [|lia|lia]. destruct E as [N E]. apply (each_told ok show T) in E; [|assumption|assumption|lia].
  destruct E as [-> E]. split; [reflexivity|]. now injection E.
Qed.

Section Told.
  Variables (fl : f32 -> string) (db : f64 -> string).
  Hypotheses (Tfl : telling fl) (Tdb : telling db).
  Lemma values_told w w' : values_ok w -> values_ok w' -> wv_type w = wv_type w' ->
    values_text fl db (values_meaning w) = values_text fl db (values_meaning w') -> values_meaning w = values_meaning w'.
  Proof.
    destruct w as [t l], w' as [t' l']. intros [B _] [B' _] T E. cbn [wv_type] in T. subst t'. unfold bits_ok in B, B'. cbn [wv_type wv_bits] in B, B'.
    assert (all : forall A (l : list A), Forall (fun _ => True) l) by (intros A k; apply Forall_forall; auto).
    destruct t; cbn [values_meaning wv_type wv_bits values_text] in E |- *; f_equal.
    - apply (fold_text_inj dec (fun n => 0 <= n)) in E; [exact E| | | |]; [intros; now apply dec_inj|intros; now apply dec_no_char| |];
        [revert B|revert B']; apply Forall_impl; intros; lia.
    - apply chars_text_inj; [revert B|revert B'|exact E]; apply Forall_impl; unfold is_byte; cbn; intros; lia.
    - apply (fold_text_inj dec_signed (fun _ => True)) in E; [exact E| | |apply all|apply all]; [intros; now apply dec_signed_inj|intros; now apply dec_signed_no].
    - apply (fold_text_inj dec_signed (fun _ => True)) in E; [exact E| | |apply all|apply all]; [intros; now apply dec_signed_inj|intros; now apply dec_signed_no].
    - apply (fold_text_inj fl (fun _ => True)) in E; [exact E| | |apply all|apply all]; [intros a b _ _; apply (proj1 Tfl)|intros a _; apply (proj2 Tfl)].
    - apply (fold_text_inj db (fun _ => True)) in E; [exact E| | |apply all|apply all]; [intros a b _ _; apply (proj1 Tdb)|intros a _; apply (proj2 Tdb)].
  Qed.
  Lemma values_line w : values_ok w -> plain_values (values_meaning w) -> contains "010" (values_text fl db (values_meaning w)) = false.
  Proof.
    destruct w as [t l]. intros [B _] P. unfold bits_ok in B. cbn [wv_type wv_bits] in B.
    assert (all : forall A (l : list A), Forall (fun _ => True) l) by (intros A k; apply Forall_forall; auto).
    destruct t; cbn [values_meaning wv_type wv_bits values_text plain_values] in P |- *.
    - apply (fold_text_no dec _ (fun n => 0 <= n)); [discriminate|intros; now apply dec_no_char|]. revert B. apply Forall_impl. intros. lia.
    - assert (Forall is_byte l) by (revert B; apply Forall_impl; unfold is_byte; cbn; intros; lia).
      apply str_of_line; [now apply chars_byte|now apply chars_line].
    - apply (fold_text_no dec_signed _ (fun _ => True)); [discriminate|intros; now apply dec_signed_no|apply all].
    - apply (fold_text_no dec_signed _ (fun _ => True)); [discriminate|intros; now apply dec_signed_no|apply all].
    - apply (fold_text_no fl _ (fun _ => True)); [discriminate|intros a _; apply (proj2 Tfl)|apply all].
    - apply (fold_text_no db _ (fun _ => True)); [discriminate|intros a _; apply (proj2 Tdb)|apply all].
  Qed.
  Lemma type_line t : contains "010" (type_text t) = false.
  Proof. destruct t; reflexivity. Qed.
  Lemma type_inj t u : type_text t = type_text u -> t = u.
  Proof. destruct t, u; intro E; first [reflexivity|discriminate E]. Qed.
  Ltac word E := repeat match type of E with (String ?c ?a ++ ?x = String ?c ?b ++ ?y)%string => apply (append_inv_head (String c a)) in E end.
  Ltac drop E := apply append_inv_head in E.

  Definition dim_fine (d : nc_dim) : Prop := dim_ok d /\ plain_dim d.
  Lemma dim_told : told dim_fine dim_text.
  Proof.
    intros [n m] [n' m'] x y [[[N1 _] M] P] [[[N1' _] M'] P']. unfold dim_text, plain_dim, fits32 in *. cbn [dim_name dim_length] in *. intro E. rewrite !append_assoc in E.
    drop E. drop E. drop E. apply line_inv in E; [|now apply str_of_line|now apply str_of_line]. destruct E as [E1 E]. drop E. apply dec_line in E; [|lia|lia].
    destruct E as [-> ->]. apply str_of_inj in E1; [|assumption|assumption]. now subst.
  Qed.
  Definition attr_fine (a : nc_attr) : Prop := plain_attr a /\ exists w, attr_ok w /\ a = attr_meaning w.
  Lemma attr_told : told attr_fine (attr_text fl db).
  Proof.
    intros a b x y [[P1 P2] (w & [[N _] V] & ->)] [[Q1 Q2] (w' & [[N' _] V'] & ->)]. destruct w as [n v], w' as [n' v'].
    unfold attr_text, attr_meaning in *. cbn [wa_name wa_values attr_name attr_type attr_values] in *. intro E. rewrite !append_assoc in E.
    drop E. drop E. drop E. apply line_inv in E; [|now apply str_of_line|now apply str_of_line]. destruct E as [E1 E].
    drop E. apply line_inv in E; [|apply type_line|apply type_line]. destruct E as [E2 E]. apply type_inj in E2.
    drop E. apply line_inv in E; [|now apply values_line|now apply values_line]. destruct E as [E3 ->].
    apply str_of_inj in E1; [|assumption|assumption]. apply (values_told v v' V V' E2) in E3. rewrite E1, E2, E3. auto.
  Qed.
  Definition var_fine (v : nc_var) : Prop := plain_var v /\ exists w, var_ok w /\ v = var_meaning w.
  Lemma attrs_fine l : Forall attr_ok l -> Forall plain_attr (map attr_meaning l) -> Forall attr_fine (map attr_meaning l).
  Proof.
    intros A P. apply Forall_forall. intros a I. rewrite Forall_forall in A, P. split; [exact (P a I)|]. apply in_map_iff in I. destruct I as (w & <- & I). exists w. auto.
  Qed.
  Lemma dims_text l : each_text (fun d => dec d ++ " ")%string l = spaced dec l.
  Proof. induction l as [|a l IH]; [reflexivity|]. cbn [each_text fold_right spaced]. rewrite append_assoc. unfold each_text in IH. now rewrite IH. Qed.
  Lemma var_told : told var_fine (var_text fl db).
  Proof.
    intros a b x y [[P1 P2] (w & (N & D & A & S & B) & ->)] [[Q1 Q2] (w' & (N' & D' & A' & S' & B') & ->)]. destruct w as [n ds l t s o], w' as [n' ds' l' t' s' o'].
    unfold var_text, var_meaning, fits32 in *. cbn [wr_name wr_dims wr_attrs wr_type wr_size wr_begin var_name var_dims var_attrs var_type var_size var_begin] in *. intro E.
    rewrite !append_assoc in E. rewrite !dims_text in E. destruct N as [N _], N' as [N' _], D as [D _], D' as [D' _], A as [A _], A' as [A' _].
    drop E. drop E. drop E. apply line_inv in E; [|now apply str_of_line|now apply str_of_line]. destruct E as [E1 E].
    drop E. apply line_inv in E; [|apply type_line|apply type_line]. destruct E as [E2 E].
    drop E. apply dec_line in E; [|lia|lia]. destruct E as [E3 E]. drop E. apply dec_line in E; [|lia|lia]. destruct E as [E4 E].
    assert (G : forall ds, Forall (fun v => 0 <= v < 2 ^ 32) ds -> Forall (fun n => 0 <= n) ds) by (intros k; apply Forall_impl; intros; lia).
    drop E. apply line_inv in E; [| |]; [|apply (spaced_no dec _ (fun n => 0 <= n)); [discriminate|intros; now apply dec_no_char|now apply G]..].
    destruct E as [E5 E]. drop E. apply (counted attr_fine (attr_text fl db) attr_told) in E; [|now apply attrs_fine|now apply attrs_fine].
    destruct E as [E6 ->]. apply str_of_inj in E1; [|assumption|assumption]. apply type_inj in E2.
    apply (spaced_inj dec (fun n => 0 <= n)) in E5; [|intros; now apply dec_inj|intros; now apply dec_no_char|now apply G|now apply G].
    subst. rewrite E6. auto.
  Qed.
  Lemma header_told w w' : header_ok w -> header_ok w' -> plain_header (header_meaning w) -> plain_header (header_meaning w') ->
    header_text fl db (header_meaning w) = header_text fl db (header_meaning w') -> header_meaning w = header_meaning w'.
  Proof.
    intros (R & [D _] & [A _] & [V _]) (R' & [D' _] & [A' _] & [V' _]) (P1 & P2 & P3) (Q1 & Q2 & Q3). destruct w as [r d a v], w' as [r' d' a' v'].
    unfold header_text, header_meaning, magic_text, fits32 in *. cbn [wh_recs wh_dims wh_attrs wh_vars h_magic h_version h_num_recs h_dims h_attrs h_vars] in *.
    intro E. apply (f_equal (fun s => s ++ "")%string) in E. rewrite !append_assoc in E.
    drop E. drop E. drop E. drop E. drop E. drop E. drop E. drop E. drop E. apply dec_line in E; [|lia|lia]. destruct E as [E1 E].
    drop E. apply (counted dim_fine dim_text dim_told) in E; cycle 1.
    { apply Forall_forall. intros z Z. rewrite Forall_forall in D, P1. split; auto. }
    { apply Forall_forall. intros z Z. rewrite Forall_forall in D', Q1. split; auto. }
    destruct E as [E2 E]. drop E. apply (counted attr_fine (attr_text fl db) attr_told) in E; [|now apply attrs_fine|now apply attrs_fine].
    destruct E as [E3 E]. drop E. apply (counted var_fine (var_text fl db) var_told) in E; cycle 1.
    { apply Forall_forall. intros z Z. rewrite Forall_forall in V, P3. split; [auto|]. apply in_map_iff in Z. destruct Z as (q & <- & Z). eauto. }
    { apply Forall_forall. intros z Z. rewrite Forall_forall in V', Q3. split; [auto|]. apply in_map_iff in Z. destruct Z as (q & <- & Z). eauto. }
    destruct E as [E4 _]. rewrite E1, E2, E3, E4. reflexivity.
  Qed.
End Told.
Lemma c77_tells_proof fl db file file' h h' rest rest' : telling fl -> telling db -> Forall is_byte file -> Forall is_byte file' ->
  read_header file = Ok (h, rest) -> read_header file' = Ok (h', rest') -> plain_header h -> plain_header h' ->
  header_text fl db h = header_text fl db h' -> h = h'.
Proof.
  intros F D B B' R R' P P' E. destruct (header_accepts file h rest B R) as (w & _ & W & _ & _ & <-). destruct (header_accepts file' h' rest' B' R') as (w' & _ & W' & _ & _ & <-).
  exact (header_told fl db F D w w' W W' P P' E).
Qed.
Lemma c77_order_proof fl db l : values_text fl db (IntValues l) = spaced dec_signed (rev l) /\ values_text fl db (ShortValues l) = spaced dec_signed (rev l) /\
  values_text fl db (ByteValues l) = spaced dec (rev l) /\
  (forall k, values_text fl db (FloatValues k) = spaced fl (rev k)) /\ (forall k, values_text fl db (DoubleValues k) = spaced db (rev k)).
Proof. repeat split; try (intro k); cbn [values_text]; apply fold_text_spaced. Qed.
Lemma c77_getters_proof names file d name : Forall is_byte file -> read_document names file = Ok d -> In name names ->
  exists v w vals, first_var (doc_header d) name v /\ map_get name (doc_data d) = Some vals /\
    wv_type w = var_type v /\ Z.of_nat (List.length (wv_bits w)) = announced v /\ bits_ok w /\
    values_bytes w = firstn (List.length (values_bytes w)) (skipn (Z.to_nat (var_begin v)) file) /\
    get_bytes vals = match var_type v with NcByte => Ok (wv_bits w) | _ => Panic end /\
    get_chars vals = match var_type v with NcChar => Ok (chars_text (wv_bits w)) | _ => Panic end /\
    get_shorts vals = match var_type v with NcShort => Ok (map (fun b => if b <? 2 ^ 15 then b else b - 2 ^ 16) (wv_bits w)) | _ => Panic end /\
    get_ints vals = match var_type v with NcInt => Ok (map (fun b => if b <? 2 ^ 31 then b else b - 2 ^ 32) (wv_bits w)) | _ => Panic end /\
    get_floats vals = match var_type v with NcFloat => Ok (map f32_of_bits (wv_bits w)) | _ => Panic end /\
    get_doubles vals = match var_type v with NcDouble => Ok (map f64_of_bits (wv_bits w)) | _ => Panic end.
Proof.
  intros B R I. destruct (c25_values_proof names file d B R) as (_ & H & _). destruct (H name I) as (v & w & F & _ & T & L & O & V & G).
  exists v, w, (values_meaning w). do 6 (split; [assumption|]). rewrite <- T. unfold values_meaning. destruct (wv_type w); repeat split.
Qed.

(** The lines of the text. *)
Lemma app_assoc_s a b c : ((a ++ b) ++ c = a ++ (b ++ c))%string.
Proof. induction a; cbn; congruence. Qed.
Lemma ended_cons l ls : ended (l :: ls) = (l ++ String "010" EmptyString ++ ended ls)%string.
Proof.
  unfold ended. destruct ls as [|b ls]; cbn [map String.concat]; [|rewrite app_assoc_s; reflexivity].
  rewrite <- (append_nil (l ++ _)%string) at 1. rewrite app_assoc_s. reflexivity.
Qed.
Lemma ended_app a b : ended (a ++ b) = (ended a ++ ended b)%string.
Proof. induction a as [|x a IH]; [reflexivity|]. cbn [List.app]. rewrite !ended_cons, IH, !app_assoc_s. reflexivity. Qed.
Lemma ended_flat {A} (show : A -> string) lines l : (forall a, show a = ended (lines a)) -> each_text show l = ended (flat_map lines l).
Proof. intro H. induction l as [|a l IH]; [reflexivity|]. cbn [each_text fold_right flat_map]. rewrite ended_app, H. f_equal. exact IH. Qed.
Lemma each_spaced {A} (show : A -> string) l : each_text (fun d => show d ++ " ")%string l = spaced show l.
Proof. induction l as [|a l IH]; [reflexivity|]. cbn [each_text fold_right spaced]. rewrite app_assoc_s. f_equal. f_equal. exact IH. Qed.
Lemma c77_lines_proof fl db h : header_text fl db h = ended (header_lines str_of type_text (values_text fl db) h).
Proof.
  assert (Ha : forall a, attr_text fl db a = ended (attr_lines str_of type_text (values_text fl db) a)).
  { intro a. unfold attr_text, attr_lines, field, LF. rewrite !ended_cons, !app_assoc_s. reflexivity. }
  assert (Hd : forall d, dim_text d = ended (dim_lines str_of d)).
  { intro d. unfold dim_text, dim_lines, field, LF. rewrite !ended_cons, !app_assoc_s. reflexivity. }
  assert (Hv : forall v, var_text fl db v = ended (var_lines str_of type_text (values_text fl db) v)).
  { intro v. unfold var_text, var_lines, field, LF, count. rewrite (ended_flat _ _ _ Ha), each_spaced. cbn [List.app]. rewrite !ended_cons, !ended_app, !ended_cons, !app_assoc_s. reflexivity. }
  unfold header_text, magic_text, header_lines, field, LF, count. rewrite (ended_flat _ _ _ Ha), (ended_flat _ _ _ Hd), (ended_flat _ _ _ Hv).
  cbn [List.app]. repeat (rewrite ?ended_cons, ?ended_app, ?app_assoc_s; cbn [List.app]). reflexivity.
Qed.
Lemma c77_types_proof t : In (t, type_text t) type_names.
Proof. destruct t; cbn; auto 10. Qed.
