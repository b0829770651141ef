(** Proofs about the command line (C78). *)
From Coq Require Import ZArith Lia List Bool Ascii String Permutation.
From Verif Require Import Base F32 Text TextFacts Par ForecastModel FetchModel FetchSpec FetchProofs DwdModel SwissModel CliModel NeedSpec NeedProofs ArgsModel ArgsSpec.
Import ListNotations.
Open Scope Z_scope.

(** ** Words *)
Lemma plain_value s : plain_word s <-> classify s = WValue.
Proof.
  unfold plain_word. split.
  - intros [->|H]; [reflexivity|]. destruct s as [|a [|b r]]; cbn; try reflexivity.
    destruct (Ascii.eqb_spec a "-") as [->|N]; [|reflexivity]. now destruct (H (String b r)).
  - destruct s as [|a [|b r]]; cbn; intro H.
    + right. discriminate.
    + destruct (Ascii.eqb_spec a "-") as [->|N]; [now left|right]. intros r E. injection E as -> _. now apply N.
    + right. intros r' E. injection E as -> _. rewrite Ascii.eqb_refl in H. destruct (Ascii.eqb b "-"); [|discriminate].
      destruct r; [discriminate|]. destruct (split_equals _); discriminate.
Qed.
Definition long_of (o : cli_opt) : string := ("--" ++ name_of o)%string.
Lemma classify_long o : classify ("--" ++ name_of o) = WLong (name_of o) None. Proof. now destruct o. Qed.
Lemma classify_long_value o v : classify ("--" ++ name_of o ++ "=" ++ v) = WLong (name_of o) (Some v). Proof. now destruct o. Qed.
Lemma by_name_of o : by_name (name_of o) = Some (Some o). Proof. now destruct o. Qed.
Lemma by_name_inv n o : by_name n = Some (Some o) -> n = name_of o.
Proof.
  unfold by_name. destruct (String.eqb_spec n "model") as [->|_]; [intro E; now injection E as <-|].
  destruct (String.eqb_spec n "variables") as [->|_]; [intro E; now injection E as <-|].
  destruct (String.eqb_spec n "steps") as [->|_]; [intro E; now injection E as <-|]. destruct (_ || _); discriminate.
Qed.
Definition letter (o : cli_opt) : ascii := match o with OModel => "m" | OVariables => "v" | OSteps => "s" end.
Lemma letter_string o r : ("-" ++ letter_of o ++ r)%string = String "-" (String (letter o) r). Proof. now destruct o. Qed.
Lemma letter_alone o : ("-" ++ letter_of o)%string = String "-" (String (letter o) ""). Proof. now destruct o. Qed.
Lemma classify_letter o r : classify (String "-" (String (letter o) r)) = WShort (letter o) r. Proof. now destruct o. Qed.
Lemma by_letter_of o : by_letter (letter o) = Some (Some o). Proof. now destruct o. Qed.
Lemma by_letter_inv c o : by_letter c = Some (Some o) -> c = letter o.
Proof.
  unfold by_letter. destruct (Ascii.eqb_spec c "m") as [->|_]; [intro E; now injection E as <-|].
  destruct (Ascii.eqb_spec c "v") as [->|_]; [intro E; now injection E as <-|].
  destruct (Ascii.eqb_spec c "s") as [->|_]; [intro E; now injection E as <-|]. destruct (_ || _); discriminate.
Qed.
Lemma split_none s : forall n, split_equals s = (n, None) -> s = n.
Proof.
  induction s as [|c r IH]; cbn; intros n E; [now injection E as <-|]. destruct (Ascii.eqb c "="); [discriminate|].
  destruct (split_equals r) as [n' v]. injection E as <- ->. now rewrite (IH n' eq_refl).
Qed.
Lemma split_some s : forall n v, split_equals s = (n, Some v) -> s = (n ++ "=" ++ v)%string.
Proof.
  induction s as [|c r IH]; cbn; intros n v E; [discriminate|]. destruct (Ascii.eqb_spec c "=") as [->|_]; [now injection E as <- <-|].
  destruct (split_equals r) as [n' v']. injection E as <- ->. now rewrite (IH n' v eq_refl).
Qed.
Lemma classify_inv s : match classify s with
  | WEnd => s = "--"%string
  | WLong n None => s = ("--" ++ n)%string
  | WLong n (Some v) => s = ("--" ++ n ++ "=" ++ v)%string
  | WShort c r => s = String "-" (String c r)
  | WValue => plain_word s
  end.
Proof.
  destruct (classify s) as [|n v|c r|] eqn:E; [..|now apply plain_value]; destruct s as [|a [|b t]]; cbn in E; try discriminate;
    destruct (Ascii.eqb_spec a "-") as [->|_]; try discriminate; destruct (Ascii.eqb_spec b "-") as [->|_]; try discriminate.
  - destruct t; [reflexivity|]. destruct (split_equals _); discriminate.
  - destruct t as [|c t]; [discriminate|]. destruct (split_equals (String c t)) as [n' v'] eqn:S. injection E as -> ->.
    destruct v as [v|]; [apply split_some in S|apply split_none in S]; now rewrite S.
  - destruct t as [|c' t]; [discriminate|]. destruct (split_equals (String c' t)); discriminate.
  - now injection E as -> ->.
Qed.

(** ** Numbers *)
Lemma digits_plus acc r : digits_value acc (String "+" r) = None. Proof. reflexivity. Qed.
Lemma parse_usize_spec s n : parse_usize s = Some n <-> number_text s n.
Proof.
  unfold parse_usize, number_text. split.
  - intro E. set (s' := match s with String c r => if Ascii.eqb c "+" then r else s | EmptyString => s end) in E.
    assert (D : s = s' \/ s = String "+" s').
    { unfold s'. destruct s as [|c r]; [now left|]. destruct (Ascii.eqb_spec c "+") as [->|_]; [now right|now left]. }
    exists s'. split; [exact D|]. destruct s' as [|c r]; [discriminate|]. split; [discriminate|].
    destruct (digits_value 0 (String c r)) as [v|]; [|discriminate]. destruct (Z.ltb_spec v (2 ^ 64)); [|discriminate]. injection E as ->. now split.
  - intros (d & [->| ->] & N & V & B).
    + destruct d as [|c r]; [congruence|]. destruct (Ascii.eqb_spec c "+") as [->|_]; [now rewrite digits_plus in V|]. rewrite V.
      now rewrite (proj2 (Z.ltb_lt _ _) B).
    + rewrite Ascii.eqb_refl. destruct d as [|c r]; [congruence|]. rewrite V. now rewrite (proj2 (Z.ltb_lt _ _) B).
Qed.
Lemma parse_numbers_spec l : forall ns, parse_numbers l = Some ns <-> Forall2 number_text l ns.
Proof.
  induction l as [|s r IH]; cbn [parse_numbers]; intro ns.
  - split; [intro E; injection E as <-; constructor|intro F; now inversion F].
  - split.
    + destruct (parse_usize s) as [n|] eqn:E; [|discriminate]. destruct (parse_numbers r) as [ns'|]; [|discriminate]. intro J. injection J as <-.
      constructor; [now apply parse_usize_spec|now apply IH].
    + intro F. inversion F as [|? n ? ns' H1 H2]; subst. apply parse_usize_spec in H1. apply IH in H2. now rewrite H1, H2.
Qed.

(** ** Groups *)
Fixpoint store_all (c : collected) (gs : list group) : option collected :=
  match gs with [] => Some c | g :: r => match store c (gr_opt g) (gr_values g) with Some c' => store_all c' r | None => None end end.
Definition settled (args : list string) : Prop := match args with [] => True | a :: _ => classify a <> WValue end.
Lemma settle c p c' args : settled args -> flush c p = Some c' -> parse c p args = parse c' None args.
Proof.
  intros S F. destruct args as [|a rest]; cbn [parse].
  - unfold finish. now rewrite F.
  - cbn in S. destruct (classify a) as [|n v|ch r|]; [..|congruence].
    + destruct rest; [|reflexivity]. unfold finish. now rewrite F.
    + now rewrite F.
    + now rewrite F.
Qed.
Lemma settle_none c p args : settled args -> flush c p = None -> parse c p args = Usage.
Proof.
  intros S F. destruct args as [|a rest]; cbn [parse].
  - unfold finish. now rewrite F.
  - cbn in S. destruct (classify a) as [|n v|ch r|]; [..|congruence].
    + destruct rest; [|reflexivity]. unfold finish. now rewrite F.
    + rewrite F. destruct (by_name n) as [[o|]|]; [reflexivity| |reflexivity]. now destruct v.
    + rewrite F. now destruct (by_letter ch) as [[o|]|].
Qed.
Lemma collect_values c o rest : forall vs before, Forall plain_word vs -> (o = OModel -> (List.length (before ++ vs) <= 1)%nat) ->
  parse c (Some (o, before)) (vs ++ rest) = parse c (Some (o, before ++ vs)) rest.
Proof.
  induction vs as [|v vs IH]; intros before F L; [now rewrite app_nil_r|]. inversion F as [|? ? P F']; subst. cbn [app parse].
  rewrite (proj1 (plain_value v) P).
  assert (T : takes o before = true).
  { destruct o; try reflexivity. destruct before; [reflexivity|]. specialize (L eq_refl). rewrite app_length in L. cbn in L. lia. }
  rewrite T, IH by (try assumption; intro; rewrite <- app_assoc; now apply L). now rewrite <- app_assoc.
Qed.
Lemma given_settled g rest : given g -> settled (gr_words g ++ rest).
Proof.
  intro G. destruct G as [o w vs W _ _ _|o v|o v|o v N E]; cbn [gr_words app settled].
  - destruct W as [->| ->]; [now rewrite classify_long|]. now rewrite letter_alone, classify_letter.
  - now rewrite classify_long_value.
  - now rewrite letter_string, classify_letter.
  - now rewrite letter_string, classify_letter.
Qed.
Lemma parse_group c g rest : given g -> settled rest ->
  parse c None (gr_words g ++ rest) = match store c (gr_opt g) (gr_values g) with Some c' => parse c' None rest | None => Usage end.
Proof.
  intros G S. destruct G as [o w vs W NE P L|o v|o v|o v N E]; cbn [gr_words gr_opt gr_values app].
  - assert (Q : parse c None (w :: vs ++ rest) = parse c (Some (o, [])) (vs ++ rest)).
    { cbn [parse]. destruct W as [->| ->].
      - now rewrite classify_long, by_name_of.
      - now rewrite letter_alone, classify_letter, by_letter_of. }
    rewrite Q, (collect_values c o rest vs []) by (try assumption; intro E; cbn [app]; rewrite (L E); lia). cbn [app].
    destruct (store c o vs) as [c'|] eqn:St; [now apply settle|now apply settle_none].
  - cbn [parse]. now rewrite classify_long_value, by_name_of.
  - cbn [parse]. rewrite letter_string, classify_letter, by_letter_of. reflexivity.
  - cbn [parse]. rewrite letter_string, classify_letter, by_letter_of. cbn [flush]. destruct v as [|x v]; [congruence|].
    unfold attached. destruct (Ascii.eqb_spec x "=") as [->|_]; [now destruct (E v)|]. reflexivity.
Qed.
Lemma groups_settled gs stop : well_formed gs stop -> settled (line_of gs stop).
Proof.
  intros [F S]. unfold line_of. destruct gs as [|g gs]; cbn [map List.concat app].
  - destruct S as [->| ->]; cbn; [exact I|discriminate].
  - rewrite <- app_assoc. apply given_settled. now inversion F.
Qed.
Lemma parse_groups stop : forall gs c, well_formed gs stop ->
  parse c None (line_of gs stop) = match store_all c gs with Some c' => finish c' None | None => Usage end.
Proof.
  induction gs as [|g gs IH]; intros c W.
  - unfold line_of. cbn. destruct W as [_ [->| ->]]; reflexivity.
  - assert (W' : well_formed gs stop) by (destruct W as [F S]; split; [now inversion F|exact S]).
    unfold line_of. cbn [map List.concat]. rewrite <- app_assoc. fold (line_of gs stop).
    rewrite parse_group by (try (now apply groups_settled); now destruct W as [F _]; inversion F). cbn [store_all].
    destruct (store c (gr_opt g) (gr_values g)); [now apply IH|reflexivity].
Qed.

(** ** What the groups give *)
Lemma given_facts g : given g -> gr_values g <> [] /\ (gr_opt g = OModel -> exists v, gr_values g = [v]).
Proof.
  intro G. destruct G as [o w vs W NE P L|o v|o v|o v N E]; cbn [gr_values gr_opt]; split; try discriminate; try (intros _; now exists v); [exact NE|].
  intro E. specialize (L E). destruct vs as [|v [|v' vs]]; try discriminate. now exists v.
Qed.
Definition models_of (c : collected) : list string := match co_model c with Some m => [m] | None => [] end.
Lemma values_cons o g gs : values_of o (g :: gs) = (if same_opt (gr_opt g) o then gr_values g else []) ++ values_of o gs. Proof. reflexivity. Qed.
Lemma store_all_spec : forall gs c a, Forall given gs ->
  ((exists c', store_all c gs = Some c' /\ finish c' None = Call a) <->
   models_of c ++ values_of OModel gs = [ar_model a] /\ co_variables c ++ values_of OVariables gs = ar_variables a /\
   exists ns, Forall2 number_text (values_of OSteps gs) ns /\ co_steps c ++ ns = ar_steps a).
Proof.
  induction gs as [|g gs IH]; intros c [m vars steps] F.
  - cbn [store_all values_of flat_map ar_model ar_variables ar_steps]. rewrite !app_nil_r. split.
    + intros (c' & E & Q). injection E as <-. unfold finish in Q. cbn [flush] in Q. unfold models_of. destruct (co_model c) as [m'|]; [|discriminate].
      injection Q as <- <- <-. repeat split. exists []. split; [constructor|apply app_nil_r].
    + intros (M & V & ns & N & S). inversion N; subst. exists c. split; [reflexivity|]. unfold finish, models_of in *. cbn [flush].
      destruct (co_model c) as [m'|]; [|discriminate]. injection M as ->. now rewrite app_nil_r.
  - inversion F as [|? ? G F']; subst. destruct (given_facts g G) as [NE ML]. rewrite !values_cons. cbn [store_all].
    destruct g as [ws o vs]. cbn [gr_opt gr_values] in *. destruct vs as [|v vs]; [congruence|]. destruct o; cbn [same_opt store].
    + destruct (ML eq_refl) as [v' E]. injection E as <- ->. cbn [app]. unfold models_of. destruct (co_model c) as [m'|] eqn:Ec.
      * split; [intros (c' & E & _); discriminate|]. intros (M & _). discriminate M.
      * rewrite IH by exact F'. unfold models_of. cbn [co_model co_variables co_steps app]. tauto.
    + rewrite IH by exact F'. unfold models_of. cbn [co_model co_variables co_steps app ar_variables ar_model ar_steps]. rewrite <- app_assoc. cbn [app]. tauto.
    + destruct (parse_numbers (v :: vs)) as [ns|] eqn:P.
      * apply parse_numbers_spec in P. rewrite IH by exact F'. unfold models_of. cbn [co_model co_variables co_steps app ar_variables ar_model ar_steps]. split.
        -- intros (M & V & ns' & N & S). split; [exact M|]. split; [exact V|]. exists (ns ++ ns'). split; [|now rewrite app_assoc].
           change (v :: vs ++ values_of OSteps gs) with ((v :: vs) ++ values_of OSteps gs). now apply Forall2_app.
        -- intros (M & V & ns' & N & S). split; [exact M|]. split; [exact V|].
           change (v :: vs ++ values_of OSteps gs) with ((v :: vs) ++ values_of OSteps gs) in N.
           apply Forall2_app_inv_l in N. destruct N as (n1 & n2 & N1 & N2 & ->). apply parse_numbers_spec in N1, P. rewrite P in N1. injection N1 as <-.
           exists n2. split; [exact N2|]. now rewrite <- app_assoc.
      * split; [intros (c' & E & _); discriminate|]. intros (M & V & ns' & N & S).
        change (([] ++ (v :: vs)) ++ values_of OSteps gs) with ((v :: vs) ++ values_of OSteps gs) in N.
        apply Forall2_app_inv_l in N. destruct N as (n1 & n2 & N1 & N2 & ->). apply parse_numbers_spec in N1. congruence.
Qed.
Lemma store_nonempty c o vs c' : store c o vs = Some c' -> vs <> []. Proof. destruct vs; [discriminate|discriminate]. Qed.
Definition held (c : collected) (p : option (cli_opt * list string)) (vs : list string) (c' : collected) : Prop :=
  match p with
  | None => vs = [] /\ c' = c
  | Some (o, before) => store c o (before ++ vs) = Some c' /\ (o = OModel -> List.length (before ++ vs) = 1%nat)
  end.
Definition fits (p : option (cli_opt * list string)) : Prop := match p with Some (OModel, vs) => (List.length vs <= 1)%nat | _ => True end.
Lemma held_flush c p c' : fits p -> flush c p = Some c' -> held c p [] c'.
Proof.
  destruct p as [[o vs]|]; cbn; intros F E; [|injection E as <-; now split]. rewrite app_nil_r. split; [exact E|]. intros ->.
  apply store_nonempty in E. destruct vs as [|v [|v' vs]]; [congruence|reflexivity|cbn in F; lia].
Qed.
Lemma parse_call a : forall args c p, fits p -> parse c p args = Call a ->
  exists vs gs stop c' c'', args = vs ++ line_of gs stop /\ well_formed gs stop /\ Forall plain_word vs /\ held c p vs c' /\
    store_all c' gs = Some c'' /\ finish c'' None = Call a.
Proof.
  assert (End : forall c p, fits p -> finish c p = Call a -> exists c', held c p [] c' /\ finish c' None = Call a).
  { intros c p F E. unfold finish in E. destruct (flush c p) as [c'|] eqn:Fl; [|discriminate]. exists c'. split; [now apply held_flush|exact E]. }
  induction args as [|x args IH]; intros c p F E; cbn [parse] in E.
  - destruct (End c p F E) as (c' & H & Fi). exists [], [], [], c', c'. repeat split; auto; constructor.
  - pose proof (classify_inv x) as K. destruct (classify x) as [|n v|ch r|].
    + destruct args; [|discriminate]. destruct (End c p F E) as (c' & H & Fi). exists [], [], ["--"%string], c', c'. subst x. repeat split; auto; constructor.
    + destruct (by_name n) as [[o|]|] eqn:N; [| |discriminate]; [|destruct v; [discriminate|]; destruct (flush c p); discriminate]. apply by_name_inv in N. subst n.
      destruct (flush c p) as [c1|] eqn:Fl; [|discriminate]. apply held_flush in Fl; [|exact F]. destruct v as [v|].
      * destruct (store c1 o [v]) as [c2|] eqn:St; [|discriminate]. destruct (IH c2 None I E) as (vs & gs & stop & c' & c'' & -> & [W1 W2] & P & [-> ->] & S & Fi).
        exists [], ({| gr_words := [x]; gr_opt := o; gr_values := [v] |} :: gs), stop, c1, c''. cbn [app]. split; [reflexivity|]. split; [|split; [constructor|split; [exact Fl|]]].
        { split; [|exact W2]. constructor; [|exact W1]. subst x. apply given_long. }
        cbn [store_all gr_opt gr_values]. rewrite St. now split.
      * destruct (IH c1 (Some (o, [])) ltac:(destruct o; cbn; auto with arith) E) as (vs & gs & stop & c' & c'' & -> & [W1 W2] & P & [St L] & S & Fi). cbn [app] in St, L.
        exists [], ({| gr_words := x :: vs; gr_opt := o; gr_values := vs |} :: gs), stop, c1, c''. cbn [app].
        split; [unfold line_of; cbn [map List.concat gr_words]; now rewrite <- app_assoc|]. split; [|split; [constructor|split; [exact Fl|]]].
        { split; [|exact W2]. constructor; [|exact W1]. apply given_apart; [now left|exact (store_nonempty _ _ _ _ St)|exact P|exact L]. }
        cbn [store_all gr_opt gr_values]. rewrite St. now split.
    + destruct (by_letter ch) as [[o|]|] eqn:N; [|destruct (flush c p); discriminate|discriminate]. apply by_letter_inv in N. subst ch.
      destruct (flush c p) as [c1|] eqn:Fl; [|discriminate]. apply held_flush in Fl; [|exact F]. destruct r as [|y r].
      * destruct (IH c1 (Some (o, [])) ltac:(destruct o; cbn; auto with arith) E) as (vs & gs & stop & c' & c'' & -> & [W1 W2] & P & [St L] & S & Fi). cbn [app] in St, L.
        exists [], ({| gr_words := x :: vs; gr_opt := o; gr_values := vs |} :: gs), stop, c1, c''. cbn [app].
        split; [unfold line_of; cbn [map List.concat gr_words]; now rewrite <- app_assoc|]. split; [|split; [constructor|split; [exact Fl|]]].
        { split; [|exact W2]. constructor; [|exact W1]. apply given_apart; [right; now rewrite letter_alone|exact (store_nonempty _ _ _ _ St)|exact P|exact L]. }
        cbn [store_all gr_opt gr_values]. rewrite St. now split.
      * destruct (store c1 o [attached (String y r)]) as [c2|] eqn:St; [|discriminate]. destruct (IH c2 None I E) as (vs & gs & stop & c' & c'' & -> & [W1 W2] & P & [-> ->] & S & Fi).
        exists [], ({| gr_words := [x]; gr_opt := o; gr_values := [attached (String y r)] |} :: gs), stop, c1, c''. cbn [app]. split; [reflexivity|]. split; [|split; [constructor|split; [exact Fl|]]].
        { split; [|exact W2]. constructor; [|exact W1]. subst x. unfold attached. destruct (Ascii.eqb_spec y "=") as [->|Ne].
          - change (String "-" (String (letter o) (String "=" r))) with (String "-" (String (letter o) ("=" ++ r))). rewrite <- letter_string. apply given_equals.
          - rewrite <- letter_string. apply given_behind; [discriminate|]. intros r' J. injection J as -> _. now apply Ne. }
        cbn [store_all gr_opt gr_values]. rewrite St. now split.
    + destruct p as [[o before]|]; [|discriminate]. destruct (takes o before) eqn:T; [|discriminate].
      assert (F' : fits (Some (o, before ++ [x]))). { destruct o; cbn; auto. destruct before; [cbn; lia|discriminate]. }
      destruct (IH c _ F' E) as (vs & gs & stop & c' & c'' & -> & W & P & [St L] & S & Fi). rewrite <- app_assoc in St, L.
      exists (x :: vs), gs, stop, c', c''. repeat split; auto; apply W.
Qed.

Lemma c78_arguments_proof : forall args a, parse_line args = Call a <-> exists gs stop, args = line_of gs stop /\ well_formed gs stop /\ asks gs a.
Proof.
  intros args a. unfold parse_line, asks. split.
  - intro E. apply parse_call in E; [|exact I]. destruct E as (vs & gs & stop & c' & c'' & -> & W & _ & [-> ->] & S & Fi). exists gs, stop. split; [reflexivity|]. split; [exact W|].
    destruct (proj1 (store_all_spec gs _ a (proj1 W)) (ex_intro _ c'' (conj S Fi))) as (M & V & ns & N & Q). cbn in M, V, Q. subst ns. auto.
  - intros (gs & stop & -> & W & M & V & N). rewrite parse_groups by exact W.
    destruct (proj2 (store_all_spec gs {| co_model := None; co_variables := []; co_steps := [] |} a (proj1 W))) as (c' & S & Fi).
    { cbn. split; [exact M|]. split; [exact V|]. exists (ar_steps a). now split. }
    now rewrite S.
Qed.
Lemma shown_help : forall args c p, parse c p args = Shown -> Exists asks_help args.
Proof.
  assert (X : forall c p, finish c p <> Shown). { intros c p. unfold finish. destruct (flush c p) as [c'|]; [|discriminate]. now destruct (co_model c'). }
  induction args as [|x args IH]; intros c p E; cbn [parse] in E; [now apply X in E|]. pose proof (classify_inv x) as K. destruct (classify x) as [|n v|ch r|].
  - destruct args; [now apply X in E|discriminate].
  - destruct (by_name n) as [[o|]|] eqn:N; [| |discriminate].
    + right. destruct (flush c p); [|discriminate]. destruct v as [v|]; [destruct (store _ _ _); [|discriminate]|]; exact (IH _ _ E).
    + left. destruct v; [discriminate|]. unfold by_name in N. destruct (String.eqb n "model"); [discriminate|]. destruct (String.eqb n "variables"); [discriminate|].
      destruct (String.eqb n "steps"); [discriminate|]. destruct (String.eqb n "help") eqn:H1; [apply String.eqb_eq in H1; rewrite H1 in K; now left|].
      destruct (String.eqb n "version") eqn:H2; [apply String.eqb_eq in H2; rewrite H2 in K; right; now left|discriminate].
  - destruct (by_letter ch) as [[o|]|] eqn:N; [| |discriminate].
    + right. destruct (flush c p); [|discriminate]. destruct r; [|destruct (store _ _ _); [|discriminate]]; exact (IH _ _ E).
    + left. right; right. unfold by_letter in N. destruct (Ascii.eqb ch "m"); [discriminate|]. destruct (Ascii.eqb ch "v"); [discriminate|].
      destruct (Ascii.eqb ch "s"); [discriminate|]. exists r. destruct (Ascii.eqb ch "h") eqn:H1; [apply Ascii.eqb_eq in H1; rewrite H1 in K; now left|].
      destruct (Ascii.eqb ch "V") eqn:H2; [apply Ascii.eqb_eq in H2; rewrite H2 in K; now right|discriminate].
  - right. destruct p as [[o vs]|]; [|discriminate]. destruct (takes o vs); [|discriminate]. exact (IH _ _ E).
Qed.
Lemma c78_call_proof : forall w gs stop a, well_formed gs stop -> asks gs a -> forall tr printed code,
  program w (line_of gs stop) tr printed code <-> main w a tr printed code.
Proof.
  intros w gs stop a W A tr printed code. unfold program. rewrite (proj2 (c78_arguments_proof (line_of gs stop) a)); [tauto|]. exists gs, stop. auto.
Qed.
Lemma c78_refused_proof : forall w args, (forall gs stop a, args = line_of gs stop -> well_formed gs stop -> ~ asks gs a) -> forall tr printed code,
  program w args tr printed code -> tr = [] /\ (code = 2 /\ printed = [] \/ code = 0 /\ Exists asks_help args).
Proof.
  intros w args H tr printed code P. unfold program in P. destruct (parse_line args) as [a| |] eqn:E.
  - apply c78_arguments_proof in E. destruct E as (gs & stop & -> & W & A). now destruct (H gs stop a eq_refl W).
  - destruct P as (-> & -> & ->). auto.
  - destruct P as (-> & ->). split; [reflexivity|right]. split; [reflexivity|]. exact (shown_help _ _ _ E).
Qed.

(** ** The order of the variables and the steps *)
Lemma skipped_same l l' s : (forall n, In n l <-> In n l') -> skipped l s = skipped l' s.
Proof.
  intro H. unfold skipped. f_equal.
  - f_equal. destruct l as [|n l], l' as [|n' l']; try reflexivity; [now destruct (proj2 (H n') (or_introl eq_refl))|now destruct (proj1 (H n) (or_introl eq_refl))].
  - f_equal. apply eq_true_iff_eq. rewrite !existsb_exists. split; intros (n & J & E); exists n; (split; [now apply H|exact E]).
Qed.
Lemma same_filter {L} l l' steps (read : fc_step -> outcome L -> Prop) body : (forall n, In n l <-> In n l') ->
  same (render_steps l steps read body) (render_steps l' steps read body).
Proof. intro H. apply same_for_par. intros s _. rewrite (skipped_same l l' s H). apply same_refl. Qed.
Lemma named_same f f' : (forall v, In v f <-> In v f') -> forall t, named f t <-> named f' t.
Proof.
  intros H t. assert (E : f = [] <-> f' = []).
  { destruct f as [|n l], f' as [|n' l']; try tauto; [destruct (proj2 (H n') (or_introl eq_refl))|destruct (proj1 (H n) (or_introl eq_refl))|split; discriminate]. }
  unfold named. rewrite E, H. tauto.
Qed.
Lemma same_trans p q r : same p q -> same q r -> same p r. Proof. intros A B tr o. rewrite (A tr o). apply B. Qed.
Lemma same_variables f f' cp wi te hh vc vw : (forall v, In v f <-> In v f') -> same (render_selected f cp wi te hh vc vw) (render_selected f' cp wi te hh vc vw).
Proof.
  intros H tr r. split; apply selected_same; intros t _; [|symmetry]; apply named_same; exact H.
Qed.
Lemma equal_calls_proof w a b : equal_calls a b -> forall tr printed code, main w a tr printed code <-> main w b tr printed code.
Proof.
  intros (M & V & S) tr printed code. unfold main. rewrite <- M.
  assert (D : forall model, same (dwd_render_latest (wo_chk w) (wo_powi w) (wo_fetch w) (wo_libm w) (wo_faulty w) (wo_heads w) (wo_today w) (wo_today' w) model (ar_variables a) (ar_steps a))
                                 (dwd_render_latest (wo_chk w) (wo_powi w) (wo_fetch w) (wo_libm w) (wo_faulty w) (wo_heads w) (wo_today w) (wo_today' w) model (ar_variables b) (ar_steps b))).
  { intro model. unfold dwd_render_latest. apply same_let. intros run _. cbv zeta. try (apply same_let; intros levels _). eapply same_trans; [apply same_variables; exact V|].
    apply same_selected; intros; try apply same_r_refl; apply same_filter; exact S. }
  destruct (String.eqb (ar_model a) "icon-ch1"); [|destruct (String.eqb (ar_model a) "icon-d2"); [|destruct (String.eqb (ar_model a) "icon-eu"); [|tauto]]];
    (apply same_reporting; [reflexivity|]); try apply D.
  unfold swiss_render_latest. repeat (first [apply same_call; [apply same_r_refl|] | apply same_let]; intros). eapply same_trans; [apply same_variables; exact V|].
  apply same_selected; intros; try apply same_r_refl;
    [unfold swiss_cloud_precip|unfold swiss_wind|unfold swiss_temp|unfold swiss_vertical_cloud|unfold swiss_vertical_wind];
    repeat (first [apply same_call; [apply same_r_refl|] | apply same_let]; intros); apply same_filter; exact S.
Qed.
Lemma values_permutation o gs gs' : Permutation gs gs' -> Permutation (values_of o gs) (values_of o gs').
Proof. intro P. unfold values_of. now apply Permutation_flat_map. Qed.
Lemma forall2_permutation {A B} (R : A -> B -> Prop) l l' : Permutation l l' -> forall m, Forall2 R l m -> exists m', Permutation m m' /\ Forall2 R l' m'.
Proof.
  intro P. induction P as [|x l l' P IH|x y l|l l' l'' P IH P' IH']; intros m F.
  - exists m. now split.
  - inversion F as [|? b ? m' H1 H2]; subst. destruct (IH _ H2) as (m'' & Q & G). exists (b :: m''). split; [now constructor|now constructor].
  - inversion F as [|? b ? m' H1 H2]; subst. inversion H2 as [|? b' ? m'' H3 H4]; subst. exists (b' :: b :: m''). split; [constructor|now repeat constructor].
  - destruct (IH _ F) as (m' & Q & G). destruct (IH' _ G) as (m'' & Q' & G'). exists m''. split; [now transitivity m'|exact G'].
Qed.
Lemma c78_order_proof : forall w gs gs' stop stop' a, well_formed gs stop -> (stop' = [] \/ stop' = ["--"%string]) -> asks gs a -> Permutation gs gs' -> forall tr printed code,
  program w (line_of gs stop) tr printed code <-> program w (line_of gs' stop') tr printed code.
Proof.
  intros w gs gs' stop stop' a W W2 (M & V & N) P tr printed code.
  destruct (forall2_permutation _ _ _ (values_permutation OSteps _ _ P) _ N) as (ns & Q & N').
  assert (M' : values_of OModel gs' = [ar_model a]). { apply Permutation_length_1_inv. rewrite <- M. now apply values_permutation. }
  set (b := {| ar_model := ar_model a; ar_variables := values_of OVariables gs'; ar_steps := ns |}).
  rewrite (c78_call_proof w gs stop a W (conj M (conj V N))).
  rewrite (c78_call_proof w gs' stop' b); [| |repeat split; assumption].
  - apply equal_calls_proof. split; [reflexivity|]. cbn. pose proof (values_permutation OVariables _ _ P) as PV. rewrite V in PV.
    split; intro x; split; intro J; eapply Permutation_in; try exact J; try exact PV; try exact Q; now apply Permutation_sym.
  - destruct W as [W1 _]. split; [|exact W2]. now apply (Permutation_Forall P).
Qed.
