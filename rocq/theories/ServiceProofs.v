(** Proofs of the properties C66-C68. *)
From Coq Require Import Ascii String ZArith List Bool Permutation Lia.
From Verif Require Import Base F32 Text TextFacts TextSpec TextSpecProofs ForecastModel ForecastSpec ForecastProofs FetchModel FetchSpec DwdModel DwdSpec DwdProofs SwissModel SwissSpec SwissProofs ServiceModel ServiceSpec.
Import ListNotations.
Open Scope Z_scope.
Local Open Scope string_scope.

(** ** Answers *)

(** Never a panic, and only one kind of error. *)
Definition clean {A} (o : outcome A) : Prop := (exists a, o = Ok a) \/ o = Err EInvalid.
Lemma clean_ok {A} (a : A) : clean (Ok a). Proof. left. eauto. Qed.
Lemma clean_err {A} : clean (@Err A EInvalid). Proof. right. reflexivity. Qed.
Lemma clean_bind {A B} (o : outcome A) (k : A -> outcome B) : clean o -> (forall a, clean (k a)) -> clean (obind o k).
Proof. intros [(a & ->)| ->] K; cbn [obind]; [apply K|apply clean_err]. Qed.
Lemma clean_map {A B} (f : A -> B) o : clean o -> clean (omap f o).
Proof. intros [(a & ->)| ->]; [left; eexists; reflexivity|right; reflexivity]. Qed.
Lemma clean_try {A B} (f : A -> outcome B) l : (forall a, clean (f a)) -> clean (try_map f l).
Proof. intro H. induction l as [|a l IH]; cbn [try_map]; [apply clean_ok|]. apply clean_bind; [apply H|]. intro. apply clean_map. exact IH. Qed.

Lemma filter_one {A} (f : A -> bool) l a : filter f l = [a] -> exists l1 l2, l = (l1 ++ a :: l2)%list /\ f a = true /\ forall x, In x (l1 ++ l2)%list -> f x = false.
Proof.
  induction l as [|b l IH]; cbn [filter]; [discriminate|]. destruct (f b) eqn:Fb.
  - intro E. injection E as -> E. exists [], l. split; [reflexivity|]. split; [exact Fb|]. cbn [app]. intros x I.
    destruct (f x) eqn:Fx; [|reflexivity]. assert (In x (filter f l)) by (apply filter_In; auto). rewrite E in H. destruct H.
  - intro E. destruct (IH E) as (l1 & l2 & -> & Fa & N). exists (b :: l1), l2. split; [reflexivity|]. split; [exact Fa|]. cbn [app]. intros x [<-|I]; auto.
Qed.
Lemma filter_none {A} (f : A -> bool) l : (forall x, In x l -> f x = false) -> filter f l = [].
Proof. intro H. induction l as [|a l IH]; [reflexivity|]. cbn [filter]. rewrite (H a (or_introl eq_refl)). apply IH. intros. apply H. now right. Qed.

Lemma member_ok ms name v : member ms name = Ok v <-> has_member ms name v.
Proof.
  unfold member, member_values, has_member. split.
  - destruct (filter _ ms) as [|[n w] [|? ?]] eqn:E; cbn [map]; intro Q; try discriminate. injection Q as ->.
    apply filter_one in E. destruct E as (l1 & l2 & -> & F & N). cbn [fst] in F. apply String.eqb_eq in F. subst n. exists l1, l2. split; [reflexivity|].
    intros m I E. specialize (N m I). apply String.eqb_neq in N. contradiction.
  - intros (l1 & l2 & -> & N). rewrite filter_app. cbn [filter fst]. rewrite String.eqb_refl.
    rewrite !filter_none; [reflexivity| |]; intros x I; apply String.eqb_neq, N, in_or_app; auto.
Qed.
Lemma member_clean ms name : clean (member ms name).
Proof. unfold member. destruct (member_values name ms) as [|v [|? ?]]; [apply clean_err|apply clean_ok|apply clean_err]. Qed.
Lemma struct_ok names j vs : struct_fields names j = Ok vs <-> record_of names j vs.
Proof.
  unfold record_of. destruct j as [| | | |l|ms]; cbn [struct_fields]; try (split; [discriminate|intros [(ms & E & _)|[E _]]; discriminate]).
  - destruct (Nat.eqb_spec (length l) (length names)) as [E|E]; split.
    + intro Q. injection Q as ->. right. auto.
    + intros [(ms & Q & _)|[Q _]]; [discriminate|]. now injection Q as ->.
    + discriminate.
    + intros [(ms & Q & _)|[Q L]]; [discriminate|]. injection Q as ->. contradiction.
  - rewrite try_map_ok. split.
    + intro H. left. exists ms. split; [reflexivity|]. induction H; constructor; auto. now apply member_ok.
    + intros [(ms' & Q & H)|[Q _]]; [|discriminate]. injection Q as <-. induction H; constructor; auto. now apply member_ok.
Qed.
Lemma struct_clean names j : clean (struct_fields names j).
Proof.
  destruct j as [| | | |l|ms]; cbn [struct_fields]; try apply clean_err; [|apply clean_try; intro; apply member_clean].
  destruct (Nat.eqb _ _); [apply clean_ok|apply clean_err].
Qed.
Lemma string_ok j s : decode_string j = Ok s <-> j = JString s.
Proof. destruct j; cbn [decode_string]; split; intro E; try discriminate; injection E as ->; reflexivity. Qed.
Lemma string_clean j : clean (decode_string j).
Proof. destruct j; cbn [decode_string]; try apply clean_err. apply clean_ok. Qed.
Lemma list_ok j l : decode_list j = Ok l <-> j = JArray l.
Proof. destruct j; cbn [decode_list]; split; intro E; try discriminate; injection E as ->; reflexivity. Qed.
Lemma list_clean j : clean (decode_list j).
Proof. destruct j; cbn [decode_list]; try apply clean_err. apply clean_ok. Qed.
Lemma strings_list vs l : Forall2 (fun v s => decode_string v = Ok s) vs l <-> vs = map JString l.
Proof.
  split.
  - induction 1 as [|v s vs l E _ IH]; [reflexivity|]. cbn [map]. apply string_ok in E. congruence.
  - intros ->. induction l; constructor; [reflexivity|assumption].
Qed.
Lemma strings_ok names j l : decode_strings names j = Ok l <-> record_of names j (map JString l).
Proof.
  unfold decode_strings. split.
  - destruct (struct_fields names j) as [vs|?|] eqn:S; cbn [obind]; try discriminate. intro T. apply try_map_ok, strings_list in T. subst vs. now apply struct_ok.
  - intro R. apply struct_ok in R. rewrite R. cbn [obind]. apply try_map_ok, strings_list. reflexivity.
Qed.
Lemma strings_clean names j : clean (decode_strings names j).
Proof. apply clean_bind; [apply struct_clean|]. intro. apply clean_try. apply string_clean. Qed.
Lemma record_length names j vs : record_of names j vs -> length vs = length names.
Proof. intros [(ms & _ & F)|[_ L]]; [|exact L]. induction F; cbn; congruence. Qed.
Lemma href_ok j h : decode_href j = Ok h <-> links_to j h.
Proof.
  unfold decode_href, links_to. split.
  - destruct (decode_strings _ j) as [l|?|] eqn:E; cbn [obind]; try discriminate. apply strings_ok in E.
    destruct l as [|t [|h' [|? ?]]]; try discriminate. intro Q. injection Q as ->. exists t. exact E.
  - intros (t & R). change [JString t; JString h] with (map JString [t; h]) in R. apply strings_ok in R. rewrite R. reflexivity.
Qed.
Lemma href_clean j : clean (decode_href j).
Proof. apply clean_bind; [apply strings_clean|]. intro l. destruct l as [|t [|h' [|? ?]]]; try apply clean_err. apply clean_ok. Qed.

(** The HashMap has the last entry of each key. *)
Definition entry (m : string * json) (kh : string * string) : Prop := fst kh = fst m /\ links_to (snd m) (snd kh).
Lemma last_snoc ms x e : last_member (ms ++ [x])%list e <-> e = x \/ (last_member ms e /\ fst e <> fst x).
Proof.
  unfold last_member. split.
  - intros (l1 & l2 & E & N). destruct l2 as [|y l2 _] using rev_ind.
    + left. apply app_inj_tail in E. now destruct E.
    + right. rewrite app_comm_cons, app_assoc in E. apply app_inj_tail in E. destruct E as [-> ->]. split.
      * exists l1, l2. split; [reflexivity|]. intros m I. apply N, in_or_app. auto.
      * intro Q. apply (N y); [apply in_or_app; right; left; reflexivity|congruence].
  - intros [->|[(l1 & l2 & -> & N) Q]].
    + exists ms, []. split; [reflexivity|]. intros ? [].
    + exists l1, (l2 ++ [x])%list. split; [now rewrite <- app_assoc|]. intros m I. apply in_app_or in I. destruct I as [I|[<-|[]]]; [auto|congruence].
Qed.
Lemma filter_keys k (kept : list (string * json)) m : Forall2 entry kept m ->
  Forall2 entry (filter (fun e => negb (String.eqb (fst e) k)) kept) (filter (fun e => negb (String.eqb (fst e) k)) m).
Proof.
  induction 1 as [|e kh kept m [E L] F IH]; [constructor|]. cbn [filter]. rewrite E. destruct (String.eqb (fst e) k); cbn [negb]; [exact IH|]. constructor; [split; assumption|exact IH].
Qed.
Lemma filter_nodup (f : string * json -> bool) l : NoDup (map fst l) -> NoDup (map fst (filter f l)).
Proof.
  induction l as [|a l IH]; [auto|]. cbn [map filter]. intro N. inversion N as [|? ? A B]; subst. destruct (f a); [|auto]. cbn [map]. constructor; [|auto].
  intro I. apply A. apply in_map_iff in I. destruct I as (x & <- & J). apply filter_In in J. apply in_map. tauto.
Qed.
Lemma kept_spec ms l : Forall2 entry ms l ->
  exists kept, NoDup (map fst kept) /\ (forall e, In e kept <-> last_member ms e) /\ Forall2 entry kept (fold_left (fun acc m => insert_key (fst m) (snd m) acc) l []).
Proof.
  revert l. induction ms as [|x ms IH] using rev_ind; intros l F.
  - inversion F. exists []. split; [constructor|]. split; [|constructor]. intro e. split; [intros []|]. intros (l1 & l2 & E & _). destruct l1; discriminate.
  - apply Forall2_app_inv_l in F. destruct F as (l1 & l2 & F1 & F2 & ->). inversion F2 as [|? kh ? l2' Ex F2']. subst. inversion F2'. subst.
    destruct (IH l1 F1) as (kept & N & L & FK). rewrite fold_left_app. cbn [fold_left].
    exists (x :: filter (fun e => negb (String.eqb (fst e) (fst x))) kept). destruct Ex as [Ek El]. split; [|split].
    + cbn [map]. constructor; [|apply filter_nodup; exact N]. intro I. apply in_map_iff in I. destruct I as (e & Q & J). apply filter_In in J. destruct J as [_ J].
      rewrite Q, String.eqb_refl in J. discriminate.
    + intro e. rewrite last_snoc. cbn [In]. rewrite filter_In, L. split.
      * intros [->|[A B]]; [auto|right; split; [exact A|]]. intro Q. rewrite Q, String.eqb_refl in B. discriminate.
      * intros [->|[A B]]; [auto|right; split; [exact A|]]. apply String.eqb_neq in B. rewrite B. reflexivity.
    + unfold insert_key. rewrite Ek. constructor; [split; [reflexivity|exact El]|]. apply filter_keys. exact FK.
Qed.
Definition href_of (m : string * json) : string := match decode_href (snd m) with Ok h => h | _ => "" end.
Lemma links_map l hrefs : Forall2 (fun m h => links_to (snd m) h) l hrefs -> hrefs = map href_of l.
Proof. induction 1 as [|m h l hs L _ IH]; [reflexivity|]. cbn [map]. unfold href_of at 1. apply href_ok in L. rewrite L. congruence. Qed.
Lemma entry_map l m : Forall2 entry l m -> map snd m = map href_of l.
Proof. induction 1 as [|e kh l m [_ L] _ IH]; [reflexivity|]. cbn [map]. unfold href_of at 1. apply href_ok in L. rewrite L. congruence. Qed.
Lemma entries ms l : try_map (fun m => omap (pair (fst m)) (decode_href (snd m))) ms = Ok l <-> Forall2 entry ms l.
Proof.
  rewrite try_map_ok. split; intro F; induction F as [|m kh ms l E _ IH]; constructor; auto.
  - destruct (decode_href (snd m)) as [h|?|] eqn:D; cbn [omap] in E; try discriminate. injection E as <-. split; [reflexivity|]. apply href_ok. exact D.
  - destruct E as [E L]. apply href_ok in L. rewrite L. cbn [omap]. rewrite <- E. destruct kh. reflexivity.
Qed.
Lemma assets_ok ms hrefs : links ms hrefs <-> exists m, decode_assets (JObject ms) = Ok m /\ Permutation hrefs (map snd m).
Proof.
  cbn [decode_assets]. split.
  - intros (A & kept & N & L & l & P & F).
    assert (exists es, Forall2 entry ms es) as (es & FE).
    { clear - A. induction ms as [|m ms IH]; [exists []; constructor|]. destruct (A m (or_introl eq_refl)) as (h & H). destruct IH as (es & E); [intros; apply A; now right|].
      exists ((fst m, h) :: es). constructor; [split; [reflexivity|exact H]|exact E]. }
    pose proof FE as FE'. apply entries in FE'. rewrite FE'. cbn [omap]. eexists. split; [reflexivity|].
    destruct (kept_spec ms es FE) as (kept' & N' & L' & F'). rewrite (entry_map _ _ F'), (links_map _ _ F). apply Permutation_map.
    transitivity kept; [symmetry; exact P|]. apply NoDup_Permutation; [eapply NoDup_map_inv; exact N|eapply NoDup_map_inv; exact N'|]. intro e. rewrite L, L'. tauto.
  - intros (m & E & P). destruct (try_map _ ms) as [es|?|] eqn:T; cbn [omap] in E; try discriminate. injection E as <-. apply entries in T.
    split.
    + clear - T. induction T as [|x kh ms es [_ L] _ IH]; intros m []; [subst; eauto|auto].
    + destruct (kept_spec ms es T) as (kept & N & L & F). exists kept. split; [exact N|]. split; [exact L|].
      pose proof (entry_map _ _ F) as Q. rewrite Q in P. apply Permutation_map_inv in P. destruct P as (l & -> & P).
      exists l. split; [exact P|]. assert (All : forall e, In e l -> links_to (snd e) (href_of e)).
      { intros e I. apply (Permutation_in _ (Permutation_sym P)) in I. clear - F I. induction F as [|x kh kept es' [_ Lx] _ IH]; [destruct I|]. destruct I as [->|I]; [|auto].
        unfold href_of. pose proof Lx as D. apply href_ok in D. rewrite D. exact Lx. }
      clear - All. induction l as [|e l IH]; constructor; [apply All; now left|apply IH; intros; apply All; now right].
Qed.
Lemma assets_clean j : clean (decode_assets j).
Proof. destruct j; cbn [decode_assets]; try apply clean_err. apply clean_map, clean_try. intro. apply clean_map, href_clean. Qed.
Lemma parts_clean j : clean (feature_parts j).
Proof.
  apply clean_bind; [apply struct_clean|]. intro l. destruct l as [|a [|b [|c [|? ?]]]]; try apply clean_err.
  apply clean_bind; [apply string_clean|]. intro. apply clean_bind; [apply strings_clean|]. intro p.
  destruct p as [|? [|? [|? [|? [|? [|? ?]]]]]]; try apply clean_err. apply clean_map, assets_clean.
Qed.
Lemma feature_ok j f : decode_feature j (Ok f) <-> says j f.
Proof.
  unfold decode_feature, says. split.
  - destruct (feature_parts j) as [[[[title ref] hor] assets]|?|] eqn:P; try discriminate. intros (hrefs & Pm & E). injection E as ->. cbn [ft_title ft_ref ft_horizon ft_hrefs].
    unfold feature_parts in P. destruct (struct_fields _ j) as [l|?|] eqn:S; cbn [obind] in P; try discriminate. apply struct_ok in S.
    destruct l as [|id [|props [|aj [|? ?]]]]; try discriminate. destruct (decode_string id) as [ids|?|] eqn:Id; cbn [obind] in P; try discriminate.
    apply string_ok in Id. subst id. destruct (decode_strings PROPERTIES props) as [p|?|] eqn:Pr; cbn [obind] in P; try discriminate. apply strings_ok in Pr.
    destruct p as [|dt [|t [|r [|h [|v [|? ?]]]]]]; try discriminate. destruct (decode_assets aj) as [m|?|] eqn:A; cbn [omap] in P; try discriminate. injection P as -> -> -> ->.
    destruct aj as [| | | | |ms]; try discriminate. exists ids, dt, v, props, ms. split; [exact S|]. split; [exact Pr|]. apply assets_ok. eauto.
  - intros (id & dt & v & props & ms & R & Pr & L). unfold feature_parts. apply struct_ok in R. rewrite R. cbn [obind decode_string].
    change [JString dt; JString (ft_title f); JString (ft_ref f); JString (ft_horizon f); JString v] with (map JString [dt; ft_title f; ft_ref f; ft_horizon f; v]) in Pr.
    apply strings_ok in Pr. unfold PROPERTIES. rewrite Pr. cbn [obind]. apply assets_ok in L. destruct L as (m & E & P). rewrite E. cbn [omap].
    exists (ft_hrefs f). split; [exact P|]. destruct f. reflexivity.
Qed.
Lemma feature_total j : (exists f, decode_feature j (Ok f)) \/ (decode_feature j (Err EInvalid) /\ forall f, ~ decode_feature j (Ok f)).
Proof.
  unfold decode_feature. destruct (parts_clean j) as [((((t & r) & h) & m) & ->)| ->].
  - left. eexists. exists (map snd m). split; [apply Permutation_refl|reflexivity].
  - right. split; [reflexivity|]. discriminate.
Qed.
Lemma feature_err j o : decode_feature j o -> (exists f, o = Ok f) \/ (o = Err EInvalid /\ forall f, ~ says j f).
Proof.
  intro D. destruct (feature_total j) as [(f & F)|[E N]].
  - left. unfold decode_feature in *. destruct (feature_parts j) as [[[[t r] h] m]|?|]; try discriminate. destruct D as (hs & _ & ->). eauto.
  - unfold decode_feature in D, E. destruct (feature_parts j) as [[[[t r] h] m]|?|] eqn:P; [destruct E as (? & _ & E); discriminate|injection E as <-|discriminate].
    right. split; [exact D|]. intros f S. apply feature_ok in S. apply (N f S).
Qed.
Lemma response_ok j o : decode_response j o <-> decoded lists (Ok j) o.
Proof.
  unfold decode_response, r_bind, r_of, decoded. split.
  - intros (x & -> & H). destruct (struct_fields _ j) as [l|?|] eqn:S; cbn [obind] in H.
    + apply struct_ok in S. pose proof (record_length _ _ _ S) as L. destruct l as [|st [|fs [|? ?]]]; try discriminate.
      destruct (decode_string st) as [s|e|] eqn:D; cbn [obind] in H; [|destruct (string_clean st) as [(? & Q)|Q]; rewrite Q in D; try discriminate; injection D as <-|destruct (string_clean st) as [(? & Q)|Q]; congruence].
      * apply string_ok in D. subst st. destruct (decode_list fs) as [es|e|] eqn:D; [|destruct (list_clean fs) as [(? & Q)|Q]; rewrite Q in D; try discriminate; injection D as <-|destruct (list_clean fs) as [(? & Q)|Q]; congruence].
        -- apply list_ok in D. subst fs. destruct o as [feats|e|]; cbn [r_collect] in H.
           ++ left. exists feats. split; [|reflexivity]. exists s, es. split; [exact S|]. clear - H. induction H; constructor; auto. now apply feature_ok.
           ++ right. destruct H as (x & I & Dx). destruct (feature_err x _ Dx) as [(f & Q)|[Q N]]; [discriminate|]. split; [congruence|].
              intros a (s' & es' & R & F). apply struct_ok in R. apply struct_ok in S. rewrite S in R. injection R as <- <-.
              clear - F I N. induction F as [|y f es' fs' Sy _ IH]; [destruct I|]. destruct I as [->|I]; [exact (N f Sy)|auto].
           ++ destruct H as (x & I & Dx). destruct (feature_err x _ Dx) as [(f & Q)|[Q N]]; discriminate.
        -- right. split; [exact H|]. intros a (s' & es' & R & F). apply struct_ok in R. apply struct_ok in S. rewrite S in R. injection R as <- ->. discriminate.
      * right. split; [exact H|]. intros a (s' & es' & R & F). apply struct_ok in R. apply struct_ok in S. rewrite S in R. injection R as -> ->. discriminate.
    + destruct (struct_clean ["timeStamp"; "features"] j) as [(? & Q)|Q]; rewrite Q in S; try discriminate. injection S as <-. right. split; [exact H|].
      intros a (s' & es' & R & F). apply struct_ok in R. congruence.
    + destruct (struct_clean ["timeStamp"; "features"] j) as [(? & Q)|Q]; congruence.
  - intros [(fs & (s & es & R & F) & ->)|[-> N]].
    + apply struct_ok in R. rewrite R. cbn [obind decode_string decode_list]. exists (Ok es). split; [reflexivity|]. cbn [r_collect]. clear - F. induction F; constructor; auto. now apply feature_ok.
    + eexists. split; [reflexivity|]. destruct (struct_clean ["timeStamp"; "features"] j) as [(l & S)|S]; rewrite S; cbn [obind]; [|reflexivity].
      apply struct_ok in S. pose proof (record_length _ _ _ S) as L. destruct l as [|st [|fs [|? ?]]]; try discriminate.
      destruct (string_clean st) as [(s & D)|D]; rewrite D; cbn [obind]; [|reflexivity]. apply string_ok in D. subst st.
      destruct (list_clean fs) as [(es & D)|D]; rewrite D; [|reflexivity]. apply list_ok in D. subst fs. cbn [r_collect].
      assert (X : (exists fs, Forall2 says es fs) \/ exists x, In x es /\ decode_feature x (Err EInvalid)).
      { clear. induction es as [|x es IH]; [left; exists []; constructor|]. destruct (feature_total x) as [(f & Dx)|[Dx _]]; [|right; exists x; split; [now left|exact Dx]].
        destruct IH as [(fs & F)|(y & I & Dy)]; [left; exists (f :: fs); constructor; [now apply feature_ok|exact F]|right; exists y; split; [now right|exact Dy]]. }
      destruct X as [(fs & F)|X]; [|exact X]. exfalso. apply (N fs). exists s, es. split; assumption.
Qed.
Lemma asset_ok e a : decode_asset e = Ok a <-> exists title, record_of ["id"; "title"; "href"] e [JString (as_id a); JString title; JString (as_href a)].
Proof.
  unfold decode_asset. split.
  - destruct (decode_strings _ e) as [l|?|] eqn:S; cbn [obind]; try discriminate. apply strings_ok in S. destruct l as [|i [|t [|h [|? ?]]]]; try discriminate.
    intro Q. injection Q as <-. exists t. exact S.
  - intros (t & R). change [JString (as_id a); JString t; JString (as_href a)] with (map JString [as_id a; t; as_href a]) in R. apply strings_ok in R. rewrite R. destruct a. reflexivity.
Qed.
Lemma asset_clean e : clean (decode_asset e).
Proof. apply clean_bind; [apply strings_clean|]. intro l. destruct l as [|i [|t [|h [|? ?]]]]; try apply clean_err. apply clean_ok. Qed.
Lemma assets_response_ok j l : decode_assets_response j = Ok l <-> lists_assets j l.
Proof.
  unfold decode_assets_response, lists_assets. split.
  - destruct (struct_fields _ j) as [vs|?|] eqn:S; cbn [obind]; try discriminate. apply struct_ok in S. destruct vs as [|v [|? ?]]; try discriminate.
    destruct (decode_list v) as [es|?|] eqn:D; cbn [obind]; try discriminate. apply list_ok in D. subst v. intro T. apply try_map_ok in T. exists es. split; [exact S|].
    clear - T. induction T; constructor; auto. now apply asset_ok.
  - intros (es & R & F). apply struct_ok in R. rewrite R. cbn [obind decode_list]. apply try_map_ok. clear - F. induction F; constructor; auto. now apply asset_ok.
Qed.
Lemma assets_response_clean j : clean (decode_assets_response j).
Proof.
  apply clean_bind; [apply struct_clean|]. intro l. destruct l as [|v [|? ?]]; try apply clean_err. apply clean_bind; [apply list_clean|]. intro. apply clean_try, asset_clean.
Qed.

Lemma c67_search_proof : forall se rq o, sv_search (swiss_service se) rq o <->
  exists answer, se_post se SEARCH_URL (request_body rq) answer /\ decoded lists answer o.
Proof.
  intros se rq o. cbn [swiss_service sv_search]. unfold r_bind. split; intros (a & P & H); exists a; (split; [exact P|]); destruct a as [j|e|]; cbn [decoded] in *; try exact H;
    apply response_ok; exact H.
Qed.
Lemma c67_assets_proof : forall se o, sv_assets (swiss_service se) o <->
  exists answer, se_json se "https://data.geo.admin.ch/api/stac/v1/collections/ch.meteoschweiz.ogd-forecasting-icon-ch1/assets" answer /\ decoded lists_assets answer o.
Proof.
  intros se o. cbn [swiss_service sv_assets]. unfold r_bind, r_of. split; intros (a & P & H); exists a; (split; [exact P|]); destruct a as [j|e|]; cbn [decoded] in *; try exact H.
  - destruct (assets_response_clean j) as [(l & E)|E]; [left; exists l; split; [now apply assets_response_ok|congruence]|right; split; [congruence|]].
    intros l L. apply assets_response_ok in L. congruence.
  - destruct H as [(l & L & ->)|[-> N]]; [apply assets_response_ok in L; congruence|]. destruct (assets_response_clean j) as [(l & E)|E]; [|congruence].
    exfalso. apply (N l). now apply assets_response_ok.
Qed.

(** ** Requests *)

Definition safe (c : ascii) : bool := let n := nat_of_ascii c in negb (Nat.ltb n 32) && negb (Nat.eqb n 34) && negb (Nat.eqb n 92).
Lemma escape_safe s : allc safe s = true -> escape s = s.
Proof.
  induction s as [|c s IH]; [reflexivity|]. cbn [allc escape]. intro H. apply andb_prop in H. destruct H as [C S]. rewrite (IH S).
  unfold safe in C. unfold escape_char. destruct (Nat.ltb_spec (nat_of_ascii c) 32) as [|L]; [discriminate|]. cbn [negb andb] in C.
  destruct (Nat.eqb (nat_of_ascii c) 34); [discriminate|]. destruct (Nat.eqb (nat_of_ascii c) 92); [discriminate|].
  destruct (Nat.eqb_spec (nat_of_ascii c) 8); [lia|]. destruct (Nat.eqb_spec (nat_of_ascii c) 9); [lia|]. destruct (Nat.eqb_spec (nat_of_ascii c) 10); [lia|].
  destruct (Nat.eqb_spec (nat_of_ascii c) 12); [lia|]. destruct (Nat.eqb_spec (nat_of_ascii c) 13); [lia|]. reflexivity.
Qed.
Lemma digits_safe s : allc is_digit s = true -> allc safe s = true.
Proof.
  induction s as [|c s IH]; [reflexivity|]. cbn [allc]. intro H. apply andb_prop in H. destruct H as [C S]. rewrite (IH S), andb_true_r.
  destruct c as [[] [] [] [] [] [] [] []]; vm_compute in C |- *; congruence.
Qed.
Lemma ref_name_safe t : valid_time t -> allc safe (ref_name t) = true.
Proof.
  intros (V & ? & ? & ? & _). destruct (valid_date_bounds _ V) as (? & ? & ?). unfold ref_name. rewrite !allc_app.
  assert (D : forall w n, 0 <= n -> allc safe (dec_pad w n) = true) by (intros; apply digits_safe, dec_pad_spec; assumption).
  rewrite !D by lia. reflexivity.
Qed.
Lemma c66_files_proof : forall v t body, valid_time t -> (body = request_body (file_request v t) <-> files_body v t body).
Proof.
  intros v t body V. assert (E : request_body (file_request v t) = "{""collections"":[""ch.meteoschweiz.ogd-forecasting-icon-ch1""],""forecast:perturbed"":false,""forecast:reference_datetime"":""" ++ ref_name t ++
           """,""forecast:variable"":""" ++ var_text v ++ """}").
  { assert (Es : escape (ref_name t) = ref_name t) by (apply escape_safe, ref_name_safe; exact V).
    unfold request_body, request_json, file_request. cbn [rq_collections rq_ref rq_horizon rq_var rq_perturbed optional app map].
    cbn [json_text map fst snd]. unfold quoted. rewrite Es.
    assert (Ev : escape (var_text v) = var_text v) by (destruct v; reflexivity). rewrite Ev.
    repeat match goal with |- context[escape (String ?c ?r)] => rewrite (escape_safe (String c r) eq_refl) end.
    cbn [commas append]. rewrite !append_assoc. cbn [append]. rewrite !append_assoc. reflexivity. }
  unfold files_body. split.
  - intros ->. exists (ref_name t). split; [apply c53_text_proof; [exact V|reflexivity]|exact E].
  - intros (s & S & ->). apply c53_text_proof in S; [|exact V]. subst s. symmetry. exact E.
Qed.
Lemma c66_latest_proof : request_body latest_request = latest_body.
Proof. vm_compute. reflexivity. Qed.

(** ** Files *)

Lemma suffix_ok suffix s : has_suffix suffix s = true <-> exists p, s = p ++ suffix.
Proof.
  induction s as [|c s IH]; cbn [has_suffix].
  - rewrite orb_false_r, String.eqb_eq. split; [intros <-; exists ""; reflexivity|]. intros ([|? ?] & E); [exact E|discriminate].
  - rewrite orb_true_iff, String.eqb_eq, IH. split.
    + intros [<-|(p & ->)]; [exists ""; reflexivity|exists (String c p); reflexivity].
    + intros ([|d p] & E); [left; exact E|]. injection E as _ ->. right. eauto.
Qed.
Lemma c68_compressed_proof : forall se url o, (exists p, url = p ++ ".bz2") -> (get_url se url o <-> exists a, se_file se url a /\ o = omap (se_bunzip se) a).
Proof.
  intros se url o S. apply suffix_ok in S. unfold get_url, r_bind, r_of. rewrite S. split; intros (a & F & E); exists a; (split; [exact F|]); destruct a; exact E.
Qed.
Lemma c68_plain_proof : forall se url o, ~ (exists p, url = p ++ ".bz2") -> (get_url se url o <-> se_file se url o).
Proof.
  intros se url o S. destruct (has_suffix ".bz2" url) eqn:H; [apply suffix_ok in H; contradiction|]. unfold get_url, r_bind, r_of. rewrite H. split.
  - intros (a & F & E). destruct a; subst o; exact F.
  - intro F. exists o. split; [exact F|]. destruct o; reflexivity.
Qed.
Lemma snoc_suffix a b s : (exists p, b = p ++ s) -> exists p, a ++ b = p ++ s.
Proof. intros (p & ->). exists (a ++ p). now rewrite append_assoc. Qed.
Lemma c68_dwd_proof : forall run f url, valid_run run -> dwd_file_ok f -> dwd_url run f = Ok url -> exists p, url = p ++ ".bz2".
Proof.
  intros run f url V F E. apply c49_layout_proof in E; [|exact V|exact F]. destruct E as (y & mo & d & file & _ & _ & _ & M).
  destruct (run_model run); try contradiction; destruct M as [-> M]; destruct f; repeat (destruct M as (? & M)); subst file;
    repeat (apply snoc_suffix; try solve [exists ""; reflexivity | exists ".grib2"; reflexivity | exists "_hhl.grib2"; reflexivity | exists "_HHL.grib2"; reflexivity]).
Qed.

(** ** Together *)

Lemma c66_search_proof : forall se v t o, valid_time t -> (sv_search (swiss_service se) (file_request v t) o <->
  exists body answer, files_body v t body /\ se_post se "https://data.geo.admin.ch/api/stac/v1/search" body answer /\ decoded lists answer o).
Proof.
  intros se v t o V. rewrite c67_search_proof. change SEARCH_URL with "https://data.geo.admin.ch/api/stac/v1/search". split.
  - intros (a & P & D). exists (request_body (file_request v t)), a. split; [apply c66_files_proof; [exact V|reflexivity]|auto].
  - intros (body & a & B & P & D). apply c66_files_proof in B; [|exact V]. subst body. eauto.
Qed.
Lemma c66_latest_search_proof : forall se o, sv_search (swiss_service se) latest_request o <->
  exists answer, se_post se "https://data.geo.admin.ch/api/stac/v1/search" latest_body answer /\ decoded lists answer o.
Proof. intros se o. rewrite c67_search_proof, c66_latest_proof. reflexivity. Qed.
Lemma c66_found_proof : forall chk se v t l, valid_time t -> find_files chk (swiss_service se) v t (Ok l) ->
  exists body j features parsed, files_body v t body /\ se_post se "https://data.geo.admin.ch/api/stac/v1/search" body (Ok j) /\ lists j features /\
    Forall2 described features parsed /\ Permutation parsed l /\ (short_horizons parsed -> by_horizon parsed l).
Proof.
  intros chk se v t l V F. apply c52_files_proof in F. destruct F as (a & S & H). apply c66_search_proof in S; [|exact V]. destruct S as (body & a' & B & P & D).
  destruct a as [features|e|]; try discriminate. destruct a' as [j|e|]; cbn [decoded] in D; try discriminate. destruct D as [(fs & L & E)|[E _]]; [|discriminate]. injection E as <-.
  destruct H as [(parsed & l' & E & F & Pm & Sh & _)|[[E _]|[E _]]]; try discriminate. injection E as <-. exists body, j, features, parsed. auto 10.
Qed.
Lemma member_perm ms ms' extra name v : Permutation ms' (extra ++ ms)%list -> (forall m, In m extra -> fst m <> name) -> has_member ms name v -> has_member ms' name v.
Proof.
  intros P X (l1 & l2 & -> & N). assert (I : In (name, v) ms') by (apply (Permutation_in _ (Permutation_sym P)), in_or_app; right; apply in_elt).
  apply in_split in I. destruct I as (k1 & k2 & ->). exists k1, k2. split; [reflexivity|]. intros m J.
  assert (Q : Permutation (k1 ++ k2) (extra ++ l1 ++ l2)).
  { apply (Permutation_cons_inv (a := (name, v))). rewrite (Permutation_middle k1 k2 (name, v)), P, (Permutation_middle extra). apply Permutation_app_head.
    symmetry. apply Permutation_middle. }
  apply (Permutation_in _ Q) in J. apply in_app_or in J. destruct J as [J|J]; [apply X, J|apply N, J].
Qed.
Lemma c67_more_proof : forall ms ms' extra fs, Permutation ms' (extra ++ ms)%list -> (forall m, In m extra -> fst m <> "timeStamp" /\ fst m <> "features") ->
  lists (JObject ms) fs -> lists (JObject ms') fs.
Proof.
  intros ms ms' extra fs P X (s & es & R & F). exists s, es. split; [|exact F]. destruct R as [(ms0 & E & R)|[E _]]; [|discriminate]. injection E as <-.
  left. exists ms'. split; [reflexivity|]. inversion R as [|? ? ? ? A R']; subst. inversion R' as [|? ? ? ? B R'']; subst. inversion R''; subst.
  constructor; [eapply member_perm; [exact P|intros; now apply X|exact A]|]. constructor; [eapply member_perm; [exact P|intros; now apply X|exact B]|constructor].
Qed.
Lemma c67_more_feature_proof : forall ms ms' extra f, Permutation ms' (extra ++ ms)%list ->
  (forall m, In m extra -> fst m <> "id" /\ fst m <> "properties" /\ fst m <> "assets") -> says (JObject ms) f -> says (JObject ms') f.
Proof.
  intros ms ms' extra f P X (id & dt & v & props & ams & R & H). exists id, dt, v, props, ams. split; [|exact H]. destruct R as [(ms0 & E & R)|[E _]]; [|discriminate]. injection E as <-.
  left. exists ms'. split; [reflexivity|]. inversion R as [|? ? ? ? A R']; subst. inversion R' as [|? ? ? ? B R'']; subst. inversion R'' as [|? ? ? ? C R3]; subst. inversion R3; subst.
  constructor; [eapply member_perm; [exact P|intros; now apply X|exact A]|]. constructor; [eapply member_perm; [exact P|intros; now apply X|exact B]|].
  constructor; [eapply member_perm; [exact P|intros; now apply X|exact C]|constructor].
Qed.
