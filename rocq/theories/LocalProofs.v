(** Proofs about the files of the machine itself (C88). *)
From Coq Require Import Ascii ZArith Lia List Bool String Permutation.
From Verif Require Import Base F32 Text TextFacts Grib2Model GeoModel Par ParFacts TileModel ChartModel MetobinModel ForecastModel ForecastSpec ForecastProofs
  FetchModel FetchSpec FetchProofs DwdModel DwdSpec DwdProofs SwissModel SwissSpec SwissProofs CliModel ServiceModel ReqModel ReqSpec ReqProofs LocalSpec.
Import ListNotations.
Open Scope Z_scope.

(** ** Names *)
Lemma prefix_ok p s : String.prefix p s = true <-> exists rest, s = (p ++ rest)%string.
Proof.
  revert s. induction p as [|c p IH]; intro s; [split; [exists s; reflexivity|now destruct s]|]. destruct s as [|d s]; cbn [String.prefix append].
  - split; [discriminate|intros [rest E]; discriminate].
  - destruct (ascii_dec c d) as [->|N].
    + rewrite IH. split; intros [rest E]; exists rest; [now rewrite E|now injection E].
    + split; [discriminate|intros [rest E]; injection E as E _; congruence].
Qed.
Lemma is_url_ok name : is_url name = true <-> on_web name.
Proof.
  unfold is_url, on_web. rewrite orb_true_iff, !prefix_ok. split; [intros [[rest E]|[rest E]]; exists rest; auto|intros [rest [E|E]]; [left|right]; now exists rest].
Qed.
Lemma c88_web_proof : forall se name o, on_web name -> (open_file se name o <-> get_url se name o).
Proof. intros se name o H. apply is_url_ok in H. unfold open_file. now rewrite H. Qed.
Lemma c88_local_proof : forall se name o, ~ on_web name -> (open_file se name o <-> se_local se name o).
Proof. intros se name o H. unfold open_file. destruct (is_url name) eqn:E; [apply is_url_ok in E; contradiction|reflexivity]. Qed.
Lemma with_files_web se local name o : on_web name -> open_file se name o -> open_file (with_files se local) name o.
Proof. intros W H. apply c88_web_proof; [exact W|]. now apply c88_web_proof in H. Qed.

(** ** An execution depends only on the answers to what was asked *)
Section Frame.
  Variable ok : ask -> Prop.
  Definition like {A} (p q : logged A) : Prop := forall qs o, Forall ok qs -> p qs o -> q qs o.
  Definition alike (p q : prog event) : Prop := forall tr r, Forall ok (asked tr) -> p tr r -> q tr r.
  Lemma lk_same {A} (p : logged A) : like p p. Proof. now intros qs o _. Qed.
  Lemma lk_ask {A} q (f g : result A) : (ok q -> forall o, f o -> g o) -> like (l_ask q f) (l_ask q g).
  Proof. intros H qs o F [-> A1]. split; [reflexivity|]. apply H; [now inversion F|exact A1]. Qed.
  Lemma lk_bind {A B} (p p' : logged A) (q q' : A -> logged B) : like p p' -> (forall a, like (q a) (q' a)) -> like (l_bind p q) (l_bind p' q').
  Proof.
    intros P Q qs r F (q1 & o & H & R). exists q1, o. destruct o as [a| |].
    - destruct R as (q2 & R & ->). apply Forall_app in F. split; [now apply P|]. exists q2. split; [now apply Q|reflexivity].
    - destruct R as [-> ->]. split; [now apply P|now split].
    - destruct R as [-> ->]. split; [now apply P|now split].
  Qed.
  Lemma parts_ok {E} (P : E -> Prop) ts tr : interleaving ts tr -> Forall P tr -> Forall (Forall P) ts.
  Proof. intros I F. apply interleaving_perm in I. rewrite I in F. clear I. induction ts as [|t ts IH]; [constructor|]. cbn [List.concat] in F. apply Forall_app in F. constructor; [apply F|now apply IH]. Qed.
  Lemma lk_collect {A B} (p q : A -> logged B) l : (forall a, like (p a) (q a)) -> like (l_collect p l) (l_collect q l).
  Proof.
    intros H qs r F (xs & X & I & R). exists xs. split; [|now split]. pose proof (parts_ok _ _ _ I F) as G. clear -H X G. induction X as [|a x l xs X1 X IH]; [constructor|]. cbn [map] in G. inversion G; subst.
    constructor; [|now apply IH]. destruct x as [[t o]|]; [now apply H|exact I].
  Qed.
  Lemma ak_same p : alike p p. Proof. now intros tr r _. Qed.
  Lemma ak_then p p' q q' : alike p p' -> alike q q' -> alike (p_then p q) (p_then p' q').
  Proof.
    intros P Q tr r F [[H N]|(t1 & t2 & -> & H1 & H2)]; [left; split; [now apply P|exact N]|]. right. rewrite asked_app in F. apply Forall_app in F.
    exists t1, t2. split; [reflexivity|]. split; [now apply P|now apply Q].
  Qed.
  Lemma ak_if b p q : alike p q -> alike (p_if b p) (p_if b q). Proof. destruct b; [auto|intros _; apply ak_same]. Qed.
  Lemma ak_let {A} (o : outcome A) p q : (forall a, alike (p a) (q a)) -> alike (p_let o p) (p_let o q).
  Proof. intro H. destruct o as [a| |]; [apply H|apply ak_same..]. Qed.
  Lemma ak_call {A} (f g : logged A) p q : like f g -> (forall a, alike (p a) (q a)) -> alike (l_call f p) (l_call g q).
  Proof.
    intros L H tr r F (qs & o & t & X & R & ->). rewrite asked_app, asked_asked in F. apply Forall_app in F. exists qs, o, t. split; [now apply L|]. split; [|reflexivity].
    now apply (ak_let o p q H).
  Qed.
  Lemma asked_parts tr ts : interleaving ts tr -> Forall ok (asked tr) -> Forall (fun t => Forall ok (asked t)) ts.
  Proof.
    intros I F. apply interleaving_perm, asked_perm in I. rewrite asked_concat in I. rewrite I in F. clear I. induction ts as [|t ts IH]; [constructor|]. cbn [List.concat map] in F.
    apply Forall_app in F. constructor; [apply F|now apply IH].
  Qed.
  Lemma ak_for_par {A} (l : list A) p q : (forall a, alike (p a) (q a)) -> alike (for_par l p) (for_par l q).
  Proof.
    intros H tr r F (xs & X & I & R). exists xs. split; [|now split]. pose proof (asked_parts _ _ I F) as G. clear -H X G. induction X as [|a x l xs X1 X IH]; [constructor|]. cbn [traces_of map] in G.
    inversion G; subst. constructor; [|now apply IH]. destruct x as [[t o]|]; [now apply H|exact I].
  Qed.
  Lemma ak_steps {L} filter steps (f g : fc_step -> logged L) (body : L -> fc_step -> prog effect) : (forall s, like (f s) (g s)) -> alike (l_steps filter steps f body) (l_steps filter steps g body).
  Proof.
    intro H. apply ak_for_par. intro s. destruct (skipped filter s); [apply ak_same|]. apply ak_then; [apply ak_same|]. apply ak_call; [apply H|]. intro a. apply ak_same.
  Qed.
  Lemma ak_selected f cp wi te hh vc vw cp' wi' te' hh' vc' vw' : alike cp cp' -> alike wi wi' -> alike te te' -> like hh hh' -> (forall h, alike (vc h) (vc' h)) -> (forall h, alike (vw h) (vw' h)) ->
    alike (l_selected f cp wi te hh vc vw) (l_selected f cp' wi' te' hh' vc' vw').
  Proof.
    intros C W T H V U. unfold l_selected. repeat (apply ak_then; [now apply ak_if|]). apply ak_if. apply ak_then; [apply ak_same|]. apply ak_call; [exact H|]. intro h. apply ak_then; apply ak_if; auto.
  Qed.
End Frame.
Ltac liken := repeat first [apply lk_same | apply lk_ask; now auto | apply lk_bind; [|intros] | apply lk_collect; intros].

(** The answers of the other service to a request are at least those of this one. *)
Definition files_given (f g : fetcher) (q : ask) : Prop := match q with AskFile u => forall o, f u o -> g u o | _ => True end.
Lemma dwd_frame chk powi (f g : fetcher) m faulty head today today' model variables steps :
  alike (files_given f g) (l_dwd_render chk powi f m faulty head today today' model variables steps) (l_dwd_render chk powi g m faulty head today today' model variables steps).
Proof.
  apply ak_call; [apply lk_same|]. intro run. cbv zeta. apply ak_selected; [| | | |intro h|intro h]; try (apply ak_steps; intro s); liken.
Qed.
Definition given (sv sv' : service) (q : ask) : Prop :=
  match q with
  | AskFile u => forall o, sv_fetch sv u o -> sv_fetch sv' u o
  | AskSearch rq => forall o, sv_search sv rq o -> sv_search sv' rq o
  | AskAssets => forall o, sv_assets sv o -> sv_assets sv' o
  | AskHead _ => True
  end.
Lemma swiss_frame chk powi rfc3339 sv sv' m faulty steps variables :
  alike (given sv sv') (l_swiss_render chk powi rfc3339 sv m faulty steps variables) (l_swiss_render chk powi rfc3339 sv' m faulty steps variables).
Proof.
  unfold l_swiss_render. apply ak_call; [liken|]. intro assets. apply ak_let. intro hor. apply ak_call; [liken|]. intro u. apply ak_let. intro vert.
  apply ak_call; [liken|]. intro t.
  apply ak_selected; [| | |liken|intro h|intro h]; (apply ak_let; intro run); repeat (apply ak_call; [liken|intro]); apply ak_steps; intro s; liken.
Qed.

(** ** German service *)
Lemma dwd_url_start run f u : dwd_url run f = Ok u -> exists rest, u = ("https://opendata.dwd.de/weather/nwp/" ++ rest)%string.
Proof.
  destruct f; cbn [dwd_url]; unfold single_url, level_url, hhl_url, single_prefix_suffix, level_prefix_suffix, hhl_prefix_suffix, single_level_url, multi_level_url, time_invariant_url;
    destruct (run_model run); try discriminate; cbn [obind omap base_url]; intro E; injection E as <-; eexists; cbn [append]; reflexivity.
Qed.
Lemma asked_in tr q : In q (asked tr) <-> In (Asked q) tr.
Proof.
  unfold asked. rewrite in_flat_map. split; [intros ([e|q'] & I & J); [destruct J|destruct J as [->|[]]; exact I]|]. intro I. exists (Asked q). split; [exact I|now left].
Qed.
Lemma some_in l qs q : some_of l qs -> In q qs -> In q l.
Proof. intros [u P] I. apply (Permutation_in _ P). apply in_or_app. now left. Qed.
Lemma c88_german_names_proof : forall chk powi fetch m faulty head today today' model variables steps tr r u,
  dwd_model model -> valid_date today -> l_dwd_render chk powi fetch m faulty head today today' model variables steps tr r ->
  opened u tr \/ asked_about u tr -> exists rest, u = ("https://opendata.dwd.de/weather/nwp/" ++ rest)%string.
Proof.
  intros chk powi fetch m faulty head today today' model variables steps tr r u M V R [O|O].
  - destruct (c79_dwd_proof _ _ _ _ _ _ _ _ _ _ _ _ _ M V R) as (hs & rest & run & L & -> & _ & _ & A1 & S1 & _).
    unfold opened in O. apply in_app_or in O. destruct O as [O|O]; [apply in_map_iff in O; destruct O as (q & E & J); injection E as ->; apply in_map_iff in J; destruct J as (? & ? & _); discriminate|].
    apply asked_in in O. apply (some_in _ _ _ S1) in O. clear -A1 O. induction A1 as [|f q fs L (u' & E & ->) A1 IH]; [destruct O|]. destruct O as [O|O]; [injection O as ->; exact (dwd_url_start _ _ _ E)|now apply IH].
  - destruct (c79_search_proof _ _ _ _ _ _ _ _ _ _ _ _ _ M V R) as (hs & rest & run & -> & N & _ & _ & _ & _ & C).
    unfold asked_about in O. apply in_app_or in O. destruct O as [O|O]; [|now apply N in O]. apply in_map_iff in O. destruct O as (q & E & J). injection E as ->. apply in_map_iff in J. destruct J as (u' & E & J). injection E as ->.
    assert (X : exists name, probe model today name u).
    { destruct C as [(name & later & _ & _ & H & _)|(_ & H & _)]; [destruct (H u J) as (n & _ & X)|destruct (H u J) as (n & _ & _ & X)]; now exists n. }
    destruct X as (name & f & _ & E). exact (dwd_url_start _ _ _ E).
Qed.
Lemma on_web_start rest : on_web ("https://opendata.dwd.de/weather/nwp/" ++ rest).
Proof. exists ("opendata.dwd.de/weather/nwp/" ++ rest)%string. right. reflexivity. Qed.
Lemma german_files chk powi se (local : fetcher) m faulty head today today' model variables steps t r :
  dwd_model model -> valid_date today -> dwd_render_latest chk powi (open_file se) m faulty head today today' model variables steps t r ->
  dwd_render_latest chk powi (open_file (with_files se local)) m faulty head today today' model variables steps t r.
Proof.
  intros M V R. destruct (proj2 (dwd_shows _ _ _ _ _ _ _ _ _ _ _) _ _ R) as (tr & T & <-). apply (proj1 (dwd_shows _ _ _ _ _ _ _ _ _ _ _)).
  refine (dwd_frame _ _ _ _ _ _ _ _ _ _ _ _ _ _ _ T). apply Forall_forall. intros [u|u|q|] I; cbn [files_given]; try exact Logic.I.
  intros o H. apply asked_in in I. destruct (c88_german_names_proof _ _ _ _ _ _ _ _ _ _ _ _ _ u M V T (or_introl I)) as [rest ->].
  apply with_files_web; [apply on_web_start|exact H].
Qed.
Lemma c88_german_proof : forall chk powi se (local : fetcher) m faulty head today today' model variables steps t r,
  dwd_model model -> valid_date today ->
  (dwd_render_latest chk powi (open_file se) m faulty head today today' model variables steps t r <->
   dwd_render_latest chk powi (open_file (with_files se local)) m faulty head today today' model variables steps t r).
Proof.
  intros chk powi se local m faulty head today today' model variables steps t r M V. split; [now apply german_files|]. intro R.
  apply (german_files _ _ _ (se_local se) _ _ _ _ _ _ _ _ _ _ M V) in R. now destruct se.
Qed.

(** ** Swiss service *)
Lemma listed_named sv all time v files n u : listed sv all time v files -> In (AskFile u) (get files n) -> can_name sv u.
Proof.
  intros L I. unfold get in I. destruct (nth_error files n) as [s|] eqn:E; [|destruct I]. destruct I as [I|[]]. injection I as <-. apply nth_error_In in E.
  destruct L as [(features & parsed & S & D & P & _)|[_ ->]]; [|destruct E]. apply (Permutation_in _ (Permutation_sym P)) in E. right.
  assert (X : exists f, In f features /\ described f s).
  { clear -D E. induction D as [|f p fs ps D1 D IH]; [destruct E|]. destruct E as [->|E]; [exists f; split; [now left|exact D1]|]. destruct (IH E) as (g & J & G). exists g. split; [now right|exact G]. }
  destruct X as (f & J & _ & _ & more & H). exists (file_request v time), features, f. split; [exact S|]. split; [exact J|]. rewrite H. now left.
Qed.
Lemma searches_no_file time vs u : ~ In (AskFile u) (map (search time) vs).
Proof. intro I. apply in_map_iff in I. destruct I as (v & E & _). discriminate. Qed.
Lemma layer_named sv steps all time t l u : layer_asks sv steps all time t l -> In (AskFile u) l -> can_name sv u.
Proof.
  intros L I. destruct L; apply in_app_or in I; destruct I as [I|I]; try (now apply searches_no_file in I); apply in_flat_map in I; destruct I as (n & _ & I);
    repeat (apply in_app_or in I; destruct I as [I|I]); (eapply listed_named; [|exact I]); eassumption.
Qed.
Lemma only_if_in {A} b (l : list A) x : In x (only_if b l) -> b = true /\ In x l. Proof. now destruct b. Qed.
Lemma first_asset_in id l a : first_asset id l a -> In a l. Proof. intros (e & r & -> & _). apply in_or_app. right. now left. Qed.
Lemma c88_swiss_names_proof : forall chk powi rfc3339 sv m faulty steps variables tr r u,
  l_swiss_render chk powi rfc3339 sv m faulty steps variables tr r -> opened u tr -> can_name sv u.
Proof.
  intros chk powi rfc3339 sv m faulty steps variables tr r u R O. destruct (c79_swiss_proof _ _ _ _ _ _ _ _ _ _ R) as (L & S & X & _). apply asked_in in O. apply (some_in _ _ _ X) in O. clear R X tr.
  assert (Hor : forall assets hor l, sv_assets sv (Ok assets) -> first_asset l assets hor -> can_name sv (as_href hor)).
  { intros assets hor l A1 F. left. exists assets, hor. split; [exact A1|]. split; [exact (first_asset_in _ _ _ F)|reflexivity]. }
  destruct S as [N|assets hor N A1 F|assets hor N A1 F|assets hor vert time cp wi te vc vw A1 F F2 _ C W T V U].
  - destruct O as [O|[]]. discriminate.
  - destruct O as [O|[O|[]]]; [discriminate|]. injection O as <-. eauto.
  - destruct O as [O|[O|[O|[]]]]; [discriminate| |discriminate]. injection O as <-. eauto.
  - cbn [app] in O. destruct O as [O|[O|[O|O]]]; [discriminate|injection O as <-; eauto|discriminate|].
    repeat (apply in_app_or in O; destruct O as [O|O]); apply only_if_in in O; destruct O as [B O];
      [exact (layer_named _ _ _ _ _ _ _ (C B) O)|exact (layer_named _ _ _ _ _ _ _ (W B) O)|exact (layer_named _ _ _ _ _ _ _ (T B) O)| |exact (layer_named _ _ _ _ _ _ _ (V B) O)|exact (layer_named _ _ _ _ _ _ _ (U B) O)].
    destruct O as [O|[]]. injection O as <-. eauto.
Qed.
Lemma c88_frame_proof : forall chk powi rfc3339 se (local : fetcher) m faulty steps variables tr r,
  l_swiss_render chk powi rfc3339 (swiss_service se) m faulty steps variables tr r ->
  (forall u, opened u tr -> ~ on_web u -> forall o, se_local se u o -> local u o) ->
  l_swiss_render chk powi rfc3339 (swiss_service (with_files se local)) m faulty steps variables tr r.
Proof.
  intros chk powi rfc3339 se local m faulty steps variables tr r R H. refine (swiss_frame _ _ _ (swiss_service se) _ _ _ _ _ _ _ _ R). apply Forall_forall. intros [u|u|q|] I; cbn [given]; try exact Logic.I.
  - intros o F. cbn [swiss_service sv_fetch] in *. destruct (is_url u) eqn:E; [apply is_url_ok in E; now apply with_files_web|].
    assert (N : ~ on_web u) by (intro W; apply is_url_ok in W; congruence). apply c88_local_proof in F; [|exact N]. apply c88_local_proof; [exact N|]. cbn [with_files se_local].
    apply asked_in in I. now apply H.
  - intros o F. exact F.
  - intros o F. exact F.
Qed.
Lemma swiss_files chk powi rfc3339 se (local : fetcher) m faulty steps variables t r : (forall u, can_name (swiss_service se) u -> on_web u) ->
  swiss_render_latest chk powi rfc3339 (swiss_service se) m faulty steps variables t r ->
  swiss_render_latest chk powi rfc3339 (swiss_service (with_files se local)) m faulty steps variables t r.
Proof.
  intros W R. destruct (proj2 (swiss_shows _ _ _ _ _ _ _ _) _ _ R) as (tr & T & <-). apply (proj1 (swiss_shows _ _ _ _ _ _ _ _)). apply c88_frame_proof; [exact T|].
  intros u O N. destruct (N (W u (c88_swiss_names_proof _ _ _ _ _ _ _ _ _ _ _ T O))).
Qed.
Lemma c88_swiss_proof : forall chk powi rfc3339 se (local : fetcher) m faulty steps variables t r, (forall u, can_name (swiss_service se) u -> on_web u) ->
  (swiss_render_latest chk powi rfc3339 (swiss_service se) m faulty steps variables t r <->
   swiss_render_latest chk powi rfc3339 (swiss_service (with_files se local)) m faulty steps variables t r).
Proof.
  intros chk powi rfc3339 se local m faulty steps variables t r W. split; [now apply swiss_files|]. intro R.
  apply (swiss_files _ _ _ _ (se_local se)) in R; [now destruct se|exact W].
Qed.
Lemma c88_finding_proof : forall chk powi rfc3339 se m faulty steps variables tr r assets hor,
  (forall o, sv_assets (swiss_service se) o -> o = Ok assets) -> first_asset "horizontal_constants_icon-ch1-eps.grib2" assets hor -> ~ on_web (as_href hor) ->
  l_swiss_render chk powi rfc3339 (swiss_service se) m faulty steps variables tr r ->
  opened (as_href hor) tr /\ forall e, (forall o, se_local se (as_href hor) o -> o = Err e) -> r = Err e.
Proof.
  intros chk powi rfc3339 se m faulty steps variables tr r assets hor A1 F N (q1 & o1 & t1 & [-> G] & R1 & ->). apply A1 in G. subst o1. cbn [p_let] in R1.
  apply find_asset_some in F. change HOR_CONSTS_ID with "horizontal_constants_icon-ch1-eps.grib2"%string in R1. rewrite F in R1. cbn [expect p_let] in R1.
  destruct R1 as (q2 & o2 & t2 & F2 & R2 & ->). destruct F2 as (q3 & o3 & (q4 & o4 & [-> G4] & X4) & X3). cbn [swiss_service sv_fetch] in G4. apply c88_local_proof in G4; [|exact N]. split.
  - apply asked_in. rewrite asked_app, asked_asked. right. cbn [app]. rewrite asked_app, asked_asked. apply in_or_app. left.
    assert (P : exists more, q3 = AskFile (as_href hor) :: more).
    { destruct o4; [destruct X4 as (q5 & _ & ->); now exists q5|destruct X4 as [-> _]; now exists []..]. }
    destruct P as [more ->]. destruct o3; [destruct X3 as (q6 & _ & ->); left; reflexivity|destruct X3 as [-> _]; left; reflexivity..].
  - intros e E. apply E in G4. subst o4. destruct X4 as [-> ->]. destruct X3 as [-> ->]. cbn [p_let] in R2. apply R2.
Qed.
