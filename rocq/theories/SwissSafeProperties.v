(** The property C86, what the Swiss service can answer without ending a call in a panic. *)
From Coq Require Import Ascii String ZArith Reals List Bool Lia.
From Verif Require Import Base F32 F32Facts Grib2Model Grib2Spec Grib2Samples Grib2Proofs Grib2DocProofs Grib2FloatProofs GeoModel MetobinSpec TileModel TileSpec MercatorProofs LibmProofs Par Text
  ForecastModel ForecastSpec FetchModel FetchSpec DwdModel DwdSpec DwdProperties MapSpec FieldSpec SafeProperties SwissModel SwissSpec SwissProofs SwissProperties SwissSafeSpec SwissSafeProofs.
Import ListNotations.
Open Scope Z_scope.

(** C86.  Whatever the service answers: errors, lists of files that cannot be understood, times that are no reference time, files
    that are no messages, messages of whatever size, kind of grid or packing, and something else at each request; the call does not
    panic, as long as what [safe_swiss] lists is there: the two files of constants with the messages that are used, the same number
    of levels in each file of levels, a file for each selected step and variable of a layer (except for the wind), horizons of at
    most 255 hours, and as many data in each message as its bitmap asks for. *)
Theorem C86_swiss : forall chk powi rfc3339 sv m steps vars count, libm_accurate m -> dated rfc3339 sv -> (1 <= count)%nat -> (forall url, exists o, sv_fetch sv url o) ->
  safe_swiss chk rfc3339 sv vars steps count ->
  (exists tr r, swiss_render_latest chk powi rfc3339 sv m false steps vars tr r) /\
  forall tr r, swiss_render_latest chk powi rfc3339 sv m false steps vars tr r -> r <> Panic.
Proof. exact c86_swiss_proof. Qed.
Print Assumptions C86_swiss.

(** A service that may fail each time, has only one file of the meridional wind, files of temperatures whose horizon cannot be
    read, and gives 33 messages or the first 100 bytes of one for each file. *)
Definition odd_horizon : feature := {| ft_title := "file"; ft_ref := "2025-11-20T06:00:00Z"; ft_horizon := "tomorrow"; ft_hrefs := ["file://x"%string] |}.
Definition odd_files (rq : request) : list feature :=
  match rq_ref rq, rq_var rq with
  | Some _, Some v => if String.eqb v "V_10M" then [hourly 0] else if String.eqb v "T_2M" then [hourly 1; odd_horizon] else map hourly [2; 0; 1]
  | _, _ => map hourly [2; 0; 1]
  end.
Definition uneven : service :=
  {| sv_search := fun rq o => o = Ok (odd_files rq) \/ o = Err EIo; sv_assets := fun o => o = Ok sample_assets \/ o = Err EIo;
     sv_fetch := fun url o => o = Ok many \/ o = Ok (firstn 100 (message_bytes low)) \/ o = Err EIo |}.
Lemma many_bytes : forallb (fun b => (0 <=? b) && (b <? 256)) many = true.
Proof. vm_compute. reflexivity. Qed.
Lemma low_safe ws : map message_meaning ws = repeat low_doc (length ws) -> Forall safe_data ws.
Proof.
  assert (S : safe_data low) by (cbn [safe_data low w_5 sample w5_tpl]; right; vm_compute; split; [right|]; repeat constructor).
  intro E. apply Forall_forall. intros w J. apply (safe_meaning low w); [|exact S]. assert (J' : In (message_meaning w) (repeat low_doc (length ws))) by (rewrite <- E; now apply in_map).
  apply repeat_spec in J'. rewrite J'. reflexivity.
Qed.
Lemma uneven_fetch url (P : list wire -> Prop) : (forall ws, length ws = 33%nat -> Forall safe_data ws -> P ws) ->
  safe (sv_fetch uneven url) (safe_messages true P) /\ safe (sv_fetch uneven url) (safe_single true).
Proof.
  intro H. pose proof (bytes_checked _ many_bytes) as B.
  assert (B' : Forall is_byte (firstn 100 (message_bytes low))) by (apply bytes_checked; vm_compute; reflexivity).
  assert (R' : exists e, read_single_doc true (firstn 100 (message_bytes low)) = Err e) by (eexists; vm_compute; reflexivity). destruct R' as (e & R').
  assert (S1 : safe_messages true P many).
  { apply (safe_read true P many (repeat low_doc 33) B many_docs). intros ws _ E. assert (L : length ws = 33%nat) by (rewrite <- (map_length message_meaning), E; reflexivity).
    apply H; [exact L|]. apply low_safe. now rewrite L. }
  assert (S2 : safe_single true many).
  { split; [exact B|]. destruct many_first as (rest & R). split; [intro Pn; apply (single_doc_panic true many B) in Pn; congruence|]. intros w rest' W E. rewrite E, (read_single_doc_bwd true w rest' W) in R.
    assert (Em : message_meaning w = low_doc) by congruence. assert (F : Forall safe_data [w]) by (apply low_safe; cbn [map length repeat]; now rewrite Em). inversion F; assumption. }
  destruct (safe_unread true P _ e B' R') as [U1 U2].
  split; (split; [exists (Err EIo); right; now right|]); intros o [->|[->| ->]]; [left|left|right|left|left|right]; eexists; (split; [reflexivity|]); assumption || exact I.
Qed.
Lemma uneven_safe : safe_swiss true zulu uneven [] [] 2.
Proof.
  assert (Lv : forall url, safe (sv_fetch uneven url) (safe_levels true 2)).
  { intro url. apply uneven_fetch. intros ws L S. assert (Ll : length (level_docs ws) = 2%nat) by (unfold level_docs; rewrite firstn_length, skipn_length, L; reflexivity). split; [exact Ll|].
    unfold level_docs. rewrite Forall_forall in *. intros x J. apply S. rewrite <- (firstn_skipn 31 ws). apply in_or_app. right. rewrite <- (firstn_skipn 49 (skipn 31 ws)). apply in_or_app. now left. }
  split; [|split].
  - split; [exists (Err EIo); now right|]. intros o [->| ->]; [left|right; eexists; split; [reflexivity|exact I]]. eexists. split; [reflexivity|]. exists swiss_hor, swiss_vert.
    split; [exists [{| as_id := "readme"; as_href := "file://readme" |}; swiss_vert], []; repeat split; repeat (constructor; [discriminate|]); constructor|]. split.
    { apply uneven_fetch. intros ws L S. destruct (nth_error ws 3) as [a|] eqn:E3; [|apply nth_error_None in E3; lia]. destruct (nth_error ws 4) as [b|] eqn:E4; [|apply nth_error_None in E4; lia].
      rewrite Forall_forall in S. exists a, b. repeat split; [exact (S a (nth_error_In _ _ E3))|exact (S b (nth_error_In _ _ E4))]. }
    split; [exists [{| as_id := "readme"; as_href := "file://readme" |}], [swiss_hor]; repeat split; repeat (constructor; [discriminate|]); constructor|]. intros _. apply Lv.
  - split; [exists (Err EIo); now right|]. intros o [->| ->]; [left|right]; eexists; (split; [reflexivity|exact I]).
  - intros t ty _ _. split.
    + intros N v main other J [Em|Em] [Eo|Eo]; try discriminate. injection Em as ->. injection Eo as ->. destruct ty; cbn [other_vars In] in J; try destruct (N eq_refl); (repeat destruct J as [<-|J]; [..|destruct J]); cbn; intros n B _; lia.
    + intros v _. split; [exists (Err EIo); now right|]. intros o [->| ->]; [left|right; eexists; split; [reflexivity|exact I]]. eexists. split; [reflexivity|]. intros parsed F.
      assert (Fl : Forall (fun s => safe (sv_fetch uneven (ss_href s)) (safe_file true 2 v)) parsed).
      { apply Forall_forall. intros s _. destruct v; cbn [safe_file]; first [apply Lv|apply (uneven_fetch _ (fun _ => True)); auto]. }
      split; [|exact Fl]. intros _ _.
      assert (U : forall l p, Forall (fun n => 0 <= n <= 100) l -> Forall2 described (map hourly l) p -> short_horizons p).
      { intros l p Bl. revert p. induction Bl as [|n l Bn Bl IH]; intros p Fp; inversion Fp as [|? y ? ys D Fp']; subst; constructor; [|now apply IH].
        destruct (hourly_described n ltac:(lia)) as (_ & H1 & _). destruct D as (_ & H2 & _). rewrite H1 in H2. injection H2 as <-. unfold hours, file_of, horizon_from_step. cbn [ss_horizon hz_days hz_hours].
        pose proof (Z.div_mod n 24 ltac:(lia)). lia. }
      assert (O : forall s, ~ described odd_horizon s) by (intros s (_ & X & _); vm_compute in X; discriminate X).
      destruct v; cbn in F;
        first [exact (U [2; 0; 1] parsed ltac:(repeat constructor; lia) F) | exact (U [0] parsed ltac:(repeat constructor; lia) F) | (inversion F as [|? ? ? ? _ F']; subst; inversion F' as [|? s ? ? D _]; subst; destruct (O s D))].
Qed.
Lemma uneven_dated : dated zulu uneven.
Proof.
  intros rq features f t offset E J P. unfold zulu in P. destruct (String.eqb (ft_ref f) "2025-11-20T06:00:00Z"); [injection P as <- <-|].
  - split; [exact at_six_valid|]. vm_compute. intuition discriminate.
  - destruct (String.eqb (ft_ref f) "2025-11-20T06:00:00+01:00"); [|discriminate]. injection P as <- <-. split; [exact at_six_valid|]. vm_compute. intuition discriminate.
Qed.
Example C86_sample : safe_swiss true zulu uneven [] [] 2 /\ forall tr r, swiss_render_latest true powi_rt zulu uneven ideal false [] [] tr r -> r <> Panic.
Proof.
  split; [exact uneven_safe|]. refine (proj2 (C86_swiss true powi_rt zulu uneven ideal [] [] 2 ideal_accurate uneven_dated ltac:(lia) _ uneven_safe)).
  intro url. exists (Err EIo). right. now right.
Qed.

(** C86, finding: without the asset of the horizontal constants, or with less than five messages in its file, every call panics before
    it has read any other file or written anything. *)
Theorem C86_constants : forall chk powi rfc3339 sv m steps vars,
  (exists o, sv_assets sv o) -> (forall url, exists o, sv_fetch sv url o) ->
  (forall o, sv_assets sv o -> exists l, o = Ok l /\
     (Forall (fun a => as_id a <> "horizontal_constants_icon-ch1-eps.grib2"%string) l \/
      exists hor, first_asset "horizontal_constants_icon-ch1-eps.grib2" l hor /\
        forall o', sv_fetch sv (as_href hor) o' -> exists ws tail, o' = Ok (concat (map message_bytes ws) ++ tail) /\
          (1 <= length ws <= 4)%nat /\ Forall (wf_message chk) ws /\ Forall is_byte tail /\ ~ panic_input chk tail /\
          forall w rest, wf_message chk w -> tail <> message_bytes w ++ rest)) ->
  (exists tr r, swiss_render_latest chk powi rfc3339 sv m false steps vars tr r) /\
  forall tr r, swiss_render_latest chk powi rfc3339 sv m false steps vars tr r -> tr = [] /\ r = Panic.
Proof. exact c86_constants_proof. Qed.
Print Assumptions C86_constants.

(** A service that either has no such asset, or four messages in its file. *)
Definition lacking : service :=
  {| sv_search := fun rq o => o = Ok (map hourly [2; 0; 1]); sv_assets := fun o => o = Ok [swiss_vert] \/ o = Ok sample_assets;
     sv_fetch := fun url o => o = Ok (concat (map message_bytes [low; low; low; low])) |}.
Example C86_constants_sample : forall tr r, swiss_render_latest true powi_rt zulu lacking ideal false [] [] tr r -> tr = [] /\ r = Panic.
Proof.
  refine (proj2 (C86_constants true powi_rt zulu lacking ideal [] [] (ex_intro _ _ (or_introl eq_refl)) (fun _ => ex_intro _ _ eq_refl) _)).
  intros o [->| ->]; eexists; (split; [reflexivity|]).
  - left. repeat constructor. discriminate.
  - right. exists swiss_hor. split; [exists [{| as_id := "readme"; as_href := "file://readme" |}; swiss_vert], []; repeat split; repeat (constructor; [discriminate|]); constructor|].
    intros o' Ho'. exists [low; low; low; low], []. split; [rewrite app_nil_r; exact Ho'|]. split; [cbn; lia|]. split; [repeat (apply Forall_cons; [exact low_wf|]); apply Forall_nil|]. split; [constructor|]. split.
    + intro Pn. apply (single_doc_panic true []) in Pn; [vm_compute in Pn; discriminate Pn|constructor].
    + intros w rest W E. symmetry in E. apply app_eq_nil in E. pose proof (message_nonempty w) as M. rewrite (proj1 E) in M. cbn in M. lia.
Qed.
