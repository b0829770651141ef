From Coq Require Import String ZArith List Bool Lia.
From Verif Require Import Base GeoModel Par Text TextSpec TextFacts TextSpecProofs TileModel ForecastModel ForecastSpec FetchModel FetchSpec DwdSpec SwissModel SwissSpec SwissProofs
  OverlapSpec ForecastProofs HistorySpec HistoryProofs SwissHistorySpec.
Import ListNotations.
Open Scope Z_scope.

(** ** The time that is taken *)
Lemma chosen_time rfc f t offset u : rfc (ft_ref f) = Some (t, offset) -> local_time t offset -> ref_from_str rfc (ft_ref f) = Ok u ->
  valid_time u /\ instant u = instant t - offset * 10 ^ 9.
Proof.
  intros E L R. destruct (c53_parse_proof rfc (ft_ref f)) as [_ H]. destruct (H t offset E L) as [A B].
  assert (D : (dt_minute t = 0 /\ dt_second t = 0 /\ dt_hour t mod 3 = 0) \/ ~ (dt_minute t = 0 /\ dt_second t = 0 /\ dt_hour t mod 3 = 0)) by lia.
  destruct D as [D|D]; [|rewrite (B D) in R; discriminate]. destruct (A D) as (u' & R' & V & I). rewrite R in R'. injection R' as <-. auto.
Qed.
Lemma latest_time rfc sv t : dated rfc sv -> latest rfc sv t -> exists l f, sv_search sv latest_request (Ok (l ++ [f])) /\ time_of rfc f (instant t) /\ valid_time t.
Proof.
  intros D (l & f & S & R). exists l, f. split; [exact S|]. unfold ref_from_str in R. destruct (rfc (ft_ref f)) as [[t' offset]|] eqn:E; [|discriminate].
  assert (R' : ref_from_str rfc (ft_ref f) = Ok t) by (unfold ref_from_str; rewrite E; exact R).
  destruct (chosen_time rfc f t' offset t E (D _ _ _ _ _ S (in_or_app l [f] f (or_intror (or_introl eq_refl))) E) R') as [V I].
  split; [|exact V]. exists t', offset. auto.
Qed.
Lemma time_unique rfc f i j : time_of rfc f i -> time_of rfc f j -> i = j.
Proof. intros (t & o & E & ->) (t' & o' & E' & ->). rewrite E in E'. injection E' as <- <-. reflexivity. Qed.
Lemma last_of_listed rfc (le : Z -> Z -> Prop) (l : list feature) (f g : feature) (i j : Z) : (forall x, le x x) -> listed rfc le (l ++ [f]) -> In g (l ++ [f]) -> time_of rfc g i -> time_of rfc f j -> le i j.
Proof.
  intros Re L J Ti Tj. apply in_app_or in J. destruct J as [J|[->|[]]].
  - apply in_split in J. destruct J as (a & b & ->). apply (L a g b f [] i j); [rewrite <- app_assoc; reflexivity|exact Ti|exact Tj].
  - rewrite (time_unique rfc g i j Ti Tj). apply Re.
Qed.
Definition hour_at (t : datetime) : Z := 24 * day_number (dt_date t) + dt_hour t.
Lemma hour_monotone t t' : valid_time t -> valid_time t' -> instant t <= instant t' -> hour_at t <= hour_at t'.
Proof. intros (_ & H1 & H2 & H3 & H4) (_ & H1' & H2' & H3' & H4'). unfold instant, hour_at. nia. Qed.
Lemma written_at chk powi rfc sv m faulty steps vars tr e p : dated rfc sv -> part_of (swiss_render_latest chk powi rfc sv m faulty steps vars) tr -> In e tr -> effect_path e = Some p ->
  exists t, latest rfc sv t /\ valid_time t /\ in_run p (hour_at t).
Proof.
  intros D (missed & r & R) J P. destruct (c54_swiss_paths_proof chk powi rfc sv m faulty steps vars (tr ++ missed) r e p D R (in_or_app _ _ _ (or_introl J)) P)
    as (u & hs & t & ty & l & n & rest & S & _ & _ & _ & _ & _ & ->).
  pose proof (started_valid _ _ _ _ _ _ _ D S) as V. pose proof V as (Vd & Vh & _). destruct S as (_ & _ & _ & _ & _ & _ & _ & _ & La).
  exists t. split; [exact La|]. split; [exact V|]. exists (swiss_run_of t), (dec_pad 3 (Z.of_nat n) ++ "/" ++ output_subdir ty ++ "/" ++ rest)%string. split; [exact Vd|]. split.
  - exists (dt_hour t). cbn [swiss_run_of run_name run_date]. split; [apply padded_dec_pad; [lia|lia|reflexivity]|]. split; [exact Vh|reflexivity].
  - unfold output_path. cbn [swiss_run_of run_model model_name]. rewrite ?append_assoc. reflexivity.
Qed.

Lemma c90_written_proof : forall chk powi rfc3339 sv sv' m faulty faulty' steps vars steps' vars' tr tr' e p e' p',
  dated rfc3339 sv -> dated rfc3339 sv' -> swiss_follows rfc3339 sv sv' ->
  part_of (swiss_render_latest chk powi rfc3339 sv m faulty steps vars) tr -> In e tr -> effect_path e = Some p ->
  part_of (swiss_render_latest chk powi rfc3339 sv' m faulty' steps' vars') tr' -> In e' tr' -> effect_path e' = Some p' ->
  exists h h', in_run p h /\ in_run p' h' /\ h <= h'.
Proof.
  intros chk powi rfc sv sv' m faulty faulty' steps vars steps' vars' tr tr' e p e' p' D D' F R J P R' J' P'.
  destruct (written_at _ _ _ _ _ _ _ _ _ _ _ D R J P) as (t & La & V & I). destruct (written_at _ _ _ _ _ _ _ _ _ _ _ D' R' J' P') as (t' & La' & V' & I').
  exists (hour_at t), (hour_at t'). split; [exact I|]. split; [exact I'|]. apply hour_monotone; [exact V|exact V'|].
  destruct (latest_time rfc sv t D La) as (l & f & S & T & _). destruct (latest_time rfc sv' t' D' La') as (l' & f' & S' & T' & _).
  destruct (F _ _ S S') as [O G]. destruct (G l f (instant t) eq_refl T) as (g & j & Jg & Tg & Le).
  pose proof (last_of_listed rfc Z.le l' f' g j (instant t') Z.le_refl O Jg Tg T'). lia.
Qed.
Lemma c90_oldest_proof : forall chk powi rfc3339 sv m faulty steps vars tr e p l g j,
  dated rfc3339 sv -> (forall l', sv_search sv latest_request (Ok l') -> l' = l) -> listed rfc3339 Z.ge l -> In g l -> time_of rfc3339 g j ->
  part_of (swiss_render_latest chk powi rfc3339 sv m faulty steps vars) tr -> In e tr -> effect_path e = Some p ->
  exists h, in_run p h /\ h * 3600 * 10 ^ 9 <= j.
Proof.
  intros chk powi rfc sv m faulty steps vars tr e p l g j D U O Jg Tg R J P. destruct (written_at _ _ _ _ _ _ _ _ _ _ _ D R J P) as (t & La & V & I).
  exists (hour_at t). split; [exact I|]. destruct (latest_time rfc sv t D La) as (l' & f & S & T & _). pose proof (U _ S) as E. subst l.
  pose proof (last_of_listed rfc Z.ge l' f g j (instant t) (fun x => Z.le_ge _ _ (Z.le_refl x)) O Jg Tg T) as G.
  destruct V as (_ & H1 & H2 & H3 & H4). unfold instant in G. unfold hour_at. nia.
Qed.
Lemma c90_newest_proof : forall chk powi rfc3339 sv m faulty steps vars tr e p l g j,
  dated rfc3339 sv -> (forall l', sv_search sv latest_request (Ok l') -> l' = l) -> listed rfc3339 Z.le l -> In g l -> time_of rfc3339 g j ->
  part_of (swiss_render_latest chk powi rfc3339 sv m faulty steps vars) tr -> In e tr -> effect_path e = Some p ->
  exists h, in_run p h /\ j < (h + 1) * 3600 * 10 ^ 9.
Proof.
  intros chk powi rfc sv m faulty steps vars tr e p l g j D U O Jg Tg R J P. destruct (written_at _ _ _ _ _ _ _ _ _ _ _ D R J P) as (t & La & V & I).
  exists (hour_at t). split; [exact I|]. destruct (latest_time rfc sv t D La) as (l' & f & S & T & _). pose proof (U _ S) as E. subst l.
  pose proof (last_of_listed rfc Z.le l' f g j (instant t) Z.le_refl O Jg Tg T) as G.
  destruct V as (_ & H1 & H2 & H3 & H4). unfold instant in G. unfold hour_at. nia.
Qed.
Lemma c90_one_run_proof : forall p h h', in_run p h -> in_run p h' -> h = h'.
Proof.
  intros p h h' (run & rest & V & (n & Pn & Bn & ->) & ->) (run' & rest' & V' & (n' & Pn' & Bn' & ->) & E).
  apply padded_dec_pad in Pn; [|lia|lia]. apply padded_dec_pad in Pn'; [|lia|lia]. rewrite Pn, Pn' in E.
  apply append_inv_head in E.
  apply date_text_inv in E; [|exact V|exact V']. destruct E as [Ed E]. cbn [append] in E.
  apply sep_inv in E; try (apply dec_pad_no_char; [lia|apply slash_no_digit]). destruct E as [Es _].
  apply dec_pad_inj in Es; [|lia|lia]. rewrite Ed, Es. reflexivity.
Qed.
