(** Halt windows (C44, C47) and what stops EndBlock (C45, C46). *)
From stdpp Require Import relations.
From Verif Require Import Base BaseFacts Common Chain ChainFacts IndexRange QuerySpec IndexWalk
  RAModel RASpec RAFacts RAIndex RAInv RAReach RAFinal.

Section Halt.
Context (p : params) (lb : lib).
Notation execute := (execute p lb).
Notation sudo := (sudo p lb).

Lemma outcome_halted v now cfg h a o ms t : outcome lb v now cfg h a o ms -> a_end a = Some t -> halted h t ->
  t <= now /\ o = Some (with_end a (now + cf_halt_postpone cfg * NANOS)) /\ ms = [].
Proof. intros [t' H1 H2 H3 H4|t' hb sp H1 H2 H3 H4 H5 H6] Ht Hh; [by simplify_eq|]. assert (t' = t) as -> by congruence. done. Qed.
Lemma outcome_sold v now cfg h a o ms t : outcome lb v now cfg h a o ms -> a_end a = Some t -> ~ halted h t ->
  t <= now /\ o = None /\ exists hb sp, a_high a = Some hb /\ splits hb sp /\ rates lb v cfg a hb sp /\ ms = settlement a hb sp.
Proof.
  intros [t' H1 H2 H3 H4|t' hb sp H1 H2 H3 H4 H5 H6] Ht Hh; assert (t' = t) as -> by congruence; [done|].
  split_and!; [done|done|]. by exists hb, sp.
Qed.

(** An auction that ended inside a halt window is postponed, whoever settles it. *)
Lemma settle_halted st v e sender funds coll tok st' msgs a t :
  ra_history p lb st -> execute v e sender funds st (SettleAuction coll tok) = Ok (st', msgs) ->
  s_auctions st !! (coll, tok) = Some a -> a_end a = Some t -> halted (s_halt st) t ->
  s_auctions st' !! (coll, tok) = Some (with_end a (e_time e + cf_halt_postpone (s_config st) * NANOS)) /\ msgs = [].
Proof.
  intros Hst H Ha Ht Hh. destruct (settle_rule p lb _ _ _ _ _ _ _ _ _ Hst H) as (a1&o&Ha1&_&Ho&Ho'&_).
  assert (a1 = a) as -> by congruence. destruct (outcome_halted _ _ _ _ _ _ _ _ Ho Ht Hh) as (_&->&->). done.
Qed.
Lemma end_block_halted st v e st' msgs k a t :
  ra_history p lb st -> sudo v e st EndBlock = Ok (st', msgs) ->
  s_auctions st !! k = Some a -> a_end a = Some t -> halted (s_halt st) t ->
  s_auctions st' !! k = Some a \/
  s_auctions st' !! k = Some (with_end a (e_time e + cf_halt_postpone (s_config st) * NANOS)).
Proof.
  intros Hst H Ha Ht Hh. pose proof (history_wf _ _ _ Hst) as Hwf.
  destruct (sudo_fate p lb v e st _ st' msgs k a Hwf H Ha) as [Hs|(_&em&Ho)]; [by left|right].
  by destruct (outcome_halted _ _ _ _ _ _ _ _ Ho Ht Hh) as (_&->&_).
Qed.

(** The window of an auction that is over stays until the auction is postponed; the auction is never sold. *)
Lemma guard_execute st v e sender funds m st' msgs k a t w :
  ra_history p lb st -> execute v e sender funds st m = Ok (st', msgs) ->
  s_auctions st !! k = Some a -> a_end a = Some t -> t_seconds t <= t_seconds (e_time e) ->
  w ∈ hm_windows (s_halt st) -> hw_start w < t_seconds t < hw_end w ->
  w ∈ hm_windows (s_halt st') /\
  (s_auctions st' !! k = Some a \/
   s_auctions st' !! k = Some (with_end a (e_time e + cf_halt_postpone (s_config st) * NANOS))).
Proof.
  intros Hst H Ha Ht Hd Hw Hb. pose proof (history_wf _ _ _ Hst) as Hwf.
  destruct (execute_config p lb _ _ _ _ _ _ _ _ Hwf H) as (_&_&->). split; [done|].
  destruct (wf_auction _ _ Hwf _ _ Ha) as [_ Hok]. pose proof (aok_phase _ _ Hok) as Hph.
  assert (halted (s_halt st) t) as Hh by (exists w; split; [done|lia]).
  destruct (execute_fate p lb _ _ _ _ _ _ _ _ _ _ Hwf H Ha) as [|r _ _ Hf|_ _ Hf|n a' ms _ _ Hbt|o em _ Ho].
  - by left.
  - destruct Hph; congruence.
  - destruct Hph; congruence.
  - pose proof (bt_open _ _ _ _ _ _ _ Hbt t Ht). lia.
  - destruct (outcome_halted _ _ _ _ _ _ _ _ Ho Ht Hh) as (_&->&_). by right.
Qed.
Lemma guard_sudo st v e m st' msgs k a t w :
  ra_history p lb st -> sudo v e st m = Ok (st', msgs) -> 0 < cf_max_settle (s_config st) ->
  s_auctions st !! k = Some a -> a_end a = Some t -> t_seconds t <= t_seconds (e_time e) ->
  w ∈ hm_windows (s_halt st) -> hw_start w < t_seconds t < hw_end w ->
  w ∈ hm_windows (s_halt st') /\
  (s_auctions st' !! k = Some a \/
   s_auctions st' !! k = Some (with_end a (e_time e + cf_halt_postpone (s_config st) * NANOS))).
Proof.
  intros Hst H Hmax Ha Ht Hd Hw Hb. pose proof (history_wf _ _ _ Hst) as Hwf.
  assert (halted (s_halt st) t) as Hh by (exists w; split; [done|lia]).
  split.
  - assert (m = EndBlock \/ m <> EndBlock) as [->|Hne] by (destruct m; auto).
    + destruct (window_removed p lb _ _ _ _ _ Hst H) as [_ [->|(w0&Ew&Hall)]]; [done|].
      rewrite Ew in Hw. apply elem_of_cons in Hw as [->|Hw]; [|done]. exfalso.
      specialize (Hall Hmax k a Ha). unfold end_second in Hall. rewrite Ht in Hall.
      assert (due (e_time e) a) as Hdue by (by exists t). specialize (Hall Hdue). lia.
    + destruct (windows_kept p lb _ _ _ _ _ _ Hst H Hne) as (ws&->). apply elem_of_app. by left.
  - destruct (sudo_fate p lb v e st _ st' msgs k a Hwf H Ha) as [Hs|(_&em&Ho)]; [by left|right].
    by destruct (outcome_halted _ _ _ _ _ _ _ _ Ho Ht Hh) as (_&->&_).
Qed.

(** * What stops EndBlock *)
Lemma settle_all_each v now cfg h l : forall st resp r, settle_all p lb v now cfg h st l resp = Ok r ->
  Forall (fun a => exists st1 resp1 r1, settle_auction p lb v st1 now a cfg h resp1 = Ok r1) l.
Proof.
  induction l as [|a l IH]; intros st resp r H; [constructor|]. cbn [settle_all] in H.
  apply bind_Ok in H as ([st1 resp1]&H1&H). constructor; [eauto|by eapply IH].
Qed.
Lemma end_block_each st v e r a : wf p st -> sudo v e st EndBlock = Ok r ->
  s_auctions st !! (a_coll a, a_tok a) = Some a -> due (e_time e) a -> 0 < cf_max_settle (s_config st) ->
  (forall k b, s_auctions st !! k = Some b -> due (e_time e) b -> b <> a -> end_before (a_ekey a) (a_ekey b)) ->
  exists st1 resp1 r1, settle_auction p lb v st1 (e_time e) a (s_config st) (s_halt st) resp1 = Ok r1.
Proof.
  intros Hwf H Ha Hd Hmax Hfirst. cbn [RAModel.sudo] in H. unfold sudo_end_block in H. apply bind_Ok in H as (b&Hb&H).
  unfold add64 in Hb. destruct (N.leb_spec (t_seconds (e_time e) + 1) U64_MAX); [|done]. injection Hb as <-.
  cbv zeta in H. apply bind_Ok in H as (ear&_&H). apply bind_Ok in H as ([st1 ms]&Hs&_).
  apply settle_all_each in Hs. rewrite Forall_forall in Hs. apply Hs.
  destruct (due_first p st (e_time e) (cf_max_settle (s_config st)) Hwf ltac:(done)) as [H1 H2 H3 H4].
  destruct (H4 a Ha Hd) as [Hin|[Hlen Hbef]]; [done|]. exfalso.
  destruct (due_auctions st (t_seconds (e_time e) + 1) (cf_max_settle (s_config st))) as [|b l] eqn:El; [cbn in Hlen; lia|].
  assert (b ∈ b :: l) as Hb by (by left). specialize (Hbef b Hb). destruct (H1 b Hb) as [Hsb Hdb].
  destruct (decide (a_ekey b = a_ekey a)) as [E|Hne]; [rewrite E in Hbef; by apply end_before_irrefl in Hbef|].
  assert (b <> a) as Hneq by (intros ->; done).
  specialize (Hfirst _ b Hsb Hdb Hneq). eapply end_before_irrefl, end_before_trans; done.
Qed.
Lemma end_block_blocked st v e a t :
  ra_history p lb st -> s_auctions st !! (a_coll a, a_tok a) = Some a -> a_end a = Some t ->
  t_seconds t <= t_seconds (e_time e) -> 0 < cf_max_settle (s_config st) ->
  (forall k b, s_auctions st !! k = Some b -> due (e_time e) b -> b <> a -> end_before (a_ekey a) (a_ekey b)) ->
  (e_time e < t \/
   (~ halted (s_halt st) t /\
    exists s to share, q_info v (a_coll a) = Some (CollectionInfo s (Some (to, share))) /\ p_valid p to = false)) ->
  forall r, sudo v e st EndBlock <> Ok r.
Proof.
  intros Hst Ha Ht Hd Hmax Hfirst Hbad r H. pose proof (history_wf _ _ _ Hst) as Hwf.
  destruct (end_block_each st v e r a Hwf H Ha ltac:(by exists t) Hmax Hfirst) as (st1&resp1&r1&Hs).
  unfold settle_auction in Hs. rewrite Ht in Hs. apply bind_Ok in Hs as (u&Hu&Hs). apply ensure_Ok in Hu.
  destruct Hbad as [Hbad|(Hh&s&to&share&Hq&Hv)]; [lia|].
  destruct (within_halt_window (s_halt st) (t_seconds t)) eqn:Ew; [by apply within_halted in Ew|].
  cbv zeta in Hs. destruct (a_high a); [|done]. apply bind_Ok in Hs as (roy&Hr&_).
  unfold load_collection_royalties in Hr. rewrite Hq in Hr. cbn [ci_royalty] in Hr. apply bind_Ok in Hr as (x&Hx&_).
  unfold addr_validate in Hx. by rewrite Hv in Hx.
Qed.
End Halt.
