(** Proofs about halts over whole histories (C145). *)
From stdpp Require Import relations.
From Verif Require Import Base BaseFacts Common Chain ChainFacts RAModel RASpec RAFacts RAInv RAReach RAFinal RAHalt RAMore
  RALedgerSpec RALedger RAShieldSpec.

Section Shield.
Context (p : params) (lb : lib).

Lemma happens_call now st st' : happens p lb now st st' -> ra_call p lb st st'.
Proof. intros [v e s f m ms Hs _ H|v e m ms _ H]; [by eapply call_execute|by eapply call_sudo]. Qed.
Lemma history_happens now st st' : ra_history p lb st -> happens p lb now st st' -> ra_history p lb st'.
Proof.
  intros (c&mins&st0&H0&Hr) H%happens_call. exists c, mins, st0. split; [done|]. by eapply rtc_r.
Qed.
Lemma moved_with_end a t : moved_to a t (with_end a t).
Proof. by destruct a. Qed.

Lemma shielded_step now st st' k a t w :
  ra_history p lb st -> happens p lb now st st' -> 0 < cf_max_settle (s_config st) ->
  s_auctions st !! k = Some a -> a_end a = Some t -> t_seconds t <= t_seconds now ->
  w ∈ hm_windows (s_halt st) -> hw_start w < t_seconds t < hw_end w ->
  w ∈ hm_windows (s_halt st') /\
  (s_auctions st' !! k = Some a \/
   s_auctions st' !! k = Some (with_end a (now + cf_halt_postpone (s_config st) * NANOS))).
Proof.
  intros Hst [v e s f m ms Hs <- H|v e m ms <- H] Hmax Ha Ht Hd Hw Hb.
  - by eapply guard_execute.
  - by eapply guard_sudo.
Qed.
Lemma shield st st' k a t w :
  ra_history p lb st -> s_auctions st !! k = Some a -> a_end a = Some t ->
  w ∈ hm_windows (s_halt st) -> hw_start w < t_seconds t < hw_end w ->
  rtc (later p lb (t_seconds t)) st st' -> untouched_until_postponed p lb (t_seconds t) k a st st'.
Proof.
  intros Hst Ha Ht Hw Hb Hr. revert Hst Ha Hw.
  induction Hr as [st|st st1 st' (now&Hs&Hm&Hh) Hr IH]; intros Hst Ha Hw; [by left|].
  destruct (shielded_step _ _ _ _ _ _ _ Hst Hh Hm Ha Ht Hs Hw Hb) as [Hw1 [Ha1|Ha1]].
  - assert (later p lb (t_seconds t) st st1) as Hl by (by exists now).
    destruct (IH (history_happens _ _ _ Hst Hh) Ha1 Hw1) as [Hsame|(st2&now2&a'&st3&Hr2&Ha2&Hs2&Hh2&Hmv&Ha3&Hr3)]; [by left|].
    right. exists st2, now2, a', st3. split_and!; try done. by eapply rtc_l.
  - right. exists st, now, (with_end a (now + cf_halt_postpone (s_config st) * NANOS)), st1.
    split_and!; done || apply rtc_refl || apply moved_with_end.
Qed.
(** As long as the auction is untouched its window stays. *)
Lemma window_stays st st' k a t w :
  ra_history p lb st -> s_auctions st !! k = Some a -> a_end a = Some t ->
  w ∈ hm_windows (s_halt st) -> hw_start w < t_seconds t < hw_end w ->
  rtc (fun x y => later p lb (t_seconds t) x y /\ s_auctions y !! k = Some a) st st' -> w ∈ hm_windows (s_halt st').
Proof.
  intros Hst Ha Ht Hw Hb Hr. revert Hst Ha Hw.
  induction Hr as [st|st st1 st' [(now&Hs&Hm&Hh) Ha1] Hr IH]; intros Hst Ha Hw; [done|].
  destruct (shielded_step _ _ _ _ _ _ _ Hst Hh Hm Ha Ht Hs Hw Hb) as [Hw1 _].
  by apply IH; [eapply history_happens|..].
Qed.
Lemma after_halt v e st st1 msgs st' k a t :
  ra_history p lb st -> sudo p lb v e st BeginBlock = Ok (st1, msgs) ->
  0 < hm_prev (s_halt st) -> hm_prev (s_halt st) + cf_halt_threshold (s_config st) <= t_seconds (e_time e) ->
  s_auctions st !! k = Some a -> a_end a = Some t ->
  hm_prev (s_halt st) < t_seconds t <= t_seconds (e_time e) -> t_seconds t < t_seconds (e_time e) + cf_halt_buffer (s_config st) ->
  rtc (later p lb (t_seconds t)) st1 st' -> untouched_until_postponed p lb (t_seconds t) k a st1 st'.
Proof.
  intros Hst H Hp Hth Ha Ht Ht1 Ht2 Hr.
  assert (ra_history p lb st1) as Hst1.
  { destruct Hst as (c&mins&st0&H0&Hr0). exists c, mins, st0. split; [done|]. eapply rtc_r; [done|]. by eapply call_sudo. }
  destruct (begin_block_rule p lb _ _ _ _ _ H) as (_&Hau&_&_&Hws). rewrite decide_True in Hws by done.
  eapply (shield st1 st' k a t (HaltWindow (hm_prev (s_halt st)) (t_seconds (e_time e) + cf_halt_buffer (s_config st)))); try done.
  - by rewrite Hau.
  - rewrite Hws. apply elem_of_app. right. by apply elem_of_list_singleton.
  - cbn. lia.
Qed.

(** ** The windows on record *)
Lemma windows_step st st' h : ra_history p lb st -> recorded p lb st st' h ->
  if drops h then exists w, hm_windows (s_halt st) = w :: hm_windows (s_halt st') /\ halt_noticed h = []
  else hm_windows (s_halt st') = hm_windows (s_halt st) ++ halt_noticed h.
Proof.
  intros Hst H. pose proof (history_wf _ _ _ Hst) as Hwf. destruct H as [v e s f m ms Hs H|v e m ms H].
  - cbn [drops halt_noticed]. destruct (execute_config p lb _ _ _ _ _ _ _ _ Hwf H) as (_&_&->). by rewrite app_nil_r.
  - assert (m = BeginBlock \/ m = EndBlock \/ (m <> BeginBlock /\ m <> EndBlock)) as [->|[->|[H1 H2]]] by (destruct m; auto; right; right; done).
    + cbn [drops halt_noticed]. destruct (begin_block_rule p lb _ _ _ _ _ H) as (_&_&->&_&Hws). exact Hws.
    + cbn [drops halt_noticed]. destruct (window_removed p lb _ _ _ _ _ Hst H) as [_ [->|(w&Ew&_)]].
      * rewrite Nat.ltb_irrefl. by rewrite app_nil_r.
      * rewrite Ew. cbn [length]. rewrite (proj2 (Nat.ltb_lt _ _)) by lia. by exists w.
    + assert (hm_windows (s_halt st') = hm_windows (s_halt st)) as ->.
      { apply governance_exact in H as [Hg _]; [|done|done]. by destruct Hg. }
      assert (drops (Chain m st st' ms) = false) as -> by (destruct m; done).
      assert (halt_noticed (Chain m st st' ms) = []) as -> by (destruct m; done). by rewrite app_nil_r.
Qed.
Lemma windows_queue st l : trace p lb st l ->
  (length (List.filter drops l) <= length (concat (map halt_noticed l)))%nat /\
  hm_windows (s_halt st) = drop (length (List.filter drops l)) (concat (map halt_noticed l)).
Proof.
  induction 1 as [c mins st H|st l h st' Ht [IHn IH] H].
  - unfold instantiate in H. apply bind_Ok in H as (?&_&H). apply bind_Ok in H as (?&_&H). apply bind_Ok in H as (?&_&H).
    injection H as <-. done.
  - pose proof (windows_step _ _ _ (trace_history _ _ _ _ Ht) H) as Hs.
    rewrite List.filter_app, map_app, concat_app, !app_length. cbn [List.filter map concat]. rewrite app_nil_r.
    destruct (drops h).
    + destruct Hs as (w&Ew&->). rewrite app_nil_r. rewrite Ew in IH. cbn [length]. split.
      * pose proof (f_equal length IH) as HL. rewrite drop_length in HL. cbn [length] in HL. lia.
      * rewrite <- drop_drop, <- IH. done.
    + cbn [length]. rewrite Nat.add_0_r. split; [lia|]. rewrite Hs, IH, drop_app_le; done.
Qed.
End Shield.
