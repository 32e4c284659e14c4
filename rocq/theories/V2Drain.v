(** Proofs for C141 (V2DrainSpec): the withdrawals of any resting orders go through one after the other, in any order. *)
From stdpp Require Import relations.
From Verif Require Import Base BaseFacts Common Chain ChainFacts LedgerSpec TxSpec TxFacts V2Model V2Spec V2Facts
  V2Inv V2Reach V2Live V2Tx V2DrainSpec.

Section V2Drain.
Context (p : params).

Definition without (st : state) (o : order) : state :=
  match o with
  | OAsk i _ => set_asks st (delete i (s_asks st))
  | OBid i _ => set_bids st (delete i (s_bids st))
  | OCbid i _ => set_cbids st (delete i (s_cbids st))
  end.
Definition given_back (o : order) : list cmsg :=
  match o with
  | OAsk _ a => [MNft (a_coll a) (a_tok a) (proceeds_to a)]
  | OBid _ b => [MSend (b_creator b) [d_price (b_det b)]]
  | OCbid _ c => [MSend (cb_creator c) [d_price (cb_det c)]]
  end.
Definition call_of (o : order) := snd (withdrawal o).
Definition who_of (o : order) : addr := fst (fst (withdrawal o)).

Lemma withdrawal_call v e st o : wf p st -> in_book st o ->
  execute p v e (who_of o) [] st (call_of o) = Ok (without st o, given_back o).
Proof.
  intros Hwf Ho. destruct o as [i a|i b|i c]; cbn in Ho |- *.
  - unfold execute_remove_ask. cbn. rewrite Ho. cbn. rewrite bool_decide_eq_true_2 by done. cbn.
    destruct (wf_ask _ _ Hwf _ _ Ho) as (->&_). done.
  - unfold execute_remove_bid. cbn. rewrite Ho. cbn. rewrite bool_decide_eq_true_2 by done. cbn.
    destruct (wf_bid _ _ Hwf _ _ Ho) as (->&_). done.
  - unfold execute_remove_collection_bid. cbn. rewrite Ho. cbn. rewrite bool_decide_eq_true_2 by done. cbn.
    destruct (wf_cbid _ _ Hwf _ _ Ho) as (->&_). done.
Qed.

Lemma who_not_self st o : wf p st -> in_book st o -> who_of o <> p_self p.
Proof.
  intros Hwf Ho. destruct o as [i a|i b|i c]; cbn in Ho |- *.
  - by destruct (wf_ask _ _ Hwf _ _ Ho) as (_&_&_&_&_&?).
  - by destruct (wf_bid _ _ Hwf _ _ Ho) as (_&_&_&_&?).
  - by destruct (wf_cbid _ _ Hwf _ _ Ho) as (_&_&_&_&?).
Qed.

Lemma in_book_without st o o' : in_book st o -> in_book (without st o) o' <-> in_book st o' /\ o' <> o.
Proof.
  intros Ho. destruct o as [i a|i b|i c], o' as [i' a'|i' b'|i' c']; cbn in *; rewrite ?lookup_delete_Some;
    try (by split; [intros H; split|intros [? _]]).
  all: split; [intros [Hi H]; split; [done|]; intros [= -> _]; by apply Hi|].
  all: intros [H Hne]; split; [|done]; intros <-; apply Hne; rewrite H in Ho; injection Ho as ->; done.
Qed.

Lemma withdraw_one w o : reachable p w -> p_reg_reenters p = false -> in_book (w_st w) o -> returnable p o ->
  exists w', run_tx p (execute p) w (who_of o) [] (call_of o) = Ok w' /\ reachable p w' /\ withdrawn p w [o] w'.
Proof.
  intros Hr Hreg Ho Hret. pose proof (reachable_wf _ _ Hr) as Hwf.
  pose proof (withdrawal_call (view_of p w) (env_of w) _ _ Hwf Ho) as He.
  assert (exists w', run_tx p (execute p) w (who_of o) [] (call_of o) = Ok w') as [w' Hrun].
  { apply tx_goes; [done|]. split; [split; [by eapply who_not_self|intros d; cbn; lia]|]. eexists _, _. split; [exact He|].
    destruct o as [i a|i b|i c]; cbn in Ho, Hret |- *.
    - split; [intros to cs Hin; apply elem_of_list_singleton in Hin; discriminate|].
      intros c t to Hin. apply elem_of_list_singleton in Hin. injection Hin as -> -> ->. split; [done|]. intros Hh.
      destruct (reachable_custody _ _ Hreg Hr) as (_&_&Hc&_). unfold can_transfer.
      rewrite (Hc (a_coll a) (a_tok a)); [|done|by exists i, a]. by rewrite bool_decide_eq_true_2.
    - split; [by apply receivable_one|]. intros c t to Hin. apply elem_of_list_singleton in Hin. discriminate.
    - split; [by apply receivable_one|]. intros c' t to Hin. apply elem_of_list_singleton in Hin. discriminate. }
  exists w'. split; [done|]. split.
  { destruct Hr as (w0&Hi&Hs). exists w0. split; [done|]. eapply rtc_r; [done|]. eapply step_tx. by apply run_tx_sound. }
  apply tx_settled in Hrun as (st'&msgs&He'&HS). rewrite He in He'. injection He' as <- <-.
  pose proof (who_not_self _ _ Hwf Ho) as Hns.
  split.
  - intros o'. rewrite (sa_storage _ _ _ _ _ _ _ HS), in_book_without by done. by rewrite elem_of_list_singleton.
  - intros x d Hx. pose proof (sa_bank _ _ _ _ _ _ _ HS x d) as HB. rewrite !(decide_False (P := x = p_self p)) in HB by done.
    unfold due_to, held_for, in_denom, belongs_to. unfold sent_to, of_denom, coins_of in HB.
    destruct o as [i a|i b|i c]; cbn in HB |- *; unfold of_denom in HB; repeat case_decide; repeat case_bool_decide; try done; lia.
  - intros d. pose proof (sa_bank _ _ _ _ _ _ _ HS (p_self p) d) as HB. rewrite !(decide_True (P := p_self p = p_self p)) in HB by done.
    unfold held_in, held_for, in_denom. unfold sent_to, leaving, of_denom, coins_of in HB.
    destruct o as [i a|i b|i c]; cbn in HB, Hns |- *; unfold of_denom in HB; repeat case_decide; try done; lia.
  - intros i a <-%elem_of_list_singleton Hh. rewrite (sa_nft _ _ _ _ _ _ _ HS). unfold moved_to. cbn.
    rewrite decide_True by done. cbn. by rewrite Hh.
  - intros c t Hno. rewrite (sa_nft _ _ _ _ _ _ _ HS). unfold moved_to. destruct o as [i a| |]; cbn; try done.
    rewrite decide_False; [done|]. intros [E1 E2]. by eapply (Hno i a); [apply elem_of_list_singleton|..].
  - rewrite (sa_storage _ _ _ _ _ _ _ HS), (sa_height _ _ _ _ _ _ _ HS), (sa_time _ _ _ _ _ _ _ HS). by destruct o.
Qed.

Lemma withdrawn_nil w : withdrawn p w [] w.
Proof.
  split; try done.
  - intros o. split; [intros H; split; [done|apply not_elem_of_nil]|by intros [? _]].
  - intros x d _. cbn. lia.
  - intros d. cbn. lia.
  - intros i a H. by apply elem_of_nil in H.
Qed.

Lemma withdrawn_cons w o w1 os w2 : wf p (w_st w) -> in_book (w_st w) o -> (forall o', o' ∈ os -> in_book (w_st w) o') -> o ∉ os ->
  withdrawn p w [o] w1 -> withdrawn p w1 os w2 -> withdrawn p w (o :: os) w2.
Proof.
  intros Hwf Ho Hos Hn H1 H2. split.
  - intros o'. rewrite (wd_book _ _ _ _ H2), (wd_book _ _ _ _ H1), elem_of_list_singleton, not_elem_of_cons. tauto.
  - intros x d Hx. rewrite (wd_paid _ _ _ _ H2), (wd_paid _ _ _ _ H1) by done. unfold due_to. cbn. lia.
  - intros d. pose proof (wd_kept _ _ _ _ H1 d). pose proof (wd_kept _ _ _ _ H2 d). unfold held_in in *. cbn in *. lia.
  - intros i a Hin Hh. apply elem_of_cons in Hin as [<-|Hin]; [|by apply (wd_nft _ _ _ _ H2 i)].
    rewrite (wd_other _ _ _ _ H2); [by apply (wd_nft _ _ _ _ H1 i); [apply elem_of_list_singleton|]|].
    intros i' a' Hin E1 E2. specialize (Hos _ Hin). cbn in Ho, Hos.
    destruct (wf_ask _ _ Hwf _ _ Ho) as (_&Hi&_). destruct (wf_ask _ _ Hwf _ _ Hos) as (_&Hi'&_).
    rewrite E1, E2, <-Hi in Hi'. subst i'. rewrite Ho in Hos. injection Hos as <-. done.
  - intros c t Hno. rewrite (wd_other _ _ _ _ H2), (wd_other _ _ _ _ H1); [done| |].
    + intros i a <-%elem_of_list_singleton. apply (Hno i). left.
    + intros i a Hin. apply (Hno i). by right.
  - destruct (wd_rest _ _ _ _ H1) as (?&?&?&?&?&?). destruct (wd_rest _ _ _ _ H2) as (?&?&?&?&?&?). split_and!; congruence.
Qed.

Theorem withdraw_any w os : reachable p w -> p_reg_reenters p = false -> NoDup os ->
  (forall o, o ∈ os -> in_book (w_st w) o /\ returnable p o) ->
  exists w', run_txs p (execute p) w (map withdrawal os) = Ok w' /\ reachable p w' /\ withdrawn p w os w'.
Proof.
  intros Hr Hreg Hnd. revert w Hr. induction Hnd as [|o os Hn _ IH]; intros w Hr Hos.
  { exists w. split_and!; [done..|apply withdrawn_nil]. }
  destruct (Hos o) as [Ho Hret]; [left|]. destruct (withdraw_one w o) as (w1&Hrun&Hr1&H1); [done..|].
  destruct (IH w1 Hr1) as (w2&Hruns&Hr2&H2).
  { intros o' Hin. destruct (Hos o') as [Ho' Hret']; [by right|]. split; [|done]. apply (wd_book _ _ _ _ H1). split; [done|].
    intros ->%elem_of_list_singleton. done. }
  exists w2. split_and!; [|done|].
  - destruct o; cbn in Hrun |- *; rewrite Hrun; exact Hruns.
  - eapply withdrawn_cons; try done; [by apply reachable_wf|]. intros o' Hin. apply Hos. by right.
Qed.

(** The whole book. *)
Lemma withdrawn_all w os w' : withdrawn p w os w' -> (forall o, in_book (w_st w) o -> o ∈ os) ->
  s_asks (w_st w') = ∅ /\ s_bids (w_st w') = ∅ /\ s_cbids (w_st w') = ∅.
Proof.
  intros H Hall. split_and!; apply map_empty; intros i; apply eq_None_not_Some; intros [x Hx].
  - assert (in_book (w_st w') (OAsk i x)) as [Hb Hn]%(wd_book _ _ _ _ H) by done. by apply Hn, Hall.
  - assert (in_book (w_st w') (OBid i x)) as [Hb Hn]%(wd_book _ _ _ _ H) by done. by apply Hn, Hall.
  - assert (in_book (w_st w') (OCbid i x)) as [Hb Hn]%(wd_book _ _ _ _ H) by done. by apply Hn, Hall.
Qed.
Theorem withdraw_everything w os : reachable p w -> p_reg_reenters p = false -> NoDup os ->
  (forall o, o ∈ os <-> in_book (w_st w) o) -> (forall o, o ∈ os -> returnable p o) ->
  exists w', run_txs p (execute p) w (map withdrawal os) = Ok w' /\ withdrawn p w os w' /\
    s_asks (w_st w') = ∅ /\ s_bids (w_st w') = ∅ /\ s_cbids (w_st w') = ∅.
Proof.
  intros Hr Hreg Hnd Hall Hret. destruct (withdraw_any w os Hr Hreg Hnd) as (w'&Hrun&_&H).
  { intros o Hin. split; [by apply Hall|by apply Hret]. }
  exists w'. split_and!; try done; apply (withdrawn_all _ _ _ H); intros o Ho; by apply Hall.
Qed.
End V2Drain.
