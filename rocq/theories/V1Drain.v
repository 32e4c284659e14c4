(** Proofs for C141 (V1DrainSpec): the withdrawals of any bids go through one after the other, in any order. *)
From stdpp Require Import relations.
From Verif Require Import Base BaseFacts Common Chain ChainFacts LedgerSpec TxSpec TxFacts V1Model V1Spec V1Facts
  V1Inv V1Reach V1Hooks V1Ledger V1DrainSpec.

Section V1Drain.
Context (p : params) (x : ext).

Definition without (st : state) (o : order) : state :=
  match o with OBid b => remove_bid st (b_coll b) (b_tok b) (b_bidder b) | OCbid b => remove_cbid st (cb_coll b) (cb_bidder b) end.
Definition told_of (st : state) (o : order) : list addr := match o with OBid _ => s_bid_hooks st | OCbid _ => s_cbid_hooks st end.
Definition given_back (st : state) (o : order) : list cmsg := MSend (bidder_of o) [Coin NATIVE_DENOM (price_of o)] :: hook_msgs (told_of st o).
Definition call_of (o : order) : msg := snd (withdrawal o).

Lemma withdrawal_call v e st o : wf p st -> in_book st o ->
  execute p x v e (bidder_of o) [] st (call_of o) = Ok (without st o, given_back st o).
Proof.
  intros Hwf Ho. rewrite execute_of_sub. destruct o as [b|b]; cbn in Ho |- *.
  - destruct (wf_bid _ _ Hwf _ _ Ho) as (_&_&_&Hv&_). unfold addr_validate. rewrite Hv. cbn. unfold execute_remove_bid. cbn. rewrite Ho. cbn.
    unfold prepare_bid_hook, prepare. by rewrite erase_hooks.
  - destruct (wf_cbid _ _ Hwf _ _ Ho) as (_&_&_&Hv&_). unfold addr_validate. rewrite Hv. cbn. unfold execute_remove_collection_bid. cbn. rewrite Ho. cbn.
    unfold prepare_cbid_hook, prepare. by rewrite erase_hooks.
Qed.
Lemma order_fine st o : wf p st -> in_book st o -> bidder_of o <> p_self p /\ 0 < price_of o.
Proof.
  intros Hwf Ho. destruct o as [b|b]; cbn in Ho |- *.
  - by destruct (wf_bid _ _ Hwf _ _ Ho) as (_&?&?&_).
  - by destruct (wf_cbid _ _ Hwf _ _ Ho) as (_&?&?&_).
Qed.
Lemma in_book_without st o o' : in_book st o -> in_book (without st o) o' <-> in_book st o' /\ o' <> o.
Proof.
  intros Ho. destruct o as [b|b], o' as [b'|b']; cbn in *; rewrite ?lookup_delete_Some;
    try (by split; [intros H; split|intros [? _]]).
  all: split; [intros [Hi H]; split; [done|]; intros [= ->]; by apply Hi|].
  all: intros [H Hne]; split; [|done]; intros E; apply Hne; rewrite <-E, Ho in H; injection H as ->; done.
Qed.
Lemma hooks_moved c t hs : moved_to c t (hook_msgs hs) = None.
Proof. induction hs as [|h hs IH]; [done|]. unfold hook_msgs in *. cbn [map]. by rewrite moved_to_cons, IH. Qed.
Lemma hooks_sent y d hs : sent_to y d (hook_msgs hs) = 0.
Proof. induction hs as [|h hs IH]; [done|]. exact IH. Qed.

Lemma withdraw_one w o : v1_reachable p x w -> in_book (w_st w) o -> p_blocked p (bidder_of o) = false ->
  exists w', run_tx p (execute p x) w (bidder_of o) [] (call_of o) = Ok w' /\ v1_reachable p x w' /\ withdrawn p w [o] w'.
Proof.
  intros Hr Ho Hret. pose proof (reachable_wf _ _ _ Hr) as Hwf.
  pose proof (withdrawal_call (view_of p w) (env_of w) _ _ Hwf Ho) as He.
  destruct (order_fine _ _ Hwf Ho) as [Hns Hpos].
  assert (exists w', run_tx p (execute p x) w (bidder_of o) [] (call_of o) = Ok w') as [w' Hrun].
  { apply run_tx_ok.
    - intros st' msgs _ He'. rewrite He in He'. injection He' as <- <-. split.
      + unfold given_back, honest_out. cbn. induction (told_of (w_st w) o); [constructor|done].
      + intros d. pose proof (execute_liab _ _ _ _ _ _ _ _ _ _ d Hwf He) as Hl. destruct (reachable_solvent _ _ _ Hr) as [_ Hb]. specialize (Hb d).
        rewrite leaving_out, coins_of_amt. lia.
    - split; [split; [done|intros d; rewrite coins_of_nil; lia]|]. eexists _, _. split; [exact He|]. unfold given_back. constructor.
      + cbn. split; [done|]. split; [|done]. by repeat constructor.
      + unfold hook_msgs. induction (told_of (w_st w) o); constructor; done. }
  exists w'. split; [done|]. split.
  { destruct Hr as (w0&Hi&Hs). exists w0. split; [done|]. eapply rtc_r; [done|]. eapply step_tx. by apply run_tx_sound. }
  apply run_tx_settled in Hrun as (_&st'&msgs&He'&HS). rewrite He in He'. injection He' as <- <-.
  assert (forall d, leaving d (given_back (w_st w) o) = of_denom d (Coin "ustars" (price_of o))) as HL.
  { intros d. change (coins_of d [Coin "ustars" (price_of o)] + leaving d (hook_msgs (told_of (w_st w) o)) = of_denom d (Coin "ustars" (price_of o))).
    rewrite leaving_hooks. unfold coins_of. cbn [sum_over]. lia. }
  assert (forall y d, sent_to y d (given_back (w_st w) o) = if decide (bidder_of o = y) then of_denom d (Coin "ustars" (price_of o)) else 0) as HT.
  { intros y d.
    change ((if decide (bidder_of o = y) then coins_of d [Coin "ustars" (price_of o)] else 0) + sent_to y d (hook_msgs (told_of (w_st w) o)) =
      if decide (bidder_of o = y) then of_denom d (Coin "ustars" (price_of o)) else 0).
    rewrite hooks_sent. unfold coins_of. cbn [sum_over]. case_decide; lia. }
  split.
  - intros o'. rewrite (sa_storage _ _ _ _ _ _ _ HS), in_book_without by done. by rewrite elem_of_list_singleton.
  - intros y d Hy. pose proof (sa_bank _ _ _ _ _ _ _ HS y d) as HB. rewrite !(decide_False (P := y = p_self p)) in HB by done.
    rewrite coins_of_nil, HT in HB. unfold due_to. cbn [sum_over]. destruct (decide (y = bidder_of o)); lia.
  - intros d. pose proof (sa_bank _ _ _ _ _ _ _ HS (p_self p) d) as HB. rewrite !(decide_True (P := p_self p = p_self p)) in HB by done.
    rewrite coins_of_nil, HL, HT, (decide_False (P := bidder_of o = p_self p)) in HB by done. unfold held_in. cbn [sum_over]. case_decide; lia.
  - intros c t. rewrite (sa_nft _ _ _ _ _ _ _ HS). unfold given_back. by rewrite moved_to_cons, hooks_moved.
  - rewrite (sa_storage _ _ _ _ _ _ _ HS), (sa_height _ _ _ _ _ _ _ HS), (sa_time _ _ _ _ _ _ _ HS). by destruct o.
Qed.

Lemma withdrawn_nil w : withdrawn p w [] w.
Proof.
  split; try done.
  - intros o. split; [intros H; split; [done|apply not_elem_of_nil]|by intros [? _]].
  - intros y d _. cbn. lia.
  - intros d. cbn. lia.
Qed.
Lemma withdrawn_cons w o w1 os w2 : withdrawn p w [o] w1 -> withdrawn p w1 os w2 -> withdrawn p w (o :: os) w2.
Proof.
  intros H1 H2. split.
  - intros o'. rewrite (wd_book _ _ _ _ H2), (wd_book _ _ _ _ H1), elem_of_list_singleton, not_elem_of_cons. tauto.
  - intros y d Hy. rewrite (wd_paid _ _ _ _ H2), (wd_paid _ _ _ _ H1) by done. unfold due_to. cbn. lia.
  - intros d. pose proof (wd_kept _ _ _ _ H1 d). pose proof (wd_kept _ _ _ _ H2 d). unfold held_in in *. cbn in *. lia.
  - intros c t. by rewrite (wd_nft _ _ _ _ H2), (wd_nft _ _ _ _ H1).
  - destruct (wd_rest _ _ _ _ H1) as (?&?&?&?&?&?&?). destruct (wd_rest _ _ _ _ H2) as (?&?&?&?&?&?&?). split_and!; congruence.
Qed.

Theorem withdraw_any w os : v1_reachable p x w -> NoDup os ->
  (forall o, o ∈ os -> in_book (w_st w) o /\ p_blocked p (bidder_of o) = false) ->
  exists w', run_txs p (execute p x) w (map withdrawal os) = Ok w' /\ v1_reachable p x w' /\ withdrawn p w os w'.
Proof.
  intros Hr Hnd. revert w Hr. induction Hnd as [|o os Hn _ IH]; intros w Hr Hos.
  { exists w. split_and!; [done..|apply withdrawn_nil]. }
  destruct (Hos o) as [Ho Hret]; [left|]. destruct (withdraw_one w o) as (w1&Hrun&Hr1&H1); [done..|].
  destruct (IH w1 Hr1) as (w2&Hruns&Hr2&H2).
  { intros o' Hin. destruct (Hos o') as [Ho' Hret']; [by right|]. split; [|done]. apply (wd_book _ _ _ _ H1). split; [done|].
    intros ->%elem_of_list_singleton. done. }
  exists w2. split_and!; [|done|by eapply withdrawn_cons].
  cbn [map withdrawal run_txs]. destruct o; cbn in Hrun |- *; rewrite Hrun; exact Hruns.
Qed.
Theorem withdraw_everything w os : v1_reachable p x w -> NoDup os -> (forall o, o ∈ os <-> in_book (w_st w) o) ->
  (forall o, o ∈ os -> p_blocked p (bidder_of o) = false) ->
  exists w', run_txs p (execute p x) w (map withdrawal os) = Ok w' /\ withdrawn p w os w' /\ s_bids (w_st w') = ∅ /\ s_cbids (w_st w') = ∅.
Proof.
  intros Hr Hnd Hall Hret. destruct (withdraw_any w os Hr Hnd) as (w'&Hrun&Hr'&H).
  { intros o Hin. split; [by apply Hall|by apply Hret]. }
  exists w'. pose proof (reachable_wf _ _ _ Hr') as Hwf. split_and!; try done; apply map_empty; intros k; apply eq_None_not_Some; intros [b Hb].
  - destruct (wf_bid _ _ Hwf _ _ Hb) as (->&_). assert (in_book (w_st w') (OBid b)) as [Ho Hn]%(wd_book _ _ _ _ H) by done. by apply Hn, Hall.
  - destruct (wf_cbid _ _ Hwf _ _ Hb) as (->&_). assert (in_book (w_st w') (OCbid b)) as [Ho Hn]%(wd_book _ _ _ _ H) by done. by apply Hn, Hall.
Qed.
End V1Drain.
