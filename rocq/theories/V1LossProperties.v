(** Nobody loses coins to transactions of others but for an NFT or a stale bid, in v1 (C169 of properties.jsonl).  What the theorems rest
    on is printed beneath, and an example shows a concrete case meeting their hypotheses. *)
From stdpp Require Import relations.
From Verif Require Import Base BaseFacts Common Chain ChainFacts LedgerSpec Ledger TxSpec TxFacts LossFacts V1Model V1Spec V1Facts V1Inv V1Reach V1Hooks V1Live V1Exact V1Examples
  V1Properties V1LedgerSpec V1Ledger V1Tx V1TxProperties V1LossSpec.

Lemma sent_take u d n ms : sent_to u d (take n ms) <= sent_to u d ms.
Proof. rewrite <- (take_drop n ms) at 2. unfold sent_to. rewrite sum_over_app. lia. Qed.
Lemma once p x w sender funds m st' ms : v1_reachable p x w -> no_overflow (env_of w) funds (w_st w) ->
  execute p x (view_of p w) (env_of w) sender funds (w_st w) m = Ok (st', ms) -> NoDup (honest_out p ms).
Proof.
  intros Hr Ho He. rewrite execute_of_sub in He. destruct (execute_sub _ _ _ _ _ _ _ _) as [[st1 ms1]|] eqn:E; [|done]. injection He as <- <-.
  rewrite honest_erase. eapply does_nodup. apply does_exact; [by apply reachable_history|exact Ho|exact E].
Qed.

(** * C169 *)
(** A transaction of somebody else costs an account nothing if no NFT is sent, but for the reward when a stale bid of it is removed;
    otherwise at most the bids of it that leave the book. *)
Theorem C169_v1_kept : forall p x w sender funds m w' u d, v1_reachable p x w -> u <> sender -> u <> p_self p ->
  run_tx p (execute p x) w sender funds m = Ok w' ->
  exists msgs, execute p x (view_of p w) (env_of w) sender funds (w_st w) m = Ok (w_st w', msgs) /\
    let h := User sender funds m (w_st w) (w_st w') msgs in
    worth u d w <= worth u d w' + (if sells h then taken u d w w' else 0) + rewarded u d h.
Proof.
  intros p x w sender funds m w' u d Hr Hs Hu ([Hn _]&st'&ms&He&H)%run_tx_settled. exists ms. cbv zeta. unfold worth, taken.
  rewrite (sa_storage _ _ _ _ _ _ _ H). split; [done|]. rewrite (bank_kept _ _ _ _ _ _ _ u d H Hs Hu).
  pose proof (step_books p x u d _ _ _ (reachable_history p x w Hr) (rec_user p x _ _ _ _ _ _ _ _ Hn He)) as E.
  unfold paid_in, paid_back, spent, own in E. cbn [e_msgs e_before e_after] in E. rewrite bool_decide_eq_false_2 in E by done. cbn [andb] in E.
  pose proof (sent_take u d 1 ms) as Hb. destruct (returns _ _); lia.
Qed.
Print Assumptions C169_v1_kept.
(** Whoever loses a bid to a sale has the NFT. *)
Theorem C169_v1_bid_for_nft : forall p x w sender funds m w' k b, v1_reachable p x w -> no_overflow (env_of w) funds (w_st w) ->
  run_tx p (execute p x) w sender funds m = Ok w' -> s_bids (w_st w) !! k = Some b -> s_bids (w_st w') !! k = None ->
  b_bidder b <> sender -> p_honest p (b_coll b) = true ->
  exists msgs, execute p x (view_of p w) (env_of w) sender funds (w_st w) m = Ok (w_st w', msgs) /\
    (sells (User sender funds m (w_st w) (w_st w') msgs) = true -> w_nft w' (b_coll b) (tok_str (b_tok b)) = Some (b_bidder b)).
Proof.
  intros p x w sender funds m w' k b Hr Hov ([Hn _]&st'&ms&He&H)%run_tx_settled Hb Hb' Hc Hho. exists ms.
  rewrite (sa_storage _ _ _ _ _ _ _ H) in Hb' |- *. split; [done|]. intros Hse. destruct (history_trace p x _ (reachable_history p x w Hr)) as [l Ht].
  assert (trace p x st' (l ++ [User sender funds m (w_st w) st' ms])) as Ht' by (eapply tr_next; [exact Ht|by econstructor]).
  eapply delivered; [exact H|done|by eapply once|].
  assert (own (b_bidder b) (User sender funds m (w_st w) st' ms) = false) as Ho by (cbn [own]; by rewrite bool_decide_eq_false_2).
  pose proof (bid_left p x _ _ (User sender funds m (w_st w) st' ms) k b Ht' ltac:(apply elem_of_app; right; left) Ho Hb Hb') as Hd.
  rewrite Hse in Hd. by destruct Hd.
Qed.
Print Assumptions C169_v1_bid_for_nft.
Theorem C169_v1_collection_bid_for_nft : forall p x w sender funds m w' k b, v1_reachable p x w -> no_overflow (env_of w) funds (w_st w) ->
  run_tx p (execute p x) w sender funds m = Ok w' -> s_cbids (w_st w) !! k = Some b -> s_cbids (w_st w') !! k = None ->
  cb_bidder b <> sender -> p_honest p (cb_coll b) = true ->
  exists msgs, execute p x (view_of p w) (env_of w) sender funds (w_st w) m = Ok (w_st w', msgs) /\
    (sells (User sender funds m (w_st w) (w_st w') msgs) = true -> exists t, w_nft w' (cb_coll b) (tok_str t) = Some (cb_bidder b)).
Proof.
  intros p x w sender funds m w' k b Hr Hov ([Hn _]&st'&ms&He&H)%run_tx_settled Hb Hb' Hc Hho. exists ms.
  rewrite (sa_storage _ _ _ _ _ _ _ H) in Hb' |- *. split; [done|]. intros Hse. destruct (history_trace p x _ (reachable_history p x w Hr)) as [l Ht].
  assert (trace p x st' (l ++ [User sender funds m (w_st w) st' ms])) as Ht' by (eapply tr_next; [exact Ht|by econstructor]).
  assert (own (cb_bidder b) (User sender funds m (w_st w) st' ms) = false) as Ho by (cbn [own]; by rewrite bool_decide_eq_false_2).
  pose proof (cbid_left p x _ _ (User sender funds m (w_st w) st' ms) k b Ht' ltac:(apply elem_of_app; right; left) Ho Hb Hb') as Hd.
  rewrite Hse in Hd. destruct Hd as [[t Hm] _]. exists t. eapply delivered; [exact H|done|by eapply once|exact Hm].
Qed.
Print Assumptions C169_v1_collection_bid_for_nft.

(** Carol buys the NFT that bobby bid for: bobby loses nothing.  Alice takes bobby's bid of 950: bobby loses 950 and has the NFT. *)
Example C169_v1_case x : v1_reachable p1 x (vw1 x) /\ no_overflow (env_of (vw1 x)) [] (w_st (vw1 x)) /\ p_honest p1 "coll1" = true /\
  s_bids (w_st (vw1 x)) !! ("coll1", 1, "bobby") = Some bid1 /\
  is_ok (run_tx p1 (execute p1 x) (vw1 x) "carol" [us 1000] buy1) = true /\
  is_ok (run_tx p1 (execute p1 x) (vw1 x) "alice" [] (AcceptBid "coll1" 1 "bobby" None)) = true /\
  let w' := after x (vw1 x) [Tx "carol" [us 1000] buy1] in let w'' := after x (vw1 x) [Tx "alice" [] (AcceptBid "coll1" 1 "bobby" None)] in
  worth "bobby" "ustars" w' = worth "bobby" "ustars" (vw1 x) /\ taken "bobby" "ustars" (vw1 x) w' = 0 /\
  worth "bobby" "ustars" (vw1 x) = worth "bobby" "ustars" w'' + 950 /\ taken "bobby" "ustars" (vw1 x) w'' = 950 /\ w_nft w'' "coll1" "1" = Some "bobby".
Proof.
  split; [apply vw1_reachable|]. split; [apply no_overflow_by; by vm_compute|]. split; [done|]. split; [by vm_compute|].
  split; [by vm_compute|]. split; [by vm_compute|]. cbv zeta. split_and!; by vm_compute.
Qed.
