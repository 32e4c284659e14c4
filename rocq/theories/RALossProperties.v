(** Nobody loses coins to transactions of others but for an NFT, in the reserve auction (C169 of properties.jsonl).  What the theorems
    rest on is printed beneath, and an example shows a concrete case meeting their hypotheses. *)
From stdpp Require Import relations.
From Verif Require Import Base BaseFacts Common Chain ChainFacts LedgerSpec Ledger TxSpec TxFacts LossFacts QuerySpec RAModel RASpec RAFacts RAInv RAReach
  RAExamples RAProperties RAExactSpec RAExact RALedgerSpec RALedger RATx RATxProperties RALossSpec.

Lemma sudo_settled p lb w m w' : run_sudo p lb w m = Ok w' -> exists st' ms,
  sudo p lb (view_of p w) (env_of w) (w_st w) m = Ok (st', ms) /\ settled_as p w (p_self p) [] st' ms w'.
Proof.
  intros H. unfold run_sudo in H. apply bind_Ok in H as ([st' ms]&He&H). exists st', ms. split; [done|]. cbn [fst snd] in H.
  apply run_msgs_settled in H as (H1&H2&H3&H4&H5&H6&H7&H8). constructor; try done.
  intros x d. specialize (H2 x d). cbn [w_bank set_st] in H2. rewrite coins_of_nil. destruct (decide (x = p_self p)); lia.
Qed.
Lemma back_sent u d h : bid_back u d h <= sent_to u d (e_msgs h).
Proof. unfold bid_back. destruct h as [? ? m ? ? ?|]; [destruct m|]; cbn [e_msgs]; lia. Qed.
Lemma in_nothing u d s f m st st' ms : u <> s -> bid_in u d (User s f m st st' ms) = 0.
Proof. intros H. unfold bid_in. destruct m; try done. by rewrite decide_False. Qed.

(** * C169 *)
(** A transaction of somebody else, or a block hook, costs an account at most what it led with in the auctions that are over now. *)
Theorem C169_ra_kept : forall p lb w sender funds m w' u d, ra_reachable p lb w -> u <> sender -> u <> p_self p ->
  run_tx p (execute p lb) w sender funds m = Ok w' -> worth u d w <= worth u d w' + taken u d w w'.
Proof.
  intros p lb w sender funds m w' u d Hr Hs Hu ([Hn _]&st'&ms&He&H)%run_tx_settled. unfold worth, taken. rewrite (sa_storage _ _ _ _ _ _ _ H).
  rewrite (bank_kept _ _ _ _ _ _ _ u d H Hs Hu).
  pose proof (step_books p lb u d _ _ _ (reachable_history p lb w Hr) (rec_user p lb _ _ _ _ _ _ _ _ Hn He)) as E.
  pose proof (back_sent u d (User sender funds m (w_st w) st' ms)) as Hb. unfold won in E. cbn [e_before e_after e_msgs] in E, Hb. lia.
Qed.
Print Assumptions C169_ra_kept.
Theorem C169_ra_block_kept : forall p lb w m w' u d, ra_reachable p lb w -> u <> p_self p ->
  run_sudo p lb w m = Ok w' -> worth u d w <= worth u d w' + taken u d w w'.
Proof.
  intros p lb w m w' u d Hr Hu (st'&ms&He&H)%sudo_settled. unfold worth, taken. rewrite (sa_storage _ _ _ _ _ _ _ H).
  rewrite (bank_kept _ _ _ _ _ _ _ u d H Hu Hu).
  pose proof (step_books p lb u d _ _ _ (reachable_history p lb w Hr) (rec_chain p lb _ _ _ _ _ _ He)) as E.
  pose proof (back_sent u d (Chain m (w_st w) st' ms)) as Hb. unfold won in E. cbn [e_before e_after e_msgs] in E, Hb. lia.
Qed.
Print Assumptions C169_ra_block_kept.
(** Whoever led an auction that is over has the NFT. *)
Theorem C169_ra_bid_for_nft : forall p lb w w' k a hb, ra_reachable p lb w ->
  ((exists sender funds m, run_tx p (execute p lb) w sender funds m = Ok w') \/ (exists m, run_sudo p lb w m = Ok w')) ->
  s_auctions (w_st w) !! k = Some a -> s_auctions (w_st w') !! k = None -> a_high a = Some hb -> p_honest p k.1 = true ->
  w_nft w' k.1 k.2 = Some (hb_bidder hb).
Proof.
  intros p lb w w' k a hb Hr Hw Ha Ha' Hhi Hho. pose proof (reachable_history p lb w Hr) as Hh. destruct (history_trace p lb _ Hh) as [l Ht].
  destruct Hw as [(sender&funds&m&([Hn _]&st'&ms&He&H)%run_tx_settled)|(m&(st'&ms&He&H)%sudo_settled)];
    rewrite (sa_storage _ _ _ _ _ _ _ H) in Ha'; (eapply delivered; [exact H|done| |]).
  - eapply calls_nft. by apply (calls_sound p lb _ Hh) in He.
  - refine (won_delivered p lb st' (l ++ [User sender funds m (w_st w) st' ms]) (User sender funds m (w_st w) st' ms) k hb _ _ _).
    + eapply tr_next; [exact Ht|]. by econstructor.
    + apply elem_of_app. right. left.
    + by exists a.
  - eapply sudo_nft; [|exact He]. by eapply reachable_wf.
  - refine (won_delivered p lb st' (l ++ [Chain m (w_st w) st' ms]) (Chain m (w_st w) st' ms) k hb _ _ _).
    + eapply tr_next; [exact Ht|]. by econstructor.
    + apply elem_of_app. right. left.
    + by exists a.
Qed.
Print Assumptions C169_ra_bid_for_nft.

(** Bobby outbids carol, who owns as much as before.  Or the auction ends: carol loses 105 and has the NFT. *)
Example C169_ra_case : ra_reachable p1 lib1 w1 /\ ra_reachable p1 lib1 w_over /\
  is_ok (run_tx p1 (execute p1 lib1) w1 "bobby" [us 111] (PlaceBid "coll1" "1")) = true /\ is_ok (run_sudo p1 lib1 w_over EndBlock) = true /\
  worth "carol" "ustars" outbid = worth "carol" "ustars" w1 /\ taken "carol" "ustars" w1 outbid = 0 /\
  worth "carol" "ustars" w_over = worth "carol" "ustars" ended131 + 105 /\ taken "carol" "ustars" w_over ended131 = 105 /\
  p_honest p1 "coll1" = true /\ w_nft ended131 "coll1" "1" = Some "carol".
Proof. split; [exact w1_reachable|]. split; [exact w_over_reachable|]. split_and!; by vm_compute. Qed.
