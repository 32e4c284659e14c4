(** The queue of due auctions of the reserve auction. *)
From stdpp Require Import relations.
From Verif Require Import Base BaseFacts Common Chain ChainFacts LedgerSpec TxSpec QuerySpec RAModel RASpec RAReach RAExamples RARefute
  RAProperties RAExactSpec RAExactProperties RAQueueSpec RAQueue.

(** * C133: nobody waits for ever.  Whatever users and the chain do after the second in which an auction ends, it is
    processed (sold, or postponed because of a halt) before the successful EndBlocks have had room for it and all that were in
    front of it; and it is not left as it was. *)
Theorem C133_no_starvation : forall p lb st n st' a t l,
  ra_history p lb st -> s_auctions st !! (a_coll a, a_tok a) = Some a -> a_end a = Some t ->
  passes p lb (t_seconds t) st n st' -> in_front st a l -> (length l < n)%nat ->
  (exists st1 st2 v now o ms, rtc (ra_call p lb) st st1 /\ s_auctions st1 !! (a_coll a, a_tok a) = Some a /\ t_seconds t < t_seconds now /\
     outcome lb v now (s_config st1) (s_halt st1) a o ms /\ s_auctions st2 !! (a_coll a, a_tok a) = o /\ rtc (ra_call p lb) st2 st') /\
  s_auctions st' !! (a_coll a, a_tok a) <> Some a.
Proof. exact no_starvation. Qed.
Print Assumptions C133_no_starvation.
Theorem C133_front_exists : forall p lb st a, ra_history p lb st -> exists l, in_front st a l.
Proof. exact front_exists. Qed.
Print Assumptions C133_front_exists.
(** On the chain, EndBlock goes through exactly when the first due auctions can all be finished (for any collections; C122 is
    about standard ones only). *)
Theorem C133_end_block_exactly : forall p lb w, ra_reachable p lb w -> t_seconds (w_time w) < U64_MAX ->
  (forall k a, s_auctions (w_st w) !! k = Some a -> due (w_time w) a -> a_coll a <> p_self p) ->
  (exists w', run_sudo p lb w EndBlock = Ok w') <->
  exists l, first_due (w_st w) (w_time w) (cf_max_settle (s_config (w_st w))) l /\
    forall a, a ∈ l -> can_finish p lb (view_of p w) (w_time w) (s_config (w_st w)) (s_halt (w_st w)) a.
Proof. exact end_block_goes. Qed.
Print Assumptions C133_end_block_exactly.
(** When no halt is on record and all due auctions can be finished, so many EndBlocks in a row go through that the auction is
    sold and the NFT is with the winner. *)
Theorem C133_all_settled : forall p lb w n a l, ra_reachable p lb w -> t_seconds (w_time w) < U64_MAX ->
  hm_windows (s_halt (w_st w)) = [] ->
  (forall k b, s_auctions (w_st w) !! k = Some b -> due (w_time w) b ->
     a_coll b <> p_self p /\ can_finish p lb (view_of p w) (w_time w) (s_config (w_st w)) (s_halt (w_st w)) b) ->
  s_auctions (w_st w) !! (a_coll a, a_tok a) = Some a -> due (w_time w) a -> in_front (w_st w) a l ->
  (length l < n * N.to_nat (cf_max_settle (s_config (w_st w))))%nat ->
  exists w', end_blocks p lb n w = Ok w' /\ s_auctions (w_st w') !! (a_coll a, a_tok a) = None /\
    (p_honest p (a_coll a) = true -> exists hb, a_high a = Some hb /\ w_nft w' (a_coll a) (a_tok a) = Some (hb_bidder hb)).
Proof. intros p lb w n a l Hr Ht Hw Hd. apply all_settled. done. Qed.
Print Assumptions C133_all_settled.

(** Three auctions that end in the same second, and room for one per block: the third is sold by the third block, not by the
    second. *)
Definition queue_story : list act := [
  Sudo (UpdateParams (ParamsUpdate None None None None None None (Some 1) None None None));
  Tx "alice" [us 10] (CreateAuction "coll1" "1" (us 100) 60 None);
  Tx "alice" [us 10] (CreateAuction "coll1" "2" (us 100) 60 None);
  Tx "alice" [us 10] (CreateAuction "coll1" "3" (us 100) 60 None);
  Tx "bobby" [us 100] (PlaceBid "coll1" "3");
  Tx "bobby" [us 100] (PlaceBid "coll1" "1");
  Tx "carol" [us 100] (PlaceBid "coll1" "2");
  At (sec 1070)].
Definition w133 : world state := after lib1 rw0 queue_story.
Definition waiting133 (tok : string) (who : addr) : auction :=
  Auction "coll1" tok "alice" (us 100) 60 (Some (sec 1060)) None (Some (HighBid (us 100) who)) (Some (sec 1000)).
Lemma w133_reachable : ra_reachable p1 lib1 w133.
Proof. apply after_reachable; [apply rw0_reachable|by vm_compute]. Qed.
Lemma w133_auctions k b : s_auctions (w_st w133) !! k = Some b -> b ∈ [waiting133 "1" "bobby"; waiting133 "2" "carol"; waiting133 "3" "bobby"].
Proof.
  intros H%elem_of_map_to_list. apply (elem_of_list_fmap_1 snd) in H. cbn [snd] in H.
  assert ((map_to_list (s_auctions (w_st w133))).*2 = [waiting133 "2" "carol"; waiting133 "1" "bobby"; waiting133 "3" "bobby"]) as E by (vm_compute; reflexivity).
  rewrite E in H. rewrite !elem_of_cons, elem_of_nil in *. tauto.
Qed.
Lemma w133_front : in_front (w_st w133) (waiting133 "3" "bobby") [waiting133 "1" "bobby"; waiting133 "2" "carol"].
Proof.
  split; [apply NoDup_cons; split; [set_solver|apply NoDup_singleton]|]. intros b. split.
  - intros H. repeat (apply elem_of_cons in H as [->|H]; [split; [by vm_compute|]; right; split; [done|]; right; split; [done|]; right; split; [done|by vm_compute]|]).
    by apply elem_of_nil in H.
  - intros [H1 H2]. apply w133_auctions in H1. repeat (apply elem_of_cons in H1 as [->|H1]; [|]); [set_solver|set_solver| |by apply elem_of_nil in H1].
    exfalso. revert H2. apply RAIndex.end_before_irrefl.
Qed.
Lemma w133_finish k b : s_auctions (w_st w133) !! k = Some b ->
  a_coll b <> p_self p1 /\ can_finish p1 lib1 (view_of p1 w133) (w_time w133) (s_config (w_st w133)) (s_halt (w_st w133)) b.
Proof.
  intros H%w133_auctions.
  assert (forall tok who, can_finish p1 lib1 (view_of p1 w133) (w_time w133) (s_config (w_st w133)) (s_halt (w_st w133)) (waiting133 tok who)) as Hf.
  { intros tok who. exists (sec 1060). split; [done|]. split; [by vm_compute|]. right. split; [apply not_halted; by vm_compute|].
    split.
    { unfold royalty_known. cbn [a_coll waiting133].
      assert (q_info (view_of p1 w133) "coll1" = Some (CollectionInfo None (Some ("royal", 50000000000000000)))) as -> by (vm_compute; reflexivity).
      by intros to share [= <- <-]. }
    exists (HighBid (us 100) who), (SaleSplit 2 5 93 "royal"). split; [done|]. split; [done|]. split; [by vm_compute|]. by vm_compute. }
  repeat (apply elem_of_cons in H as [->|H]; [by split; [|apply Hf]|]). by apply elem_of_nil in H.
Qed.
Example C133_case :
  ra_reachable p1 lib1 w133 /\ hm_windows (s_halt (w_st w133)) = [] /\
  s_auctions (w_st w133) !! ("coll1", "3") = Some (waiting133 "3" "bobby") /\ due (w_time w133) (waiting133 "3" "bobby") /\
  in_front (w_st w133) (waiting133 "3" "bobby") [waiting133 "1" "bobby"; waiting133 "2" "carol"] /\
  cf_max_settle (s_config (w_st w133)) = 1 /\
  (exists w', end_blocks p1 lib1 3 w133 = Ok w' /\ s_auctions (w_st w') !! ("coll1", "3") = None /\ w_nft w' "coll1" "3" = Some "bobby") /\
  match end_blocks p1 lib1 2 w133 with Ok w' => w_nft w' "coll1" "3" = Some "aucti" | Err _ => False end.
Proof.
  split; [exact w133_reachable|]. split; [by vm_compute|]. split; [by vm_compute|]. split; [exists (sec 1060); split; [done|by vm_compute]|].
  split; [exact w133_front|]. split; [by vm_compute|]. split; [|by vm_compute].
  destruct (C133_all_settled p1 lib1 w133 3 (waiting133 "3" "bobby") [waiting133 "1" "bobby"; waiting133 "2" "carol"]) as (w'&Hr&Hg&Hn).
  - exact w133_reachable.
  - by vm_compute.
  - by vm_compute.
  - intros k b Hb _. by eapply w133_finish.
  - by vm_compute.
  - exists (sec 1060). split; [done|by vm_compute].
  - exact w133_front.
  - assert (cf_max_settle (s_config (w_st w133)) = 1) as -> by by vm_compute. cbn. lia.
  - exists w'. split; [done|]. split; [done|]. destruct Hn as (hb&[= <-]&Hn); [done|]. exact Hn.
Qed.
(** The same on the storage. *)
Definition end_of (st : state) : state :=
  match sudo p1 lib1 (view_of p1 w133) (env_of w133) st EndBlock with Ok (st', _) => st' | Err _ => st end.
Lemma end_of_passes st n st' k : is_ok (sudo p1 lib1 (view_of p1 w133) (env_of w133) st EndBlock) = true -> cf_max_settle (s_config st) = k ->
  passes p1 lib1 1060 (end_of st) n st' -> passes p1 lib1 1060 st (N.to_nat k + n) st'.
Proof.
  intros H <- Hp. unfold end_of in Hp. destruct (sudo p1 lib1 (view_of p1 w133) (env_of w133) st EndBlock) as [[st1 ms]|] eqn:E; [|done].
  eapply passes_end; [|exact E|exact Hp]. by vm_compute.
Qed.
Example C133_case_passes : ra_history p1 lib1 (w_st w133) /\ a_end (waiting133 "3" "bobby") = Some (sec 1060) /\
  exists st', passes p1 lib1 (t_seconds (sec 1060)) (w_st w133) 3 st'.
Proof.
  split; [apply reachable_history, w133_reachable|]. split; [done|].
  assert (t_seconds (sec 1060) = 1060) as -> by by vm_compute. eexists.
  apply (end_of_passes _ 2 _ 1); [by vm_compute|by vm_compute|]. apply (end_of_passes _ 1 _ 1); [by vm_compute|by vm_compute|].
  apply (end_of_passes _ 0 _ 1); [by vm_compute|by vm_compute|]. apply passes_none.
Qed.
