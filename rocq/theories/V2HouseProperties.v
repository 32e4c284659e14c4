(** Who trades what at which price depends on the orders alone (C161 of properties.jsonl).  The theorem is closed by a lemma proved elsewhere;
    what it rests on is printed beneath it, and an example shows a concrete case meeting its hypotheses. *)
From stdpp Require Import relations.
From Verif Require Import Base BaseFacts Common Chain ChainFacts QuerySpec V2Model V2Spec V2Facts V2Inv V2Reach V2Examples
  V2Properties V2ExactSpec V2Exact V2ExactProperties V2Change V2HouseSpec V2House.

(** * C161 *)
(** Two storages with the same orders, whatever their fees, denoms and configuration, and whatever the other contracts answer: if a call
    succeeds in both, then it leaves the same orders, moves the same NFTs to the same people and pays out the same amounts in total. *)
Theorem C161_same_trade : forall p n1 n2 st1 st2 v1 v2 e1 e2 sender funds m st1' st2' msgs1 msgs2,
  collision_free p -> prefix_free p -> slash_free p -> N.of_nat n1 < U64_MAX -> N.of_nat n2 < U64_MAX ->
  v2_history p n1 st1 -> v2_history p n2 st2 -> small_history p st1 -> small_history p st2 -> small_call funds m ->
  same_book st1 st2 -> e_height e1 = e_height e2 ->
  execute p v1 e1 sender funds st1 m = Ok (st1', msgs1) -> execute p v2 e2 sender funds st2 m = Ok (st2', msgs2) ->
  same_book st1' st2' /\ nft_moves msgs1 = nft_moves msgs2 /\ forall d, paid_out msgs1 d = paid_out msgs2 d.
Proof. intros p n1 n2 st1 st2 v1 v2 e1 e2 sender funds m st1' st2' msgs1 msgs2 Hcf Hpf Hsl. by apply same_trade. Qed.
Print Assumptions C161_same_trade.

(** The admin raises the fee to 5% and the maker's and taker's parts, and the collection stops advertising its royalty.  Carol buys token 1 for
    1000 as before: the payments are different, the trade is the same.  Bobby's raised bid rests in both cases. *)
Definition dear : config := Config "feemg" "regis" 500 1000 1000 1500 "ustars".
Definition st1c : state := state_of (call1 "admin" [] (UpdateConfig dear)).
Definition no_royalty : view := View (q_owner (view_of p0 w1)) (q_approval (view_of p0 w1)) (fun _ => None) (q_royalty (view_of p0 w1)) (q_admin (view_of p0 w1)).
Definition calm (who : addr) (funds : list coin) (m : msg) : result (state * list cmsg) :=
  execute p0 no_royalty (env_of w1) who funds st1c m.
Lemma st1c_run : exists ms, execute p0 (view_of p0 w1) (env_of w1) "admin" [] st1 (UpdateConfig dear) = Ok (st1c, ms).
Proof.
  exists (msgs_of (call1 "admin" [] (UpdateConfig dear))). unfold st1c.
  change (execute p0 (view_of p0 w1) (env_of w1) "admin" [] st1 (UpdateConfig dear)) with (call1 "admin" [] (UpdateConfig dear)).
  assert (is_ok (call1 "admin" [] (UpdateConfig dear)) = true) as E by by vm_compute.
  destruct (call1 "admin" [] (UpdateConfig dear)) as [[a b]|]; [done|discriminate E].
Qed.
Lemma st1c_history : v2_history p0 5 st1c.
Proof.
  destruct st1_history as (c&s0&Hi&H). destruct st1c_run as [ms Hr]. exists c, s0. split; [done|].
  apply (nsteps_r 4 _ _ _ H). by exists (view_of p0 w1), (env_of w1), "admin", [], (UpdateConfig dear), ms.
Qed.
Lemma st1c_small : small_history p0 st1c.
Proof. destruct st1c_run as [ms Hr]. eapply small_next; [exact st1_small| | |exact Hr]; [done|]. by split; [constructor|intros c [=]]. Qed.
Lemma st1c_book : same_book st1 st1c.
Proof. destruct st1c_run as [ms Hr]. eapply admin_book in Hr; [by apply Hr|done]. Qed.
Example C161_case :
  collision_free p0 /\ prefix_free p0 /\ slash_free p0 /\ N.of_nat 5 < U64_MAX /\
  v2_history p0 4 st1 /\ v2_history p0 5 st1c /\ small_history p0 st1 /\ small_history p0 st1c /\
  small_call [us 1000] (AcceptAsk ask1_id (det 1000)) /\ same_book st1 st1c /\
  (let one := call1 "carol" [us 1000] (AcceptAsk ask1_id (det 1000)) in
   let two := calm "carol" [us 1000] (AcceptAsk ask1_id (det 1000)) in
   is_ok one = true /\ is_ok two = true /\ MSend "royal" [us 50] ∈ msgs_of one /\ length (msgs_of one) <> length (msgs_of two) /\
   nft_moves (msgs_of one) = [("coll1", "1", "carol")] /\ nft_moves (msgs_of two) = [("coll1", "1", "carol")] /\
   paid_out (msgs_of one) "ustars" = 1000 /\ paid_out (msgs_of two) "ustars" = 1000 /\
   map_to_list (s_asks (state_of one)) = map_to_list (s_asks (state_of two))) /\
  (let one := call1 "bobby" [us 100] (UpdateBid bid_id (det 850)) in
   let two := calm "bobby" [us 100] (UpdateBid bid_id (det 850)) in
   is_ok one = true /\ is_ok two = true /\ msgs_of one = msgs_of two /\
   map_to_list (s_bids (state_of one)) = map_to_list (s_bids (state_of two))).
Proof.
  split; [exact p0_collision_free|]. split; [exact p0_prefix_free|]. split; [exact p0_slash_free|]. split; [by vm_compute|].
  split; [exact st1_history|]. split; [exact st1c_history|]. split; [exact st1_small|]. split; [exact st1c_small|].
  split. { split; [apply Forall_singleton|intros c [= <-]]; unfold small, us; cbn [c_amount d_price det us]; lia. }
  split; [exact st1c_book|]. split.
  - cbv zeta. split; [by vm_compute|]. split; [by vm_compute|]. split.
    { apply elem_of_list_In. vm_compute. tauto. }
    vm_compute. split_and!; (reflexivity || discriminate).
  - vm_compute. split_and!; reflexivity.
Qed.
