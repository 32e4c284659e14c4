(** Whom v2 asks (C153 of properties.jsonl).  Each theorem is closed by a lemma proved elsewhere; what it rests on is printed beneath it, and an
    example shows a concrete case meeting its hypotheses. *)
From stdpp Require Import relations.
From Verif Require Import Base BaseFacts Common Chain ChainFacts V2Model V2Spec V2Facts V2Inv V2Reach V2Examples V2Properties ViewSpec V2ViewSpec
  V2View.

(** * C153 *)
(** The result of a call, be it a success or an error, depends on nothing outside the contract but the answers to the questions of V2ViewSpec:
    what other collections, the registry about other collections, or the chain answer makes no difference. *)
Theorem C153_asks_only : forall p n v v' e sender funds st m,
  collision_free p -> prefix_free p -> v2_history p n st -> answer_alike v v' (questions p st m) ->
  execute p v' e sender funds st m = execute p v e sender funds st m.
Proof. intros p n v v' e sender funds st m Hcf Hpf. by apply history_view. Qed.
Print Assumptions C153_asks_only.
(** So the call goes the same way when nothing else is answered at all. *)
Theorem C153_answers_suffice : forall p n v e sender funds st m,
  collision_free p -> prefix_free p -> v2_history p n st ->
  execute p (only_answers (questions p st m) v) e sender funds st m = execute p v e sender funds st m.
Proof. intros p n v e sender funds st m Hcf Hpf Hh. eapply history_view; [done..|]. apply only_answers_alike. Qed.
Print Assumptions C153_answers_suffice.
(** Taking an order back asks nobody: no contract, however it answers or fails to, can keep escrowed coins or NFTs in. *)
Theorem C153_withdrawals_ask_nobody : forall p v v' e sender funds st m i,
  m = RemoveAsk i \/ m = RemoveBid i \/ m = RemoveCollectionBid i ->
  execute p v' e sender funds st m = execute p v e sender funds st m.
Proof. by intros p v v' e sender funds st m i [-> | [-> | ->]]. Qed.
Print Assumptions C153_withdrawals_ask_nobody.

(** Alice accepts bobby's 800 for token 2 of collection 1, which is not listed.  Three answers count: without the owner's name anyone could sell
    it, without the collection's own answer the royalty is not paid, without the registry's answer nothing goes.  Once token 2 is listed, who owns it is
    not asked.  Bobby gets the bid back when nobody answers. *)
Definition told (l : list question) (sender : addr) (funds : list coin) (m : msg) : result (state * list cmsg) :=
  execute p0 (only_answers l (view_of p0 w1)) (Env 10 1000000000) sender funds st1 m.
Definition sell2 : msg := AcceptBid bid_id (det 800).
Definition q_own : question := WhoOwns "coll1" "2".
Definition q_coll : question := AboutCollection "coll1".
Definition q_reg : question := RoyaltyOf "regis" "coll1" (Some "mrktp").
Example C153_case :
  collision_free p0 /\ prefix_free p0 /\ v2_history p0 4 st1 /\ questions p0 st1 sell2 = [q_own; q_coll; q_reg] /\
  msgs_of (told [q_own; q_coll; q_reg] "alice" [] sell2) =
    [MRegInit "regis" "coll1"; MSend "feemg" [us 16]; MSend "royal" [us 40]; MSend "alice" [us 744]; MNft "coll1" "2" "carol"] /\
  msgs_of (execute p0 (view_of p0 w1) (Env 10 1000000000) "alice" [] st1 sell2) = msgs_of (told [q_own; q_coll; q_reg] "alice" [] sell2) /\
  is_ok (told [q_own; q_coll; q_reg] "mally" [] sell2) = false /\ is_ok (told [q_coll; q_reg] "mally" [] sell2) = true /\
  msgs_of (told [q_own; q_reg] "alice" [] sell2) = [MSend "feemg" [us 16]; MSend "alice" [us 784]; MNft "coll1" "2" "carol"] /\
  is_ok (told [q_own; q_coll] "alice" [] sell2) = false /\
  questions p0 st1 (AcceptCollectionBid cbid_id "1" (det 900)) = [q_coll; q_reg] /\
  is_ok (told [q_coll; q_reg] "alice" [] (AcceptCollectionBid cbid_id "1" (det 900))) = true /\
  is_ok (told [q_coll; q_reg] "mally" [] (AcceptCollectionBid cbid_id "1" (det 900))) = false /\
  msgs_of (told [] "bobby" [] (RemoveBid bid_id)) = [MSend "bobby" [us 800]].
Proof.
  split; [exact p0_collision_free|]. split; [exact p0_prefix_free|]. split; [exact st1_history|].
  vm_compute. split_and!; reflexivity.
Qed.
