(** The clock, the height and the calls of v2 (C150 of properties.jsonl).  Each theorem is closed by a lemma proved elsewhere; what it rests
    on is printed beneath it, and an example shows a concrete case meeting its hypotheses. *)
From stdpp Require Import relations.
From Verif Require Import Base BaseFacts Common Chain ChainFacts QuerySpec V2Model V2Spec V2Facts V2Inv V2Reach V2Examples
  V2Properties V2ExactSpec V2Exact V2ExactProperties V2DelaySpec V2Delay.

(** * C150 *)
(** The clock matters to no call but through the start of trading: at the same height, and when trading is open at both times, a call has the
    same result at both, be it a success or an error. *)
Theorem C150_clock_only_opens : forall p v e e' sender funds st m,
  e_height e' = e_height e -> trading_open v e m -> trading_open v e' m ->
  execute p v e' sender funds st m = execute p v e sender funds st m.
Proof. exact clock_only. Qed.
Print Assumptions C150_clock_only_opens.
(** So what goes through goes through at any later time of the block, with the same effect. *)
Theorem C150_later_same : forall p v e e' sender funds st m r,
  e_height e' = e_height e -> e_time e <= e_time e' ->
  execute p v e sender funds st m = Ok r -> execute p v e' sender funds st m = Ok r.
Proof. exact later_same. Qed.
Print Assumptions C150_later_same.
(** In another, later block the messages are the same, and so is the storage but for the name of a bid that the call leaves. *)
Theorem C150_later_block : forall p n v e e' sender funds st m st' msgs,
  collision_free p -> prefix_free p -> slash_free p ->
  N.of_nat n < U64_MAX -> v2_history p n st -> small_history p st -> small_call funds m -> e_time e <= e_time e' ->
  execute p v e sender funds st m = Ok (st', msgs) ->
  exists st'', execute p v e' sender funds st m = Ok (st'', msgs) /\ same_but_name st st' st''.
Proof. intros p n v e e' sender funds st m st' msgs Hcf Hpf Hsl. by apply later_goes. Qed.
Print Assumptions C150_later_block.

(** Collection 2 trades from 2 s on.  David bids 300 for its token 1 and gets 20 of the 320 back: not a nanosecond before, and then alike at any
    time; in block 99 the bid has another name.  A purchase of token 1 of collection 1 leaves no trace of the block. *)
Definition when (height time : N) (sender : addr) (funds : list coin) (m : msg) : result (state * list cmsg) :=
  execute p0 (view_of p0 w1) (Env height time) sender funds st1 m.
Definition left_by (r : result (state * list cmsg)) : option (list (order_id * ask) * list (order_id * bid) * list cmsg) :=
  match r with Ok (s, ms) => Some (map_to_list (s_asks s), map_to_list (s_bids s), ms) | Err _ => None end.
Definition bid2 : msg := SetBid "coll2" "1" (det 300).
Definition name2 (height : N) : order_id := "#coll21" +:+ be8 height +:+ be8 (s_nonce st1 + 1).
Definition bid_at (r : result (state * list cmsg)) (i : order_id) : option bid := s_bids (state_of r) !! i.
Example C150_case :
  collision_free p0 /\ prefix_free p0 /\ slash_free p0 /\ v2_history p0 4 st1 /\ small_history p0 st1 /\ small_call [us 320] bid2 /\
  new_order_in bid2 = Some "coll2" /\ is_ok (when 10 1999999999 "david" [us 320] bid2) = false /\
  is_ok (when 10 2000000000 "david" [us 320] bid2) = true /\
  left_by (when 10 2000000000 "david" [us 320] bid2) = left_by (when 10 7000000000 "david" [us 320] bid2) /\
  msgs_of (when 10 2000000000 "david" [us 320] bid2) = [MSend "david" [us 20]] /\
  msgs_of (when 99 7000000000 "david" [us 320] bid2) = [MSend "david" [us 20]] /\
  bid_at (when 10 2000000000 "david" [us 320] bid2) (name2 10) = Some (Bid (name2 10) "david" "coll2" "1" (det 300)) /\
  bid_at (when 10 2000000000 "david" [us 320] bid2) (name2 99) = None /\
  bid_at (when 99 7000000000 "david" [us 320] bid2) (name2 99) = Some (Bid (name2 99) "david" "coll2" "1" (det 300)) /\
  bid_at (when 99 7000000000 "david" [us 320] bid2) (name2 10) = None /\
  is_ok (when 10 1000000000 "david" [us 1100] buy1) = true /\
  left_by (when 10 1000000000 "david" [us 1100] buy1) = left_by (when 99 7000000000 "david" [us 1100] buy1).
Proof.
  split; [exact p0_collision_free|]. split; [exact p0_prefix_free|]. split; [exact p0_slash_free|]. split; [exact st1_history|].
  split; [exact st1_small|]. split.
  { split; [apply Forall_singleton|intros c [= <-]]; unfold small, us; cbn [c_amount d_price det us]; lia. }
  vm_compute. split_and!; reflexivity.
Qed.
