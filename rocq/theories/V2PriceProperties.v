(** Naming one's best price (C143 of properties.jsonl).  Each theorem is closed by a lemma proved elsewhere; what it rests on is printed
    beneath it, and an example shows a concrete case meeting its hypotheses. *)
From stdpp Require Import relations.
From Verif Require Import Base BaseFacts Common Chain ChainFacts QuerySpec V2Model V2Spec V2Facts V2Inv V2Reach V2Examples
  V2Properties V2ExactSpec V2Exact V2ExactProperties V2PriceSpec V2Price.

(** * C143 *)
(** A buyer whose call buys would have bought the same NFT for the same price with any higher limit: the new storage and all payments are
    the same. *)
Theorem C143_bidding_more_costs_nothing : forall p v e sender funds st m st' msgs c t to k n,
  collision_free p -> prefix_free p -> slash_free p -> small_history p st -> small_call funds m ->
  execute p v e sender funds st m = Ok (st', msgs) -> sells st m st' msgs c t to -> at_most m = Some k -> k <= n -> n < U128_MAX ->
  execute p v e sender funds st (with_limit n m) = Ok (st', msgs).
Proof. intros p v e sender funds st m st' msgs c t to k n Hcf Hpf Hsl. by apply bidding_more. Qed.
Print Assumptions C143_bidding_more_costs_nothing.
(** A seller whose call sells would have sold to the same buyer for the same price with any lower limit. *)
Theorem C143_asking_less_costs_nothing : forall p v e sender funds st m st' msgs c t to k n,
  collision_free p -> prefix_free p -> slash_free p -> small_history p st -> small_call funds m ->
  execute p v e sender funds st m = Ok (st', msgs) -> sells st m st' msgs c t to -> at_least m = Some k -> n <= k -> 0 < n ->
  execute p v e sender funds st (with_limit n m) = Ok (st', msgs).
Proof. intros p v e sender funds st m st' msgs c t to k n Hcf Hpf Hsl. by apply asking_less. Qed.
Print Assumptions C143_asking_less_costs_nothing.
(** An immediate order with two different limits, from the same world: if both go through they do the same. *)
Theorem C143_one_price : forall p w s f m n w1 w2,
  collision_free p -> prefix_free p -> slash_free p -> small_history p (w_st w) -> small_call f m -> immediate m = true ->
  n < U128_MAX -> (forall k, at_most m = Some k -> k < U128_MAX) ->
  run_tx p (execute p) w s f m = Ok w1 -> run_tx p (execute p) w s f (with_limit n m) = Ok w2 -> w1 = w2.
Proof. intros p w s f m n w1 w2 Hcf Hpf Hsl. by apply one_price_tx. Qed.
Print Assumptions C143_one_price.

(** Alice sells token 2 for at least 700 and gets carol's 900; with 50, with 900 the same; with 901 the call is refused.  Bobby buys token 1,
    listed for 1000, at most 1000 or at most 5000. *)
Definition same_sale (r r' : result (state * list cmsg)) : Prop :=
  match r, r' with
  | Ok (st, ms), Ok (st', ms') => map_to_list (s_asks st) = map_to_list (s_asks st') /\ map_to_list (s_bids st) = map_to_list (s_bids st') /\
      map_to_list (s_cbids st) = map_to_list (s_cbids st') /\ ms = ms' /\ ms <> []
  | _, _ => False
  end.
Definition try (s : addr) (f : list coin) (m : msg) : result (state * list cmsg) := execute p0 (view_of p0 w1) (env_of w1) s f st1 m.
Definition buy1 (n : N) : msg := BuySpecificNft "coll1" "1" (det n).
Example C143_case :
  collision_free p0 /\ prefix_free p0 /\ slash_free p0 /\ small_history p0 st1 /\ small_call [us 5] sell2 /\ immediate sell2 = true /\
  at_least sell2 = Some 700 /\ at_most (buy1 1000) = Some 1000 /\
  is_ok (try "alice" [us 5] sell2) = true /\ same_sale (try "alice" [us 5] sell2) (try "alice" [us 5] (with_limit 50 sell2)) /\
  same_sale (try "alice" [us 5] sell2) (try "alice" [us 5] (with_limit 900 sell2)) /\ is_ok (try "alice" [us 5] (with_limit 901 sell2)) = false /\
  same_sale (try "bobby" [us 5000] (buy1 1000)) (try "bobby" [us 5000] (with_limit 5000 (buy1 1000))) /\
  is_ok (try "bobby" [us 5000] (with_limit 999 (buy1 1000))) = false.
Proof.
  split; [exact p0_collision_free|]. split; [exact p0_prefix_free|]. split; [exact p0_slash_free|]. split; [exact st1_small|].
  split; [apply small_sell2; unfold U128_MAX; lia|]. split; [done|]. split; [done|]. split; [done|].
  split; [vm_compute; reflexivity|]. split; [by vm_compute|]. split; [by vm_compute|]. split; [vm_compute; reflexivity|]. split; [by vm_compute|].
  vm_compute; reflexivity.
Qed.
