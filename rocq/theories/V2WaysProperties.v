(** All ways to make a trade have the same effect (C146 of properties.jsonl).  Each theorem is closed by a lemma proved elsewhere; what it
    rests on is printed beneath it, and an example shows a concrete case meeting its hypotheses. *)
From stdpp Require Import relations.
From Verif Require Import Base BaseFacts Common Chain ChainFacts QuerySpec V2Model V2Spec V2Facts V2Inv V2Reach V2Examples
  V2Properties V2ExactSpec V2Exact V2ExactProperties V2PriceProperties V2WaysSpec V2Ways.

(** * C146 *)
(** Whoever buys an NFT by any call could have accepted its listing with the same details and the same coins: the storage afterwards and all
    messages are the same. *)
Theorem C146_buying_accepts : forall p n v e sender funds st m st' msgs d c t to,
  collision_free p -> prefix_free p -> slash_free p ->
  N.of_nat n < U64_MAX -> v2_history p n st -> small_history p st -> small_call funds m -> buying m d ->
  execute p v e sender funds st m = Ok (st', msgs) -> sells st m st' msgs c t to ->
  execute p v e sender funds st (AcceptAsk (ask_name p c t) d) = Ok (st', msgs).
Proof. intros p n v e sender funds st m st' msgs d c t to Hcf Hpf Hsl. by apply accepting_does. Qed.
Print Assumptions C146_buying_accepts.
(** So any two ways to buy the same NFT, with any two limits, do the same. *)
Theorem C146_buying_one_way : forall p n v e sender funds st m1 m2 st1 st2 msgs1 msgs2 d1 d2 c t to1 to2,
  collision_free p -> prefix_free p -> slash_free p ->
  N.of_nat n < U64_MAX -> v2_history p n st -> small_history p st -> small_call funds m1 -> small_call funds m2 ->
  buying m1 d1 -> buying m2 d2 -> same_names d1 d2 ->
  execute p v e sender funds st m1 = Ok (st1, msgs1) -> sells st m1 st1 msgs1 c t to1 ->
  execute p v e sender funds st m2 = Ok (st2, msgs2) -> sells st m2 st2 msgs2 c t to2 ->
  st1 = st2 /\ msgs1 = msgs2.
Proof. intros p n v e sender funds st m1 m2 st1 st2 msgs1 msgs2 d1 d2 c t to1 to2 Hcf Hpf Hsl. by apply buying_one_way. Qed.
Print Assumptions C146_buying_one_way.
(** Whoever offers an unlisted NFT and sells it at once could have accepted the bid it is sold to: the only difference is the listing fee. *)
Theorem C146_offering_accepts : forall p v e sender funds st m st' msgs coll tok d c t to,
  collision_free p -> prefix_free p -> slash_free p ->
  small_history p st -> small_call funds m -> offering m coll tok d -> unlisted st coll tok ->
  execute p v e sender funds st m = Ok (st', msgs) -> sells st m st' msgs c t to ->
  exists mb rest, resting st mb /\ msgs = MSend (cf_fee_manager (s_config st)) funds :: rest /\
    execute p v e sender [] st (accepting mb tok d) = Ok (st', rest).
Proof. intros p v e sender funds st m st' msgs coll tok d c t to Hcf Hpf Hsl. by apply offering_accepts. Qed.
Print Assumptions C146_offering_accepts.
(** Whoever reprices a listing so that it is sold, and keeps its recipient and finder, could have accepted the bid. *)
Theorem C146_repricing_accepts : forall p v e sender funds st i d a st' msgs c t to,
  collision_free p -> prefix_free p -> slash_free p ->
  small_history p st -> small_call funds (UpdateAsk i d) -> s_asks st !! i = Some a -> same_names d (a_det a) ->
  execute p v e sender funds st (UpdateAsk i d) = Ok (st', msgs) -> sells st (UpdateAsk i d) st' msgs c t to ->
  exists mb, resting st mb /\ execute p v e sender [] st (accepting mb (a_tok a) d) = Ok (st', msgs).
Proof. intros p v e sender funds st i d a st' msgs c t to Hcf Hpf Hsl. by apply repricing_accepts. Qed.
Print Assumptions C146_repricing_accepts.

(** Bobby buys token 1, listed for 1000, in five ways. *)
Definition ways1 : list msg :=
  [AcceptAsk (a_id ask1) (det 1000); SetBid "coll1" "1" (det 1000); BuySpecificNft "coll1" "1" (det 2000); SetCollectionBid "coll1" (det 1500);
   BuyCollectionNft "coll1" (det 5000)].
Example C146_buying_case :
  collision_free p0 /\ prefix_free p0 /\ slash_free p0 /\ v2_history p0 4 st1 /\ small_history p0 st1 /\
  ask_name p0 "coll1" "1" = a_id ask1 /\ Forall (fun m => exists n, buying m (det n)) ways1 /\
  Forall (fun m => same_sale (try "bobby" [us 5000] m) (try "bobby" [us 5000] (AcceptAsk (a_id ask1) (det 1000)))) ways1.
Proof.
  split; [exact p0_collision_free|]. split; [exact p0_prefix_free|]. split; [exact p0_slash_free|]. split; [exact st1_history|].
  split; [exact st1_small|]. split; [by vm_compute|]. split.
  - unfold ways1. repeat apply Forall_cons_2; [..|apply Forall_nil_2]; eexists; constructor.
  - unfold ways1. repeat apply Forall_cons_2; [..|apply Forall_nil_2]; vm_compute; split_and!; (reflexivity || discriminate).
Qed.
(** Alice sells token 2 to carol by a sell order, or by accepting carol's bid without the fee of 5; and token 1 by repricing it. *)
Definition but_fee (r : result (state * list cmsg)) : result (state * list cmsg) :=
  match r with Ok (st, MSend _ _ :: ms) => Ok (st, ms) | r => r end.
Definition lower1 : details := Details (us 850) None (Some "finda").
Example C146_selling_case :
  small_history p0 st1 /\ offering sell2 "coll1" "2" (det 700) /\ unlisted st1 "coll1" "2" /\ resting st1 (MCBid cbid1) /\
  same_sale (but_fee (try "alice" [us 5] sell2)) (try "alice" [] (accepting (MCBid cbid1) "2" (det 700))) /\
  same_sale (but_fee (try "alice" [us 5] (SetAsk "coll1" "2" (det 700)))) (try "alice" [] (accepting (MCBid cbid1) "2" (det 700))) /\
  same_names lower1 (a_det ask1) /\
  same_sale (try "alice" [] (UpdateAsk (a_id ask1) lower1)) (try "alice" [] (accepting (MCBid cbid1) "1" lower1)).
Proof.
  split; [exact st1_small|]. split; [constructor|].
  split; [intros i a H; apply asks1 in H as [_ ->]; intros [_ H]; discriminate H|].
  split; [exact (proj2 (proj2 st1_orders))|]. split; [vm_compute; split_and!; (reflexivity || discriminate)|].
  split; [vm_compute; split_and!; (reflexivity || discriminate)|]. split; [split; reflexivity|].
  vm_compute; split_and!; (reflexivity || discriminate).
Qed.
