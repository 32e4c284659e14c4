(** Rounding in marketplace v1 (C137 of properties.jsonl).  Each theorem is closed by a lemma proved elsewhere; what it rests on is
    printed beneath it, and an example shows a concrete case meeting its hypotheses. *)
From stdpp Require Import relations pretty.
From Verif Require Import Base BaseFacts Common Chain ChainFacts V1Model V1Spec V1Facts V1Inv V1Reach V1Examples RoundingSpec V1Rounding.

(** * C137 *)
(** The seller of every sale gets what the rates leave of the price, at most one unit less and less than three units more. *)
Theorem C137_v1_rounding : forall p x v e s f st m st' msgs c t who, v1_history p x st ->
  execute p x v e s f st m = Ok (st', msgs) -> MNft c t who ∈ msgs ->
  exists d ci rest, closes v e s f st m d /\ c = d_coll d /\ t = pretty (d_tok d) /\ who = d_buyer_to d /\
    q_info v (d_coll d) = Some ci /\ pay (d_seller_to d) rest ∈ msgs /\ 0 < d_price d /\
    near (10 ^ 20) (deal_rates st ci d) (d_price d) rest 3.
Proof. exact rounding. Qed.
Print Assumptions C137_v1_rounding.
(** Of two sales under the same rates, the one at the higher price pays its seller at most three units less. *)
Theorem C137_v1_raise : forall p x v e s f st m st' msgs c t who v2 e2 s2 f2 st2 m2 st2' msgs2 c2 t2 who2,
  v1_history p x st -> execute p x v e s f st m = Ok (st', msgs) -> MNft c t who ∈ msgs ->
  v1_history p x st2 -> execute p x v2 e2 s2 f2 st2 m2 = Ok (st2', msgs2) -> MNft c2 t2 who2 ∈ msgs2 ->
  exists d ci d2 ci2 rest rest2, closes v e s f st m d /\ closes v2 e2 s2 f2 st2 m2 d2 /\
    (c, t, who) = (d_coll d, pretty (d_tok d), d_buyer_to d) /\ (c2, t2, who2) = (d_coll d2, pretty (d_tok d2), d_buyer_to d2) /\
    q_info v (d_coll d) = Some ci /\ q_info v2 (d_coll d2) = Some ci2 /\
    pay (d_seller_to d) rest ∈ msgs /\ pay (d_seller_to d2) rest2 ∈ msgs2 /\
    (deal_rates st ci d = deal_rates st2 ci2 d2 -> deal_rates st ci d <= 10 ^ 20 -> d_price d <= d_price d2 -> rest <= rest2 + 3).
Proof. exact raise. Qed.
Print Assumptions C137_v1_raise.

(** alice lists token 7 at [n] with a finder's fee of 2%, carol buys it through the finder finde. *)
Definition listing (n : N) : list act := [Tx "alice" [us 10] (SetAsk FixedPrice "coll2" 7 (us n) None None (Some 200) (sec 2000))].
Definition buying : msg := BuyNow "coll2" 7 (sec 2500) (Some "finde") None.
Definition listed (x : ext) (n : N) : world state := after x (vw1 x) (listing n).
Definition bought (x : ext) (n : N) : option (list cmsg) :=
  match execute p1 x (view_of p1 (listed x n)) (env_of (listed x n)) "carol" [us n] (w_st (listed x n)) buying with
  | Ok (_, ms) => Some ms | Err _ => None end.
(** At 99, the fees are 1 and 1 and leave 97; at 100 they are 2 and 2 and leave 96. *)
Example C137_case x : v1_history p1 x (w_st (listed x 99)) /\ v1_history p1 x (w_st (listed x 100)) /\
  bought x 99 = Some [MFairBurn (us 1); pay "finde" 1; pay "alice" 97; MNft "coll2" "7" "carol"; MHook "hook1"] /\
  bought x 100 = Some [MFairBurn (us 2); pay "finde" 2; pay "alice" 96; MNft "coll2" "7" "carol"; MHook "hook1"] /\
  deal_rates (w_st (listed x 99)) (CollectionInfo None None)
    (Deal "coll2" 7 99 "alice" "alice" "carol" "carol" (Some "finde") (Some 200)) = 4 * 10 ^ 18.
Proof.
  split; [apply after_history; [apply vw1_reachable|vm_compute; reflexivity]|].
  split; [apply after_history; [apply vw1_reachable|vm_compute; reflexivity]|].
  split; [vm_compute; reflexivity|]. split; [vm_compute; reflexivity|]. vm_compute; reflexivity.
Qed.
(** A higher price may pay the seller less: a sale at 100 leaves alice one unit less than one at 99, all else equal. *)
Theorem C137_v1_more_pays_more_refuted : forall x, exists p w w' w'' l price price',
  v1_reachable p x w /\
  (l = fun n => [Tx "alice" [us 10] (SetAsk FixedPrice "coll2" 7 (us n) None None (Some 200) (sec 2000)); Tx "carol" [us n] buying]) /\
  run_acts p x w (l price) = Ok w' /\ run_acts p x w (l price') = Ok w'' /\ price < price' /\
  w_bank w' "alice" "ustars" = w_bank w'' "alice" "ustars" + 1.
Proof.
  intros x. pose (l n := listing n ++ [Tx "carol" [us n] buying]).
  exists p1, (vw1 x), (after x (vw1 x) (l 99)), (after x (vw1 x) (l 100)), l, 99, 100.
  split; [apply vw1_reachable|]. split; [reflexivity|].
  split; [apply after_ok; vm_compute; reflexivity|]. split; [apply after_ok; vm_compute; reflexivity|].
  split; [reflexivity|vm_compute; reflexivity].
Qed.
Print Assumptions C137_v1_more_pays_more_refuted.
