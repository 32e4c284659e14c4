(** What one call of marketplace v1 can do at most (C139 of properties.jsonl).  Each theorem is closed by a lemma proved elsewhere;
    what it rests on is printed beneath it, and an example shows a concrete case meeting its hypotheses. *)
From stdpp Require Import relations pretty.
From Verif Require Import Base BaseFacts Common Chain ChainFacts V1Model V1Spec V1Facts V1Inv V1Reach V1Examples WorkSpec V1Work.

(** * C139 *)
(** Whatever the book holds, a call sends at most six messages - four payments, an NFT and a burn - and calls each hook of just one of the
    four lists of hooks; it changes at most one ask, one bid and one collection bid. *)
Theorem C139_v1_work : forall p x v e s f st m st' msgs, execute p x v e s f st m = Ok (st', msgs) ->
  at_most 4 1 0 1 (length (called msgs)) msgs /\ (length msgs <= 6 + length (called msgs))%nat /\
  (called msgs = s_ask_hooks st \/ called msgs = s_bid_hooks st \/ called msgs = s_cbid_hooks st \/ called msgs = s_sale_hooks st) /\
  changes 1 (s_asks st) (s_asks st') /\ changes 1 (s_bids st) (s_bids st') /\ changes 1 (s_cbids st) (s_cbids st').
Proof. exact work. Qed.
Print Assumptions C139_v1_work.

(** alice lists token 7 at 99, carol bids 60 on it and then buys it through the finder finde: carol's bid is refunded in the same call. *)
Definition listing : list act := [
  Tx "alice" [us 10] (SetAsk FixedPrice "coll2" 7 (us 99) None None (Some 200) (sec 2000));
  Tx "carol" [us 60] (SetBid "coll2" 7 (sec 2500) None None)].
Definition listed (x : ext) : world state := after x (vw1 x) listing.
Definition bought (x : ext) : option (list cmsg) :=
  match execute p1 x (view_of p1 (listed x)) (env_of (listed x)) "carol" [us 99] (w_st (listed x)) (BuyNow "coll2" 7 (sec 2500) (Some "finde") None) with
  | Ok (_, ms) => Some ms | Err _ => None end.
Example C139_case x : v1_history p1 x (w_st (listed x)) /\
  bought x = Some [pay "carol" 60; MFairBurn (us 1); pay "finde" 1; pay "alice" 97; MNft "coll2" "7" "carol"; MHook "hook1"].
Proof.
  split; [apply after_history; [apply vw1_reachable|vm_compute; reflexivity]|]. vm_compute; reflexivity.
Qed.
