(** What one call of marketplace v2 can do at most (C139 of properties.jsonl).  Each theorem is closed by a lemma proved elsewhere;
    what it rests on is printed beneath it, and an example shows a concrete case meeting its hypotheses. *)
From stdpp Require Import relations.
From Verif Require Import Base BaseFacts Common Chain ChainFacts V2Model V2Spec V2Facts V2Inv V2Reach V2Examples WorkSpec V2Work.

(** * C139 *)
(** Whatever the book holds, a call sends at most eight messages - at most six payments, one NFT, one note to the royalty registry, no
    burn and no hook - and changes at most one ask, one bid and one collection bid.  A call that moves no NFT sends one message at most. *)
Theorem C139_v2_work : forall p v e sender funds st m st' msgs, execute p v e sender funds st m = Ok (st', msgs) ->
  at_most 6 1 1 0 0 msgs /\ (length msgs <= 8)%nat /\
  changes 1 (s_asks st) (s_asks st') /\ changes 1 (s_bids st) (s_bids st') /\ changes 1 (s_cbids st) (s_cbids st') /\
  ((how_many is_nft msgs = 0)%nat -> (length msgs <= 1)%nat).
Proof. exact work. Qed.
Print Assumptions C139_v2_work.

(** alice has listed token 5 at 500 with the finder finda; bobby pays 502 with the finder findb: all eight messages are sent. *)
Definition listing : list tx := [
  ("admin", [], SetListingFee (us 5));
  ("alice", [us 5], SetAsk "coll1" "5" (Details (us 500) None (Some "finda")))].
Definition bought : result (state * list cmsg) :=
  let w := after w0 listing in
  execute p0 (view_of p0 w) (env_of w) "bobby" [us 502] (w_st w) (BuySpecificNft "coll1" "5" (Details (us 502) None (Some "findb"))).
Example C139_case : v2_history p0 2 (w_st (after w0 listing)) /\ is_ok bought = true /\
  msgs_of bought = [MRegInit "regis" "coll1"; MSend "feemg" [us 5]; MSend "finda" [us 2]; MSend "findb" [us 3];
    MSend "royal" [us 25]; MSend "alice" [us 465]; MNft "coll1" "5" "bobby"; MSend "bobby" [us 2]] /\
  how_many is_send (msgs_of bought) = 6%nat /\ length (msgs_of bought) = 8%nat.
Proof.
  split; [apply (after_history listing); vm_compute; reflexivity|]. split; [vm_compute; reflexivity|].
  assert (msgs_of bought = [MRegInit "regis" "coll1"; MSend "feemg" [us 5]; MSend "finda" [us 2]; MSend "findb" [us 3];
    MSend "royal" [us 25]; MSend "alice" [us 465]; MNft "coll1" "5" "bobby"; MSend "bobby" [us 2]]) as M by (vm_compute; reflexivity).
  split; [exact M|]. rewrite M. split; reflexivity.
Qed.
