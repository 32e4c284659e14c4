(** Marketplace v2 treats all accounts alike (C140 of properties.jsonl).  Each theorem is closed by a lemma proved elsewhere; what it
    rests on is printed beneath it, and an example shows a concrete case meeting its hypotheses. *)
From stdpp Require Import relations.
From Verif Require Import Base BaseFacts Common Chain ChainFacts V2Model V2Spec V2Facts V2Inv V2Reach V2Examples
  AlikeSpec Alike V2AlikeSpec V2Alike.

(** * C140 *)
(** Rename the accounts in the book, in the answers of the other contracts, in the call and in its sender: the call has the renamed
    effect, sends the renamed messages, or is refused for the same reason. *)
Theorem C140_v2_alike : forall p r, renaming p r -> forall v v', view_renamed r v v' -> forall e sender funds st m,
  execute p v' e (r sender) funds (state_renamed r st) (call_renamed r m) =
  answer_renamed (state_renamed r) (msg_renamed r) (execute p v e sender funds st m).
Proof. exact execute_alike. Qed.
Print Assumptions C140_v2_alike.

(** alice has listed token 5 and bobby buys it; with the two swapped, bobby has listed it and alice buys it. *)
Definition listing : list tx := [
  ("admin", [], SetListingFee (us 5));
  ("alice", [us 5], SetAsk "coll1" "5" (Details (us 500) None (Some "finda")))].
Definition wl : world state := after w0 listing.
Definition sw : addr -> addr := swap "alice" "bobby".
Definition buy (v : view) (s : addr) (st : state) : result (state * list cmsg) :=
  execute p0 v (env_of wl) s [us 502] st (BuySpecificNft "coll1" "5" (Details (us 502) None (Some "findb"))).
Example C140_case : v2_history p0 2 (w_st wl) /\ renaming p0 sw /\ view_renamed sw (view_of p0 wl) (mirror "alice" "bobby" (view_of p0 wl)) /\
  msgs_of (buy (view_of p0 wl) "bobby" (w_st wl)) =
    [MRegInit "regis" "coll1"; MSend "feemg" [us 5]; MSend "finda" [us 2]; MSend "findb" [us 3];
     MSend "royal" [us 25]; MSend "alice" [us 465]; MNft "coll1" "5" "bobby"; MSend "bobby" [us 2]] /\
  msgs_of (buy (mirror "alice" "bobby" (view_of p0 wl)) "alice" (state_renamed sw (w_st wl))) =
    [MRegInit "regis" "coll1"; MSend "feemg" [us 5]; MSend "finda" [us 2]; MSend "findb" [us 3];
     MSend "royal" [us 25]; MSend "bobby" [us 465]; MNft "coll1" "5" "alice"; MSend "alice" [us 2]].
Proof.
  split; [apply (after_history listing); vm_compute; reflexivity|].
  split; [by apply swap_renaming|]. split; [apply mirror_renamed|]. split; vm_compute; reflexivity.
Qed.
