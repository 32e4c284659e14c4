(** The reserve auction treats all accounts alike (C140 of properties.jsonl).  Each theorem is closed by a lemma proved elsewhere; what
    it rests on is printed beneath it, and an example shows a concrete case meeting its hypotheses. *)
From stdpp Require Import relations.
From Verif Require Import Base BaseFacts Common Chain ChainFacts RAModel RASpec RAFacts RAInv RAReach RAExamples RAProperties
  AlikeSpec Alike RAAlikeSpec RAAlike.

(** * C140 *)
(** Rename the accounts in the book, in the answers of the other contracts, in the call and in its sender: the call has the renamed
    effect, sends the renamed messages, or is refused for the same reason. *)
Theorem C140_ra_alike : forall p lb r, renaming p r -> forall v v', view_renamed r v v' -> forall e sender funds st m,
  execute p lb v' e (r sender) funds (state_renamed r st) (call_renamed r m) =
  answer_renamed (state_renamed r) (msg_renamed r) (execute p lb v e sender funds st m).
Proof. exact execute_alike. Qed.
Print Assumptions C140_ra_alike.
(** So do the blocks, which settle the same auctions in the same order, and governance. *)
Theorem C140_ra_alike_blocks : forall p lb r, renaming p r -> forall v v', view_renamed r v v' -> forall e st m,
  sudo p lb v' e (state_renamed r st) (sudo_renamed r m) =
  answer_renamed (state_renamed r) (msg_renamed r) (sudo p lb v e st m).
Proof. exact sudo_alike. Qed.
Print Assumptions C140_ra_alike_blocks.

(** carol has bid on two auctions of alice's, which a block settles; with the two swapped, alice gets the NFTs and carol the money. *)
Definition two_due : list act := [
  Tx "alice" [us 10] (CreateAuction "coll1" "1" (us 100) 3600 None); Tx "carol" [us 105] (PlaceBid "coll1" "1");
  Tx "alice" [us 10] (CreateAuction "coll1" "2" (us 100) 3600 (Some "bobby")); Tx "carol" [us 110] (PlaceBid "coll1" "2")].
Definition wdue : world state := after lib1 rw0 two_due.
Definition sw : addr -> addr := swap "alice" "carol".
Definition swept (v : view) (st : state) : result (state * list cmsg) := sudo p1 lib1 v (Env 20 (sec 9000)) st EndBlock.
Example C140_case : ra_history p1 lib1 (w_st wdue) /\ renaming p1 sw /\
  view_renamed sw (view_of p1 wdue) (mirror "alice" "carol" (view_of p1 wdue)) /\
  msgs_of (swept (view_of p1 wdue) (w_st wdue)) =
    [MFairBurn (us 2); MSend "royal" [us 5]; MSend "alice" [us 98]; MNft "coll1" "1" "carol";
     MFairBurn (us 2); MSend "royal" [us 5]; MSend "bobby" [us 103]; MNft "coll1" "2" "carol"] /\
  msgs_of (swept (mirror "alice" "carol" (view_of p1 wdue)) (state_renamed sw (w_st wdue))) =
    [MFairBurn (us 2); MSend "royal" [us 5]; MSend "carol" [us 98]; MNft "coll1" "1" "alice";
     MFairBurn (us 2); MSend "royal" [us 5]; MSend "bobby" [us 103]; MNft "coll1" "2" "alice"].
Proof.
  split; [apply reachable_history; apply after_reachable; [apply rw0_reachable|vm_compute; reflexivity]|].
  split; [by apply swap_renaming|]. split; [apply mirror_renamed|]. split; vm_compute; reflexivity.
Qed.
