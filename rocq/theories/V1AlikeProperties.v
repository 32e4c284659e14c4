(** Marketplace v1 treats all accounts alike (C140 of properties.jsonl).  Each theorem is closed by a lemma proved elsewhere; what it
    rests on is printed beneath it, and an example shows a concrete case meeting its hypotheses. *)
From stdpp Require Import relations pretty.
From Verif Require Import Base BaseFacts Common Chain ChainFacts V1Model V1Spec V1Facts V1Inv V1Reach V1Examples
  AlikeSpec Alike V1AlikeSpec V1Alike.

(** * C140 *)
(** Rename the accounts in the book, in the answers of the other contracts, in the call and in its sender: the call has the renamed
    effect, sends the renamed messages and tells the renamed hooks the renamed story, or is refused for the same reason. *)
Theorem C140_v1_alike : forall p x r, renaming p r -> forall v v', view_renamed r v v' -> forall e sender funds st m,
  execute_sub p x v' e (r sender) funds (state_renamed r st) (call_renamed r m) =
  answer_renamed (state_renamed r) (smsg_renamed r) (execute_sub p x v e sender funds st m).
Proof. exact execute_alike. Qed.
Print Assumptions C140_v1_alike.
(** So does governance. *)
Theorem C140_v1_alike_governance : forall p r, renaming p r -> forall st m,
  sudo_state p (state_renamed r st) (sudo_renamed r m) =
  match sudo_state p st m with Ok st' => Ok (state_renamed r st') | Err e => Err e end.
Proof. exact sudo_alike. Qed.
Print Assumptions C140_v1_alike_governance.

(** carol has bid on a token alice listed and then buys it; with the two swapped, alice has bid on it and buys it. *)
Definition listing : list act := [
  Tx "alice" [us 10] (SetAsk FixedPrice "coll2" 7 (us 99) None None (Some 200) (sec 2000));
  Tx "carol" [us 60] (SetBid "coll2" 7 (sec 2500) None None)].
Definition listed (x : ext) : world state := after x (vw1 x) listing.
Definition sw : addr -> addr := swap "alice" "carol".
Definition buy (x : ext) (v : view) (s : addr) (st : state) : option (list smsg) :=
  match execute_sub p1 x v (env_of (listed x)) s [us 99] st (BuyNow "coll2" 7 (sec 2500) (Some "finde") None) with
  | Ok (_, ms) => Some ms | Err _ => None end.
Example C140_case x : v1_history p1 x (w_st (listed x)) /\ renaming p1 sw /\
  view_renamed sw (view_of p1 (listed x)) (mirror "alice" "carol" (view_of p1 (listed x))) /\
  buy x (view_of p1 (listed x)) "carol" (w_st (listed x)) =
    Some [send "carol" 60; SPlain (MFairBurn (us 1)); send "finde" 1; send "alice" 97; SPlain (MNft "coll2" "7" "carol");
          SHook "hook1" (HSale "coll2" 7 (us 99) "alice" "carol")] /\
  buy x (mirror "alice" "carol" (view_of p1 (listed x))) "alice" (state_renamed sw (w_st (listed x))) =
    Some [send "alice" 60; SPlain (MFairBurn (us 1)); send "finde" 1; send "carol" 97; SPlain (MNft "coll2" "7" "alice");
          SHook "hook1" (HSale "coll2" 7 (us 99) "carol" "alice")].
Proof.
  split; [apply after_history; [apply vw1_reachable|vm_compute; reflexivity]|].
  split; [by apply swap_renaming|]. split; [apply mirror_renamed|]. split; vm_compute; reflexivity.
Qed.
