(** Replacing a bid of v1 against taking it back and placing another (C157). *)
From Verif Require Import Base Common Chain V1Model V1Spec.

(** The calls that place a bid for the NFT, or buy it, and so replace the bid of the same bidder. *)
Definition bids_for (m : msg) (coll : addr) (tok : N) : Prop :=
  (exists t f b, m = SetBid coll tok t f b) \/ (exists t f b, m = BuyNow coll tok t f b) \/ (exists t f b to, m = BuyFor coll tok t f b to).
(** The message that gives [n] back to the bidder. *)
Definition paid_back (bidder : addr) (n : N) : smsg := SPlain (MSend bidder [Coin "ustars" n]).
(** The same result with one more message in front. *)
Definition preceded_by (x : smsg) (r : result (state * list smsg)) : result (state * list smsg) :=
  match r with Ok (st, ms) => Ok (st, x :: ms) | Err er => Err er end.
(** Every listener registered hears of the call. *)
Definition heard (hooks : list addr) (c : hook_call) : list smsg := map (fun h => SHook h c) hooks.
