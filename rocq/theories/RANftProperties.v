(** The books of NFTs of the reserve auction over a whole history (NftBooksSpec, RANftSpec). *)
From stdpp Require Import relations.
From Verif Require Import Base BaseFacts Common Chain ChainFacts NftBooksSpec RAModel RASpec RAFacts RAInv RAReach RAExamples
  RALedgerSpec RALedger RALedgerProperties RANftSpec RANft.

(** * C135: every NFT is taken in and handed out in turn, and only to who has the title. *)
(** One call orders exactly the moves of an NFT that the change of its auction asks for: one into the contract when
    the auction appears, one to the high bidder (or the seller, if nobody bid) when it disappears, none otherwise. *)
Theorem C135_ra_moves_of_a_call : forall p lb st l h k, trace p lb st l -> h ∈ l ->
  moves k (e_msgs h) = due_moves (p_self p) (e_before h) (e_after h) k.
Proof. exact entry_moves. Qed.
Print Assumptions C135_ra_moves_of_a_call.
(** Over a whole history the moves of an NFT alternate: in, out, in, out ..., never out to the contract itself, and
    it is in at the end exactly when it has an open auction. *)
Theorem C135_ra_books : forall p lb st l (k : akey), trace p lb st l ->
  in_and_out (p_self p) (all_moves k l) (bool_decide (is_Some (s_auctions st !! k))).
Proof. exact nft_books. Qed.
Print Assumptions C135_ra_books.

(** The history of C123: bobby wins token 1, token 2 is still open, token 3 was never there. *)
Example C135_ra_case : trace p1 lib1 (fst ledger1_end) (snd ledger1_end) /\
  all_moves ("coll1", "1") (snd ledger1_end) = [p_self p1; "bobby"] /\
  bool_decide (is_Some (s_auctions (fst ledger1_end) !! (("coll1", "1") : akey))) = false /\
  all_moves ("coll1", "2") (snd ledger1_end) = [p_self p1] /\
  bool_decide (is_Some (s_auctions (fst ledger1_end) !! (("coll1", "2") : akey))) = true /\
  all_moves ("coll1", "3") (snd ledger1_end) = [].
Proof.
  split; [exact ledger1_trace|]. split; [by vm_compute|]. split; [by vm_compute|]. split; [by vm_compute|].
  split; by vm_compute.
Qed.
