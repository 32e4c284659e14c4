(** The books of NFTs: where a contract sends an NFT over a whole history, read off its messages only. *)
From Verif Require Import Base Common.

Definition nft : Type := string * string.      (* collection, token *)
(** The places that messages send NFT [k] to, in order. *)
Definition moves (k : nft) (ms : list cmsg) : list addr :=
  omap (fun m => match m with MNft c t to => if decide (k = (c, t)) then Some to else None | _ => None end) ms.

(** An NFT is taken in, handed out, taken in again ...: never twice in a row.  The flag says whether the contract has
    it. *)
Inductive in_and_out (self : addr) : list addr -> bool -> Prop :=
  | never : in_and_out self [] false
  | taken l : in_and_out self l false -> in_and_out self (l ++ [self]) true
  | given l x : in_and_out self l true -> x <> self -> in_and_out self (l ++ [x]) false.

(** The same for a market that can also move an NFT straight from seller to buyer.  Here the contract's own address
    may be named as the buyer's recipient. *)
Inductive listed_or_passed (self : addr) : list addr -> bool -> Prop :=
  | p_never : listed_or_passed self [] false
  | p_taken l : listed_or_passed self l false -> listed_or_passed self (l ++ [self]) true
  | p_given l x : listed_or_passed self l true -> listed_or_passed self (l ++ [x]) false
  | p_passed l x : listed_or_passed self l false -> listed_or_passed self (l ++ [x]) false.
