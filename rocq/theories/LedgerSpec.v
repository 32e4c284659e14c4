(** Words for the books of a whole history: sums over lists and maps, what left the storage, and who was sent what. *)
From Verif Require Import Base Common.

Fixpoint sum_over {A} (f : A -> N) (l : list A) : N := match l with [] => 0 | x :: l => f x + sum_over f l end.
Definition total {K A} `{Countable K} (f : K -> A -> N) (m : gmap K A) : N := map_fold (fun k x n => f k x + n) 0 m.
(** The same, counting only what is in [m] and no longer in [m']. *)
Definition gone {K A} `{Countable K} (f : K -> A -> N) (m m' : gmap K A) : N :=
  total (fun k x => match m' !! k with None => f k x | Some _ => 0 end) m.

Definition of_denom (d : denom) (c : coin) : N := if decide (c_denom c = d) then c_amount c else 0.
Definition coins_of (d : denom) (cs : list coin) : N := sum_over (of_denom d) cs.
(** Coins that leave the contract with a response, and coins sent to one account. *)
Definition leaving (d : denom) (ms : list cmsg) : N :=
  sum_over (fun m => match m with MSend _ cs => coins_of d cs | MFairBurn c => of_denom d c | _ => 0 end) ms.
Definition sent_to (u : addr) (d : denom) (ms : list cmsg) : N :=
  sum_over (fun m => match m with MSend to cs => if decide (to = u) then coins_of d cs else 0 | _ => 0 end) ms.
(** The part of a response up to its last NFT transfer, and the part after it. *)
Fixpoint after_nft (ms : list cmsg) : list cmsg :=
  match ms with
  | [] => []
  | m :: rest => if existsb (fun x => match x with MNft _ _ _ => true | _ => false end) rest then after_nft rest
                 else match m with MNft _ _ _ => rest | _ => m :: rest end
  end.
Definition upto_nft (ms : list cmsg) : list cmsg := take (length ms - length (after_nft ms)) ms.
