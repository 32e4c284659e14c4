(** How much one call does: how many messages of each kind it sends, how many entries of a table it changes. *)
From stdpp Require Import gmap.
From Verif Require Import Base Common.

Definition is_send (m : cmsg) : bool := match m with MSend _ _ => true | _ => false end.
Definition is_nft (m : cmsg) : bool := match m with MNft _ _ _ => true | _ => false end.
Definition is_reg (m : cmsg) : bool := match m with MRegInit _ _ => true | _ => false end.
Definition is_burn (m : cmsg) : bool := match m with MFairBurn _ => true | _ => false end.
Definition is_hook (m : cmsg) : bool := match m with MHook _ => true | _ => false end.
Fixpoint how_many (f : cmsg -> bool) (l : list cmsg) : nat :=
  match l with [] => 0%nat | m :: l => ((if f m then 1 else 0) + how_many f l)%nat end.

(** The contracts called as hooks, in order. *)
Fixpoint called (l : list cmsg) : list addr :=
  match l with [] => [] | MHook h :: l => h :: called l | _ :: l => called l end.

(** At most [n] messages of each kind: bank sends, NFT transfers, notes to the royalty registry, burns, hook calls. *)
Definition at_most (sends nfts regs burns hooks : nat) (l : list cmsg) : Prop :=
  (how_many is_send l <= sends /\ how_many is_nft l <= nfts /\ how_many is_reg l <= regs /\
  how_many is_burn l <= burns /\ how_many is_hook l <= hooks)%nat.

(** At most [n] entries differ. *)
Definition changes {K A} `{Countable K} (n : nat) (m m' : gmap K A) : Prop :=
  exists ks : list K, (length ks <= n)%nat /\ forall k, k ∉ ks -> m' !! k = m !! k.
