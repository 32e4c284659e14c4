(** What a call of the reserve auction may look at and change: a specification of locality that uses nothing of the
    handlers. *)
From Verif Require Import Base Common Chain RAModel.

(** The NFT a call is about; its auction is the only one that matters. *)
Definition about (m : msg) : string * string :=
  match m with
  | CreateAuction c t _ _ _ | UpdateReservePrice c t _ | CancelAuction c t | PlaceBid c t | SettleAuction c t => (c, t)
  end.
(** Configuration, minimum prices and the record of halts. *)
Definition same_rules (st st0 : state) : Prop :=
  s_config st = s_config st0 /\ s_mins st = s_mins st0 /\ s_halt st = s_halt st0.
Definition same_at (k : string * string) (st st0 : state) : Prop :=
  same_rules st st0 /\ s_auctions st !! k = s_auctions st0 !! k.
(** Auctions are stored under the NFT they are for. *)
Definition well_keyed (st : state) : Prop :=
  forall (k : string * string) a, s_auctions st !! k = Some a -> (a_coll a, a_tok a) = k.

(** What the caller and the chain see of a call: its messages or its error.  A failed call changes nothing. *)
Definition answer (r : result (state * list cmsg)) : result (list cmsg) :=
  match r with Ok (_, ms) => Ok ms | Err e => Err e end.
Definition next (st : state) (r : result (state * list cmsg)) : state := match r with Ok (st', _) => st' | Err _ => st end.

(** A sequence of calls, each with the view and the block it is made in; calls may fail. *)
Record ucall : Type := UCall { u_view : view; u_env : env; u_sender : addr; u_funds : list coin; u_msg : msg }.
Inductive call : Type := ByUser (u : ucall) | ByChain (v : view) (e : env) (m : sudo_msg).
Section Run.
Context (p : params) (lb : lib).
Definition result_of (st : state) (c : call) : result (state * list cmsg) :=
  match c with
  | ByUser u => execute p lb (u_view u) (u_env u) (u_sender u) (u_funds u) st (u_msg u)
  | ByChain v e m => sudo p lb v e st m
  end.
Fixpoint run (st : state) (l : list call) : state :=
  match l with [] => st | c :: l => run (next st (result_of st c)) l end.
(** The calls of a sequence that [keep] selects, with their outcomes. *)
Fixpoint seen (keep : call -> bool) (st : state) (l : list call) : list (call * result (list cmsg)) :=
  match l with
  | [] => []
  | c :: l => (if keep c then [(c, answer (result_of st c))] else []) ++ seen keep (next st (result_of st c)) l
  end.
End Run.
(** The calls that concern an NFT: those about it and those of the chain. *)
Definition concerns (k : string * string) (c : call) : bool :=
  match c with ByUser u => bool_decide (about (u_msg u) = k) | ByChain _ _ _ => true end.
Definition ends_block (c : call) : bool := match c with ByChain _ _ EndBlock => true | _ => false end.
