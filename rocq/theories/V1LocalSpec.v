(** What a call of marketplace v1 may look at and change: a specification of locality that uses nothing of the handlers. *)
From Verif Require Import Base Common Chain V1Model.

(** A place of the book: the listing of an NFT, somebody's bid for an NFT, somebody's bid for a collection. *)
Inductive slot : Type :=
  | AskOf (coll : string) (tok : N)
  | BidOf (coll : string) (tok : N) (who : string)
  | CBidOf (coll who : string).
Inductive content : Type := IsAsk (o : option ask) | IsBid (o : option bid) | IsCBid (o : option cbid).
Definition holds (st : state) (k : slot) : content :=
  match k with
  | AskOf c t => IsAsk (s_asks st !! (c, t))
  | BidOf c t u => IsBid (s_bids st !! (c, t, u))
  | CBidOf c u => IsCBid (s_cbids st !! (c, u))
  end.
(** The places a call of [s] is about. *)
Definition places (s : string) (m : msg) : list slot :=
  match m with
  | SetAsk _ c t _ _ _ _ _ | RemoveAsk c t | UpdateAskPrice c t _ | SyncAsk c t | RemoveStaleAsk c t => [AskOf c t]
  | SetBid c t _ _ _ | BuyNow c t _ _ _ | BuyFor c t _ _ _ _ => [AskOf c t; BidOf c t s]
  | RemoveBid c t => [BidOf c t s]
  | AcceptBid c t u _ => [AskOf c t; BidOf c t u]
  | RejectBid c t u | RemoveStaleBid c t u => [BidOf c t u]
  | SetCollectionBid c _ _ | RemoveCollectionBid c => [CBidOf c s]
  | AcceptCollectionBid c t u _ => [AskOf c t; CBidOf c u]
  | RemoveStaleCollectionBid c u => [CBidOf c u]
  end.
(** The collection a place and a call belong to. *)
Definition slot_coll (k : slot) : string := match k with AskOf c _ | BidOf c _ _ | CBidOf c _ => c end.
Definition about (m : msg) : string :=
  match m with
  | SetAsk _ c _ _ _ _ _ _ | RemoveAsk c _ | UpdateAskPrice c _ _ | SetBid c _ _ _ _ | BuyNow c _ _ _ _ | BuyFor c _ _ _ _ _
  | RemoveBid c _ | AcceptBid c _ _ _ | RejectBid c _ _ | SetCollectionBid c _ _ | RemoveCollectionBid c
  | AcceptCollectionBid c _ _ _ | SyncAsk c _ | RemoveStaleAsk c _ | RemoveStaleBid c _ _ | RemoveStaleCollectionBid c _ => c
  end.
(** Parameters and hooks: what governance sets. *)
Definition same_rules (st st0 : state) : Prop :=
  s_params st = s_params st0 /\ s_ask_hooks st = s_ask_hooks st0 /\ s_bid_hooks st = s_bid_hooks st0 /\
  s_sale_hooks st = s_sale_hooks st0 /\ s_cbid_hooks st = s_cbid_hooks st0.
Definition same_at (P : slot -> Prop) (st st0 : state) : Prop := same_rules st st0 /\ forall k, P k -> holds st k = holds st0 k.

(** What the caller and the chain see of a call: its messages, with the hook calls, or its error. *)
Definition answer (r : result (state * list smsg)) : result (list smsg) :=
  match r with Ok (_, ms) => Ok ms | Err e => Err e end.
(** A failed call changes nothing. *)
Definition next (st : state) (r : result (state * list smsg)) : state := match r with Ok (st', _) => st' | Err _ => st end.

(** A sequence of calls, each with the view and the block it is made in; calls may fail. *)
Record ucall : Type := UCall { u_view : view; u_env : env; u_sender : addr; u_funds : list coin; u_msg : msg }.
Inductive call : Type := ByUser (u : ucall) | ByChain (v : view) (e : env) (m : sudo_msg).
Section Run.
Context (p : params) (x : ext).
Definition result_of (st : state) (c : call) : result (state * list smsg) :=
  match c with
  | ByUser u => execute_sub p x (u_view u) (u_env u) (u_sender u) (u_funds u) st (u_msg u)
  | ByChain v e m => r ← sudo p v e st m; Ok (fst r, map SPlain (snd r))
  end.
Fixpoint run (st : state) (l : list call) : state :=
  match l with [] => st | c :: l => run (next st (result_of st c)) l end.
(** The calls of a sequence that concern a collection [c], with their outcomes. *)
Fixpoint seen (keep : call -> bool) (st : state) (l : list call) : list (call * result (list smsg)) :=
  match l with
  | [] => []
  | c :: l => (if keep c then [(c, answer (result_of st c))] else []) ++ seen keep (next st (result_of st c)) l
  end.
End Run.
(** The calls that concern a collection: those about it and those of governance. *)
Definition concerns (coll : string) (c : call) : bool :=
  match c with ByUser u => bool_decide (about (u_msg u) = coll) | ByChain _ _ _ => true end.
