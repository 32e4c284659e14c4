(** How long an auction can go on: calls from one state to another, the bids among them on one NFT. *)
From Verif Require Import Base Common RAModel RASpec RALedgerSpec.
Local Open Scope N_scope.

(** [l] is what happened between [st] and [st']. *)
Inductive path (p : params) (lb : lib) (st : state) : list entry -> state -> Prop :=
  | path_none : path p lb st [] st
  | path_next l st1 h st2 : path p lb st l st1 -> recorded p lb st1 st2 h -> path p lb st (l ++ [h]) st2.

Section Bounds.
Context (k : akey).
(** The bids on [k]. *)
Definition is_bid (h : entry) : bool :=
  match h with User _ _ (PlaceBid coll tok) _ _ _ => bool_decide (((coll, tok) : akey) = k) | _ => false end.
Fixpoint bid_count (l : list entry) : N :=
  match l with [] => 0 | h :: l => (if is_bid h then 1 else 0) + bid_count l end.
(** The auction is there after every call. *)
Definition goes_on (l : list entry) : Prop := Forall (fun h => is_Some (s_auctions (e_after h) !! k)) l.
(** The bid increment is at least [i] (with 18 decimals), the extension at most [x] seconds. *)
Definition increments_from (i : N) (l : list entry) : Prop := Forall (fun h => i <= cf_increment (s_config (e_before h))) l.
Definition extensions_to (x : N) (l : list entry) : Prop := Forall (fun h => cf_extend (s_config (e_before h)) <= x) l.
(** No bid is higher than [b]. *)
Definition bids_to (b : N) (l : list entry) : Prop :=
  Forall (fun h => match h with
    | User _ f (PlaceBid coll tok) _ _ _ => ((coll, tok) : akey) = k -> forall c, c ∈ f -> c_amount c <= b
    | _ => True end) l.
(** The auction never ends in a halt of the chain. *)
Definition no_halts (l : list entry) : Prop :=
  Forall (fun h => forall a t, s_auctions (e_before h) !! k = Some a -> a_end a = Some t -> ~ halted (s_halt (e_before h)) t) l.
End Bounds.
