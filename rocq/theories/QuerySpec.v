(** Specification of ordered, paged queries, independent of how they are computed. *)
From Coq Require Import String.
From Verif Require Import Base IndexRange.

(** Orders on keys: identifiers bytewise, price keys by price and then identifier. *)
Definition id_before (x y : string) : Prop := String.compare x y = Lt.
Definition price_before (x y : N * string) : Prop := fst x < fst y \/ (fst x = fst y /\ id_before (snd x) (snd y)).

Section Spec.
Context {K A : Type} (before : K -> K -> Prop) (key : A -> K) (matching : A -> Prop).

Definition in_range (o : qopts K) (k : K) : Prop :=
  match qo_min o with None => True | Some (BIncl m) => ~ before k m | Some (BExcl m) => before m k end /\
  match qo_max o with None => True | Some (BIncl m) => ~ before m k | Some (BExcl m) => before k m end.
Definition descending (o : qopts K) : bool := match qo_desc o with Some b => b | None => false end.
(** Ten entries unless asked otherwise, never more than a hundred. *)
Definition page_size (o : qopts K) : nat := N.to_nat (N.min (match qo_limit o with Some n => n | None => 10 end) 100).
(** [x] is listed before [y]. *)
Definition precedes (desc : bool) (x y : A) : Prop :=
  if desc then before (key y) (key x) else before (key x) (key y).

(** A page: matching entries inside the bounds, in strict order, no more than the limit, and nothing that
    should come earlier is left out. *)
Record page (o : qopts K) (res : list A) : Prop := {
  page_sorted : StronglySorted (precedes (descending o)) res;
  page_sound : forall x, x ∈ res -> matching x /\ in_range o (key x);
  page_limit : (length res <= page_size o)%nat;
  page_complete : forall x, matching x -> in_range o (key x) ->
    x ∈ res \/ (length res = page_size o /\ forall y, y ∈ res -> precedes (descending o) y x);
}.

(** Walking through all pages: ask again, starting after the last key seen, until a page is empty. *)
Fixpoint walk (query : qopts K -> list A) (desc : bool) (limit : option N) (after : option K) (fuel : nat) : list A :=
  match fuel with
  | O => []
  | S fuel =>
      let o := if desc then QOpts (Some true) limit None (BExcl <$> after)
               else QOpts (Some false) limit (BExcl <$> after) None in
      let res := query o in
      match last res with
      | None => []
      | Some x => res ++ walk query desc limit (Some (key x)) fuel
      end
  end.
End Spec.

(** A complete walk: strictly in order (so nothing twice) and exactly the matching entries. *)
Definition complete_walk {K A} (before : K -> K -> Prop) (key : A -> K) (matching : A -> Prop) (desc : bool)
    (res : list A) : Prop :=
  StronglySorted (precedes before key desc) res /\ (forall x, x ∈ res <-> matching x).

(** What the caller asks for: entries after the given one, in the order asked for (ascending unless said otherwise). *)
Definition opts_after {K} (desc : option bool) (limit : option N) (after : option K) : qopts K :=
  match desc with
  | Some true => QOpts (Some true) limit None (BExcl <$> after)
  | _ => QOpts (Some false) limit (BExcl <$> after) None
  end.
