(** Range scans over cw-storage-plus [MultiIndex] prefixes with sg-index-query [QueryOptions].
    Entries below one index prefix are ordered by (index suffix, primary key) in byte order; amounts are
    stored big-endian with fixed width, so their byte order is the numeric order.  (Library behaviour, trusted.) *)
From Verif Require Import Base.

Inductive qbound (K : Type) : Type := BIncl (k : K) | BExcl (k : K).
Global Arguments BIncl {K}. Global Arguments BExcl {K}.

(** sg_index_query::QueryOptions *)
Record qopts (K : Type) : Type := QOpts {
  qo_desc : option bool;
  qo_limit : option N;
  qo_min : option (qbound K);
  qo_max : option (qbound K);
}.
Global Arguments QOpts {K}. Global Arguments qo_desc {K}. Global Arguments qo_limit {K}.
Global Arguments qo_min {K}. Global Arguments qo_max {K}.

(** sg_index_query defaults (assumed: default 10, maximum 100). *)
Definition DEFAULT_QUERY_LIMIT : N := 10.
Definition MAX_QUERY_LIMIT : N := 100.
Definition qo_limit_nat {K} (o : qopts K) : nat :=
  N.to_nat (N.min (default DEFAULT_QUERY_LIMIT (qo_limit o)) MAX_QUERY_LIMIT).
Definition qo_default {K} : qopts K := QOpts None None None None.

(** (amount, id) keys of the price indexes. *)
Definition pkey : Type := N * string.
Definition pkey_leb (x y : pkey) : bool :=
  (fst x <? fst y) || ((fst x =? fst y) && str_leb (snd x) (snd y)).

Section Range.
Context {K A : Type} (leb : K -> K -> bool) (key : A -> K).

Definition in_min (b : option (qbound K)) (k : K) : bool :=
  match b with None => true | Some (BIncl m) => leb m k | Some (BExcl m) => negb (leb k m) end.
Definition in_max (b : option (qbound K)) (k : K) : bool :=
  match b with None => true | Some (BIncl m) => leb k m | Some (BExcl m) => negb (leb m k) end.

Fixpoint insert_sorted (x : A) (l : list A) : list A :=
  match l with
  | [] => [x]
  | y :: l' => if leb (key x) (key y) then x :: y :: l' else y :: insert_sorted x l'
  end.
Definition sort_by (l : list A) : list A := foldr insert_sorted [] l.

Definition index_scan (l : list A) (o : qopts K) : list A :=
  let inb := List.filter (fun x => in_min (qo_min o) (key x) && in_max (qo_max o) (key x)) (sort_by l) in
  if default false (qo_desc o) then reverse inb else inb.
Definition index_range (l : list A) (o : qopts K) : list A :=
  take (qo_limit_nat o) (index_scan l o).
End Range.
