(** The queue of due auctions: EndBlock takes a bounded number of auctions from it, in the order of their end. *)
From stdpp Require Import relations.
From Verif Require Import Base Common Chain ChainFacts RAModel RASpec.

(** The auctions in front of [a]. *)
Definition in_front (st : state) (a : auction) (l : list auction) : Prop :=
  NoDup l /\ forall b, b ∈ l <-> s_auctions st !! (a_coll b, a_tok b) = Some b /\ end_before (a_ekey b) (a_ekey a).
(** Any calls and blocks after the end of second [s]; the EndBlocks among them have room for [n] auctions in all. *)
Inductive passes (p : params) (lb : lib) (s : N) : state -> nat -> state -> Prop :=
  | passes_none st : passes p lb s st 0 st
  | passes_user st v e sender funds m st1 msgs n st' :
      sender <> p_self p -> s < t_seconds (e_time e) -> execute p lb v e sender funds st m = Ok (st1, msgs) ->
      passes p lb s st1 n st' -> passes p lb s st n st'
  | passes_end st v e st1 msgs n st' :
      s < t_seconds (e_time e) -> sudo p lb v e st EndBlock = Ok (st1, msgs) ->
      passes p lb s st1 n st' -> passes p lb s st (N.to_nat (cf_max_settle (s_config st)) + n) st'
  | passes_sudo st v e m st1 msgs n st' :
      m <> EndBlock -> s < t_seconds (e_time e) -> sudo p lb v e st m = Ok (st1, msgs) ->
      passes p lb s st1 n st' -> passes p lb s st n st'.
(** [n] EndBlocks in a row. *)
Fixpoint end_blocks (p : params) (lb : lib) (n : nat) (w : world state) : result (world state) :=
  match n with
  | O => Ok w
  | S n => match run_sudo p lb w EndBlock with Ok w1 => end_blocks p lb n w1 | Err er => Err er end
  end.
