(** Processing ended auctions one by one (C147): what EndBlock does, by ordinary calls. *)
From Verif Require Import Base Common Chain RAModel RASpec.

(** The callers [whos] settle the auctions [l] one after the other, within one block; [ms] are all messages, in order. *)
Inductive settling (p : params) (lb : lib) (v : view) (e : env) : list addr -> list auction -> state -> state -> list cmsg -> Prop :=
  | settled_all st : settling p lb v e [] [] st st []
  | settled_next who whos a l st st1 st2 ms ms' :
      execute p lb v e who [] st (SettleAuction (a_coll a) (a_tok a)) = Ok (st1, ms) -> settling p lb v e whos l st1 st2 ms' ->
      settling p lb v e (who :: whos) (a :: l) st st2 (ms ++ ms').
(** Two states that differ at most in the halt windows on record. *)
Definition same_but_windows (st st' : state) : Prop :=
  s_config st = s_config st' /\ s_mins st = s_mins st' /\ s_auctions st = s_auctions st' /\ hm_prev (s_halt st) = hm_prev (s_halt st').
