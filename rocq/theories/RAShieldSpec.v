(** Halts over whole histories: which halt windows are on record, and what protects the auctions that ended in one. *)
From stdpp Require Import relations.
From Verif Require Import Base Common RAModel RALedgerSpec.

(** One successful call or block hook at the time [now]. *)
Inductive happens (p : params) (lb : lib) (now : N) (st st' : state) : Prop :=
  | happens_user v e sender funds m msgs :
      sender <> p_self p -> e_time e = now -> execute p lb v e sender funds st m = Ok (st', msgs) -> happens p lb now st st'
  | happens_chain v e m msgs : e_time e = now -> sudo p lb v e st m = Ok (st', msgs) -> happens p lb now st st'.
(** Anything in the second [s] or later, while EndBlock has room for at least one auction. *)
Definition later (p : params) (lb : lib) (s : N) (st st' : state) : Prop :=
  exists now, s <= t_seconds now /\ 0 < cf_max_settle (s_config st) /\ happens p lb now st st'.

(** The auction [a] with the end [t] moved to [t']; nothing else is different. *)
Definition moved_to (a : auction) (t' : N) (a' : auction) : Prop :=
  a_coll a' = a_coll a /\ a_tok a' = a_tok a /\ a_seller a' = a_seller a /\ a_reserve a' = a_reserve a /\
  a_duration a' = a_duration a /\ a_end a' = Some t' /\ a_recipient a' = a_recipient a /\ a_high a' = a_high a /\ a_first a' = a_first a.
(** From [st] to [st'] nothing has happened to the auction [a] under [k], or the first thing was that its end was postponed to
    the configured time after then. *)
Definition untouched_until_postponed (p : params) (lb : lib) (s : N) (k : akey) (a : auction) (st st' : state) : Prop :=
  s_auctions st' !! k = Some a \/
  exists st1 now a' st2,
    rtc (later p lb s) st st1 /\ s_auctions st1 !! k = Some a /\
    s <= t_seconds now /\ happens p lb now st1 st2 /\
    moved_to a (now + cf_halt_postpone (s_config st1) * NANOS) a' /\ s_auctions st2 !! k = Some a' /\
    rtc (later p lb s) st2 st'.

(** The halt that a block beginning noticed: since the block before at least the threshold had gone by. *)
Definition halt_noticed (h : entry) : list halt_window :=
  match h with
  | Chain BeginBlock st st' _ =>
      let was := hm_prev (s_halt st) in let now := hm_prev (s_halt st') in
      if decide (0 < was /\ was + cf_halt_threshold (s_config st) <= now)
      then [HaltWindow was (now + cf_halt_buffer (s_config st))] else []
  | _ => []
  end.
(** An end of a block after which one window less is on record. *)
Definition drops (h : entry) : bool :=
  match h with
  | Chain EndBlock st st' _ => (length (hm_windows (s_halt st')) <? length (hm_windows (s_halt st)))%nat
  | _ => false
  end.
