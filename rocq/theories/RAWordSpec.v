(** Vocabulary for C149: histories on a 32-bit machine, and the storage with the limit that such a machine sees. *)
From stdpp Require Import relations.
From Verif Require Import Base Common RAModel RASpec RAWordModel.

(** As [RASpec.ra_history], with the calls as they run on a 32-bit machine. *)
Inductive ra_call_32 (p : params) (lb : lib) (st st' : state) : Prop :=
  | call_execute_32 v e sender funds m msgs :
      sender <> p_self p -> execute p lb v e sender funds st m = Ok (st', msgs) -> ra_call_32 p lb st st'
  | call_sudo_32 v e m msgs : sudo_32 p lb v e st m = Ok (st', msgs) -> ra_call_32 p lb st st'.
Definition ra_history_32 (p : params) (lb : lib) (st : state) : Prop :=
  exists c mins st0, instantiate p c mins = Ok st0 /\ rtc (ra_call_32 p lb) st0 st.

(** The last 32 bits of a number. *)
Definition low_bits (n : N) : N := n - (n / 4294967296) * 4294967296.
(** The configuration, the storage and a message with the last 32 bits of the limit in place of the limit. *)
Definition low_config (c : config) : config :=
  Config (cf_fair_burn c) (cf_trading_fee c) (cf_increment c) (cf_min_duration c) (cf_max_duration c) (cf_extend c)
         (cf_create_fee c) (low_bits (cf_max_settle c)) (cf_halt_threshold c) (cf_halt_buffer c) (cf_halt_postpone c).
Definition low_state (st : state) : state := State (low_config (s_config st)) (s_mins st) (s_halt st) (s_auctions st).
Definition low_msg (m : sudo_msg) : sudo_msg :=
  match m with
  | UpdateParams u =>
      UpdateParams (ParamsUpdate (u_fair_burn u) (u_trading_fee u) (u_increment u) (u_min_duration u) (u_extend u) (u_create_fee u)
                                 (low_bits <$> u_max_settle u) (u_halt_threshold u) (u_halt_buffer u) (u_halt_postpone u))
  | _ => m
  end.
(** What a call answers, seen with the low limit. *)
Definition low_answer (r : result (state * list cmsg)) : result (state * list cmsg) :=
  match r with Ok (st, ms) => Ok (low_state st, ms) | Err x => Err x end.

(** With this limit EndBlock, if it goes through, sells the auction that is due first, unless that one ended in a halt. *)
Definition keeps_settling (p : params) (lb : lib) (limit : N) : Prop :=
  forall st v e st' ms a t, ra_history_32 p lb st -> cf_max_settle (s_config st) = limit ->
    sudo_32 p lb v e st EndBlock = Ok (st', ms) ->
    s_auctions st !! (a_coll a, a_tok a) = Some a -> due (e_time e) a -> a_end a = Some t -> ~ halted (s_halt st) t ->
    (forall b, s_auctions st !! (a_coll b, a_tok b) = Some b -> due (e_time e) b -> b = a \/ end_before (a_ekey a) (a_ekey b)) ->
    s_auctions st' !! (a_coll a, a_tok a) = None.
