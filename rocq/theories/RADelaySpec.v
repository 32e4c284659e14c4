(** What the clock means to calls of the reserve auction (C152). *)
From Verif Require Import Base Common Chain RAModel RASpec.

(** The same auction with another end and time of the first bid. *)
Definition with_clock (a : auction) (t : N) (first : option N) : auction :=
  Auction (a_coll a) (a_tok a) (a_seller a) (a_reserve a) (a_duration a) (Some t) (a_recipient a) (a_high a) first.
(** Nothing differs, or the second auction runs longer. *)
Inductive same_or_longer : option auction -> option auction -> Prop :=
  | same_auction o : same_or_longer o o
  | longer a t t' f f' : t <= t' -> same_or_longer (Some (with_clock a t f)) (Some (with_clock a t' f')).
(** Two storages that differ in the clock of one auction at most. *)
Definition same_but_clock (k : akey) (st st' : state) : Prop :=
  s_config st' = s_config st /\ s_mins st' = s_mins st /\ s_halt st' = s_halt st /\
  same_or_longer (s_auctions st !! k) (s_auctions st' !! k) /\ (forall k', k' <> k -> s_auctions st' !! k' = s_auctions st !! k').

Definition named (m : msg) : akey :=
  match m with
  | CreateAuction coll tok _ _ _ | UpdateReservePrice coll tok _ | CancelAuction coll tok | PlaceBid coll tok | SettleAuction coll tok => (coll, tok)
  end.
(** The deadline of a call: a bid must come before the auction has ended. *)
Definition in_time (st : state) (now : N) (m : msg) : Prop :=
  match m with
  | PlaceBid coll tok => forall a t, s_auctions st !! (coll, tok) = Some a -> a_end a = Some t -> t_seconds now < t_seconds t
  | _ => True
  end.
(** The clock may be advanced by the periods of the contract and the auction without leaving 64 bits. *)
Definition clock_fits (st : state) (now : N) (m : msg) : Prop :=
  (forall a, s_auctions st !! named m = Some a -> now + a_duration a * 1000000000 <= 18446744073709551615) /\
  now + cf_extend (s_config st) * 1000000000 <= 18446744073709551615 /\
  now + cf_halt_postpone (s_config st) * 1000000000 <= 18446744073709551615.
(** Calls that do not set the clock of an auction: all but bids, and settlements of auctions that ended in a halt. *)
Definition sets_no_clock (st : state) (m : msg) : Prop :=
  match m with
  | PlaceBid _ _ => False
  | SettleAuction coll tok => forall a t, s_auctions st !! (coll, tok) = Some a -> a_end a = Some t -> ~ halted (s_halt st) t
  | _ => True
  end.
