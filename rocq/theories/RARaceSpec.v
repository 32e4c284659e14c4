(** A race (C142): several people bid on one auction in the same block; their calls are executed in some order, and a call that is
    refused has no effect. *)
From Verif Require Import Base Common Chain LedgerSpec RAModel RASpec.

(** A bidder and an amount. *)
Notation offer := (addr * N)%type.
Definition offer_call (a : auction) (o : offer) : addr * list coin * msg :=
  (fst o, [Coin (c_denom (a_reserve a)) (snd o)], PlaceBid (a_coll a) (a_tok a)).
(** The chain executes the transactions one after the other; those that fail leave no trace. *)
Fixpoint attempt_all (p : params) (lb : lib) (w : world state) (txs : list (addr * list coin * msg)) : world state :=
  match txs with
  | [] => w
  | (s, f, m) :: txs => attempt_all p lb (match run_tx p (execute p lb) w s f m with Ok w' => w' | Err _ => w end) txs
  end.
(** The least bid that beats a bid of [n]. *)
Definition beats (cfg : config) (m n : N) : Prop := n + ceil_div (n * cf_increment cfg) DEC_ONE <= m.
(** The bid is high enough for the auction as it stands. *)
Definition enough (cfg : config) (a : auction) (n : N) : Prop :=
  match a_high a with None => c_amount (a_reserve a) <= n | Some hb => beats cfg n (c_amount (hb_coin hb)) end.
(** The auction once the bid leads it. *)
Definition led_by (now : N) (cfg : config) (a : auction) (o : offer) : auction :=
  Auction (a_coll a) (a_tok a) (a_seller a) (a_reserve a) (a_duration a)
    (Some (match a_end a with
           | None => now + a_duration a * NANOS
           | Some t => if decide (t_seconds t < t_seconds now + cf_extend cfg) then now + cf_extend cfg * NANOS else t
           end))
    (a_recipient a) (Some (HighBid (Coin (c_denom (a_reserve a)) (snd o)) (fst o))) (Some (default now (a_first a))).

(** The auction is open; different people bid, who have the coins and can be paid back; no two bids are closer than the increment; the
    clock of an auction without bids is not set to less than one extension. *)
Record race (p : params) (w : world state) (a : auction) (os : list offer) : Prop := {
  rc_there : s_auctions (w_st w) !! (a_coll a, a_tok a) = Some a;
  rc_open : forall t, a_end a = Some t -> t_seconds (w_time w) < t_seconds t;
  rc_who : NoDup (fst <$> os);
  rc_fit : forall x n, (x, n) ∈ os -> x <> p_self p /\ x <> a_seller a /\ p_blocked p x = false /\
    0 < n <= U128_MAX /\ n <= w_bank w x (c_denom (a_reserve a));
  rc_apart : forall x n y m, (x, n) ∈ os -> (y, m) ∈ os -> x <> y -> beats (s_config (w_st w)) n m \/ beats (s_config (w_st w)) m n;
  rc_leader : forall hb, a_high a = Some hb -> p_blocked p (hb_bidder hb) = false;
  rc_clock : a_high a = None -> cf_extend (s_config (w_st w)) <= a_duration a;
  rc_time : w_time w + a_duration a * NANOS <= U64_MAX /\ w_time w + cf_extend (s_config (w_st w)) * NANOS <= U64_MAX;
}.
(** Nothing has happened. *)
Record untouched (w w' : world state) : Prop := {
  un_storage : w_st w' = w_st w;
  un_bank : forall x d, w_bank w' x d = w_bank w x d;
  un_nft : forall c t, w_nft w' c t = w_nft w c t;
}.
(** The coins of the leading bid. *)
Definition led_with (d : denom) (a : auction) : N := match a_high a with Some hb => of_denom d (hb_coin hb) | None => 0 end.
(** The offer leads, the offerer has paid for it, the leader before the race has been paid back, and nothing else has changed. *)
Record won_by (p : params) (w : world state) (a : auction) (o : offer) (w' : world state) : Prop := {
  wb_storage : w_st w' = State (s_config (w_st w)) (s_mins (w_st w)) (s_halt (w_st w))
    (<[(a_coll a, a_tok a) := led_by (w_time w) (s_config (w_st w)) a o]> (s_auctions (w_st w)));
  wb_bank : forall x d,
    w_bank w' x d + (if decide (x = fst o) then of_denom d (Coin (c_denom (a_reserve a)) (snd o)) else 0) +
      (if decide (x = p_self p) then led_with d a else 0) =
    w_bank w x d + (if decide (x = p_self p) then of_denom d (Coin (c_denom (a_reserve a)) (snd o)) else 0) +
      (match a_high a with Some hb => if decide (hb_bidder hb = x) then of_denom d (hb_coin hb) else 0 | None => 0 end);
  wb_nft : forall c t, w_nft w' c t = w_nft w c t;
}.
(** The highest offer, if it is high enough. *)
Definition winner (cfg : config) (a : auction) (os : list offer) (o : offer) : Prop :=
  o ∈ os /\ enough cfg a (snd o) /\ forall o', o' ∈ os -> snd o' <= snd o.
