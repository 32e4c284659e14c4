(** The properties of the reserve auction (C34-C51, C68-C74 and C101-C105 of properties.jsonl).  They hold for every behaviour [lib]
    of the external crate.  Each theorem is closed by a lemma proved elsewhere; what it rests on is printed beneath
    it, and an example shows a concrete case meeting its hypotheses. *)
From stdpp Require Import relations.
From Verif Require Import Base BaseFacts Common Chain ChainFacts IndexRange QuerySpec RAModel RASpec RAFacts RAIndex RAInv RAReach
  RAFinal RALive RAHalt RAQuery RAMore RAExamples RARefute.

Section Forms.
Context (p : params) (lb : lib).
Lemma custody_form w k a : ra_reachable p lb w -> s_auctions (w_st w) !! k = Some a -> p_honest p (a_coll a) = true ->
  w_nft w (a_coll a) (a_tok a) = Some (p_self p).
Proof. intros Hw Ha. by destruct (auction_custody p lb w k a Hw Ha). Qed.
Lemma unique_form w k1 k2 a1 a2 : ra_reachable p lb w -> s_auctions (w_st w) !! k1 = Some a1 -> s_auctions (w_st w) !! k2 = Some a2 ->
  a_coll a1 = a_coll a2 -> a_tok a1 = a_tok a2 -> k1 = k2.
Proof.
  intros Hw H1 H2 Ec Et. destruct (auction_custody p lb w k1 a1 Hw H1) as [-> _], (auction_custody p lb w k2 a2 Hw H2) as [-> _]. congruence.
Qed.
Lemma bid_form st v e sender funds coll tok st' msgs :
  ra_history p lb st -> execute p lb v e sender funds st (PlaceBid coll tok) = Ok (st', msgs) ->
  exists a n a', s_auctions st !! (coll, tok) = Some a /\ funds = [Coin (c_denom (a_reserve a)) n] /\ 0 < n /\
    s_auctions st' !! (coll, tok) = Some a' /\ a_high a' = Some (HighBid (Coin (c_denom (a_reserve a)) n) sender) /\
    match a_high a with
    | None => c_amount (a_reserve a) <= n
    | Some hb => c_denom (hb_coin hb) = c_denom (a_reserve a) /\ c_amount (hb_coin hb) < n /\
        c_amount (hb_coin hb) + ceil_div (c_amount (hb_coin hb) * cf_increment (s_config st)) DEC_ONE <= n
    end.
Proof.
  intros Hst H. destruct (bid_rule p lb _ _ _ _ _ _ _ _ _ Hst H) as (a&n&a'&Ha&Hf&Ha'&Hh&_&Hbt).
  exists a, n, a'. split_and!; [done|done|by destruct Hbt|done|done|].
  destruct (a_high a) as [hb|] eqn:Ehb.
  - destruct (history_auction p lb st _ _ Hst Ha) as [_ Hok]. destruct (aok_bid _ _ Hok _ Ehb) as (Hd&Hpos&_).
    destruct (bid_beats p lb st a n sender e a' msgs Hst Hbt hb Ehb Hpos). done.
  - pose proof (bt_min _ _ _ _ _ _ _ Hbt) as Hm. by rewrite Ehb in Hm.
Qed.
Lemma phase_form st k a : ra_history p lb st -> s_auctions st !! k = Some a -> phase a.
Proof. intros Hst Ha. destruct (history_auction p lb st k a Hst Ha) as [_ Hok]. by apply aok_phase in Hok. Qed.
Lemma no_self_bid_form st k a hb : ra_history p lb st -> s_auctions st !! k = Some a -> a_high a = Some hb -> hb_bidder hb <> a_seller a.
Proof. intros Hst Ha Hh. destruct (history_auction p lb st k a Hst Ha) as [_ Hok]. by destruct (aok_bid _ _ Hok _ Hh) as (_&_&?&_). Qed.
Lemma no_late_bid_form st v e sender funds coll tok st' msgs a t :
  ra_history p lb st -> execute p lb v e sender funds st (PlaceBid coll tok) = Ok (st', msgs) ->
  s_auctions st !! (coll, tok) = Some a -> a_end a = Some t -> t_seconds (e_time e) < t_seconds t.
Proof.
  intros Hst H Ha Ht. destruct (bid_end p lb _ _ _ _ _ _ _ _ _ Hst H) as (a1&a'&t'&Ha1&_&_&Hm).
  assert (a1 = a) as -> by congruence. rewrite Ht in Hm. by destruct Hm.
Qed.
Lemma no_early_settle_form st v e sender funds coll tok st' msgs a :
  ra_history p lb st -> execute p lb v e sender funds st (SettleAuction coll tok) = Ok (st', msgs) ->
  s_auctions st !! (coll, tok) = Some a -> exists t, a_end a = Some t /\ t <= e_time e.
Proof.
  intros Hst H Ha. destruct (settle_rule p lb _ _ _ _ _ _ _ _ _ Hst H) as (a1&o&Ha1&_&Ho&_).
  assert (a1 = a) as -> by congruence. destruct Ho; eauto.
Qed.
Lemma settle_form st v e sender funds coll tok st' msgs a t :
  ra_history p lb st -> execute p lb v e sender funds st (SettleAuction coll tok) = Ok (st', msgs) ->
  s_auctions st !! (coll, tok) = Some a -> a_end a = Some t -> ~ halted (s_halt st) t ->
  exists hb sp, a_high a = Some hb /\ splits hb sp /\ rates lb v (s_config st) a hb sp /\ msgs = settlement a hb sp /\
    (forall d, out msgs d = in_denom d (hb_coin hb)) /\
    s_auctions st' !! (coll, tok) = None /\ (forall k, k <> (coll, tok) -> s_auctions st' !! k = s_auctions st !! k).
Proof.
  intros Hst H Ha Ht Hh. destruct (settle_rule p lb _ _ _ _ _ _ _ _ _ Hst H) as (a1&o&Ha1&_&Ho&Ho'&Hk).
  assert (a1 = a) as -> by congruence.
  destruct (outcome_sold _ _ _ _ _ _ _ _ _ Ho Ht Hh) as (_&->&hb&sp&H1&H2&H3&->).
  exists hb, sp. split_and!; try done. intros d. by apply out_settlement.
Qed.
Lemma users_form st v e s f m st' msgs : ra_history p lb st -> execute p lb v e s f st m = Ok (st', msgs) ->
  s_config st' = s_config st /\ s_mins st' = s_mins st /\ s_halt st' = s_halt st.
Proof. intros Hst. apply (execute_config p lb). by apply (history_wf p lb). Qed.
Lemma blocks_form st v e m st' msgs : ra_history p lb st -> m = BeginBlock \/ m = EndBlock ->
  sudo p lb v e st m = Ok (st', msgs) -> s_config st' = s_config st /\ s_mins st' = s_mins st.
Proof. intros Hst. apply (block_config p lb). by apply (history_wf p lb). Qed.
Lemma fee_form st v e sender funds coll tok reserve duration recipient st' msgs :
  ra_history p lb st -> execute p lb v e sender funds st (CreateAuction coll tok reserve duration recipient) = Ok (st', msgs) ->
  let fee := cf_create_fee (s_config st) in
  (c_amount fee = 0 /\ funds = [] /\ msgs = [MNft coll tok (p_self p)]) \/
  (0 < c_amount fee /\ c_amount fee <= amt funds (c_denom fee) /\ msgs = [MFairBurn fee; MNft coll tok (p_self p)]).
Proof. intros Hst H. by destruct (create_rule p lb _ _ _ _ _ _ _ _ _ _ _ _ Hst H) as (_&_&_&_&_&_&_&?). Qed.
Lemma create_form st v e sender funds coll tok reserve duration recipient st' msgs :
  ra_history p lb st -> execute p lb v e sender funds st (CreateAuction coll tok reserve duration recipient) = Ok (st', msgs) ->
  (exists m, s_mins st !! c_denom reserve = Some m /\ m <= c_amount reserve) /\
  cf_min_duration (s_config st) <= duration <= cf_max_duration (s_config st).
Proof. intros Hst H. by destruct (create_rule p lb _ _ _ _ _ _ _ _ _ _ _ _ Hst H) as (_&?&?&_). Qed.
Lemma reprice_form st v e sender funds coll tok reserve st' msgs :
  ra_history p lb st -> execute p lb v e sender funds st (UpdateReservePrice coll tok reserve) = Ok (st', msgs) ->
  exists m, s_mins st !! c_denom reserve = Some m /\ m <= c_amount reserve.
Proof. intros Hst H. by destruct (reprice_rule p lb _ _ _ _ _ _ _ _ _ _ Hst H) as (a&_&_&_&_&_&?&_). Qed.
Lemma appear_form st st' k a' : ra_history p lb st -> ra_call p lb st st' ->
  s_auctions st !! k = None -> s_auctions st' !! k = Some a' ->
  exists v e sender funds coll tok reserve duration recipient msgs, k = (coll, tok) /\
    execute p lb v e sender funds st (CreateAuction coll tok reserve duration recipient) = Ok (st', msgs) /\
    (forall o, q_owner v coll tok = Some o -> o = sender) /\
    a' = Auction coll tok sender reserve duration None recipient None None.
Proof.
  intros Hst [v e sender funds m msgs Hs H|v e m msgs H] Hn Ha; pose proof (history_wf p lb _ Hst) as Hwf.
  - destruct (new_auction p lb _ _ _ _ _ _ _ _ _ _ Hwf H Hn Ha) as (c&t&r&du&rc&->&->&->).
    exists v, e, sender, funds, c, t, r, du, rc, msgs. split_and!; try done.
    by destruct (create_rule p lb _ _ _ _ _ _ _ _ _ _ _ _ Hst H) as (_&_&_&?&_).
  - assert (Some a' = None) as E by (rewrite <-Ha; exact (new_auction_sudo p lb _ _ _ _ _ _ _ Hwf H Hn)). done.
Qed.
Lemma seller_page_form w seller desc limit after res : ra_reachable p lb w ->
  query_auctions_by_seller p (w_st w) seller desc limit after = Ok res ->
  page key_before a_key (fun x => s_auctions (w_st w) !! a_key x = Some x /\ a_seller x = seller)
    (opts_after desc limit after) res.
Proof. intros Hw. rewrite <-unpack_after. apply seller_page. by apply (reachable_wf p lb). Qed.
Lemma seller_walk_form w seller desc limit fuel : ra_reachable p lb w ->
  p_valid p seller = true -> limit <> Some 0 -> (size (s_auctions (w_st w)) < fuel)%nat ->
  complete_walk key_before a_key (fun x => s_auctions (w_st w) !! a_key x = Some x /\ a_seller x = seller) desc
    (walk a_key (fun o => match query_auctions_by_seller p (w_st w) seller (qo_desc o) (qo_limit o)
                                  (match (if desc then qo_max o else qo_min o) with Some (BExcl k) => Some k | _ => None end) with
                          | Ok l => l | Err _ => [] end) desc limit None fuel).
Proof. intros Hw. apply seller_walk. by apply (reachable_wf p lb). Qed.
Lemma end_page_form w t desc limit after : ra_reachable p lb w ->
  page end_before a_ekey
    (fun x => s_auctions (w_st w) !! a_key x = Some x /\ (default false desc = false -> end_second x < U64_MAX))
    (opts_after desc limit (Some (t, default ("", "") after)))
    (query_auctions_by_end_time (w_st w) t desc limit after).
Proof. intros Hw. rewrite <-unpack_after. apply (end_page p). by apply (reachable_wf p lb). Qed.
Lemma end_walk_form w desc limit t after fuel : ra_reachable p lb w ->
  limit <> Some 0 -> (size (s_auctions (w_st w)) < fuel)%nat ->
  complete_walk end_before a_ekey
    (fun x => (s_auctions (w_st w) !! a_key x = Some x /\ (desc = false -> end_second x < U64_MAX)) /\
      if desc then end_before (a_ekey x) (t, default ("", "") after) else end_before (t, default ("", "") after) (a_ekey x))
    desc (end_walk (w_st w) desc limit t after fuel).
Proof. intros Hw. apply (end_walk_all p). by apply (reachable_wf p lb). Qed.
Lemma mins_page_form st desc limit after :
  page id_before c_denom (fun c => s_mins st !! c_denom c = Some (c_amount c))
    (opts_after desc limit after) (query_min_reserve_prices st desc limit after).
Proof. rewrite <-unpack_after. apply mins_page. Qed.
Lemma query_auction_form st coll tok o :
  query_auction p st coll tok = Ok o <-> p_valid p coll = true /\ o = s_auctions st !! (coll, tok).
Proof.
  unfold query_auction, addr_validate. destruct (p_valid p coll); cbn.
  - split; [intros E; by injection E as <-|by intros [_ ->]].
  - split; [done|by intros [? _]].
Qed.
End Forms.

(** The situation of the examples: alice's auction of token 1 ends at 4600 s; carol's bid of 105 is the highest. *)
Definition w1 : world state := rw1 lib1.
Definition st1 : state := w_st w1.
Lemma w1_reachable : ra_reachable p1 lib1 w1.
Proof. apply rw1_reachable. Qed.
Lemma st1_history : ra_history p1 lib1 st1.
Proof. by apply reachable_history, w1_reachable. Qed.
Lemma st1_auction : s_auctions st1 !! ("coll1", "1") = Some auction1.
Proof. by vm_compute. Qed.
Definition late (n : N) : env := Env 20 (sec n).
(** [call e s f m] is the result of a call, [state_of] and [msgs_of] its parts. *)
Definition call (e : env) (s : addr) (f : list coin) (m : msg) : result (state * list cmsg) :=
  execute p1 lib1 (view_of p1 w1) e s f st1 m.
Definition state_of (r : result (state * list cmsg)) : state := match r with Ok (s, _) => s | Err _ => st1 end.
Definition msgs_of (r : result (state * list cmsg)) : list cmsg := match r with Ok (_, m) => m | Err _ => [] end.
Lemma call_ok e s f m : is_ok (call e s f m) = true -> execute p1 lib1 (view_of p1 w1) e s f st1 m = Ok (state_of (call e s f m), msgs_of (call e s f m)).
Proof. unfold call. by destruct (execute _ _ _ _ _ _ _ _) as [[? ?]|]. Qed.

(** * C34 *)
Theorem C34_auction_escrow : forall p lb w d, ra_reachable p lb w -> high_total (w_st w) d <= w_bank w (p_self p) d.
Proof. exact reachable_funded. Qed.
Print Assumptions C34_auction_escrow.
Example C34_case : ra_reachable p1 lib1 w1 /\ high_total (w_st w1) "ustars" = 105 /\ w_bank w1 "aucti" "ustars" = 105.
Proof. split; [exact w1_reachable|]. by vm_compute. Qed.

(** * C35 *)
Theorem C35_custody : forall p lb w k a, ra_reachable p lb w -> s_auctions (w_st w) !! k = Some a ->
  p_honest p (a_coll a) = true -> w_nft w (a_coll a) (a_tok a) = Some (p_self p).
Proof. exact custody_form. Qed.
Print Assumptions C35_custody.
Theorem C35_one_auction_per_nft : forall p lb w k1 k2 a1 a2, ra_reachable p lb w ->
  s_auctions (w_st w) !! k1 = Some a1 -> s_auctions (w_st w) !! k2 = Some a2 ->
  a_coll a1 = a_coll a2 -> a_tok a1 = a_tok a2 -> k1 = k2.
Proof. exact unique_form. Qed.
Print Assumptions C35_one_auction_per_nft.
Example C35_case : ra_reachable p1 lib1 w1 /\ s_auctions (w_st w1) !! ("coll1", "1") = Some auction1 /\
  p_honest p1 (a_coll auction1) = true /\ w_nft w1 "coll1" "1" = Some "aucti" /\ w_nft w1 "coll1" "2" = Some "alice".
Proof. split; [exact w1_reachable|]. split; [exact st1_auction|]. by vm_compute. Qed.

(** * C36 *)
Theorem C36_bid_minimum : forall p lb st v e sender funds coll tok st' msgs,
  ra_history p lb st -> execute p lb v e sender funds st (PlaceBid coll tok) = Ok (st', msgs) ->
  exists a n a', s_auctions st !! (coll, tok) = Some a /\ funds = [Coin (c_denom (a_reserve a)) n] /\ 0 < n /\
    s_auctions st' !! (coll, tok) = Some a' /\ a_high a' = Some (HighBid (Coin (c_denom (a_reserve a)) n) sender) /\
    match a_high a with
    | None => c_amount (a_reserve a) <= n
    | Some hb => c_denom (hb_coin hb) = c_denom (a_reserve a) /\ c_amount (hb_coin hb) < n /\
        c_amount (hb_coin hb) + ceil_div (c_amount (hb_coin hb) * cf_increment (s_config st)) DEC_ONE <= n
    end.
Proof. exact bid_form. Qed.
Print Assumptions C36_bid_minimum.
(** Over a whole history the high bid of an auction only rises, and stays in its denom. *)
Theorem C36_bids_rise : forall p lb st st' k a a' hb,
  ra_history p lb st -> ra_call p lb st st' ->
  s_auctions st !! k = Some a -> s_auctions st' !! k = Some a' -> a_high a = Some hb ->
  exists hb', a_high a' = Some hb' /\ c_denom (hb_coin hb') = c_denom (hb_coin hb) /\
    (hb' = hb \/
     c_amount (hb_coin hb) + ceil_div (c_amount (hb_coin hb) * cf_increment (s_config st)) DEC_ONE <= c_amount (hb_coin hb') /\
     c_amount (hb_coin hb) < c_amount (hb_coin hb')).
Proof. exact bids_rise. Qed.
Print Assumptions C36_bids_rise.
(** 105 * 1.05 = 110.25: a bid of 111 is accepted, one of 110 is not. *)
Example C36_case : ra_history p1 lib1 st1 /\ is_ok (call (late 1020) "bobby" [us 111] (PlaceBid "coll1" "1")) = true /\
  is_ok (call (late 1020) "bobby" [us 110] (PlaceBid "coll1" "1")) = false /\ ceil_div (105 * 50000000000000000) DEC_ONE = 6.
Proof. split; [exact st1_history|]. by vm_compute. Qed.

(** * C37 *)
Theorem C37_outbid_refund : forall p lb st v e sender funds coll tok st' msgs a hb,
  ra_history p lb st -> execute p lb v e sender funds st (PlaceBid coll tok) = Ok (st', msgs) ->
  s_auctions st !! (coll, tok) = Some a -> a_high a = Some hb -> msgs = [MSend (hb_bidder hb) [hb_coin hb]].
Proof. exact bid_refund. Qed.
Print Assumptions C37_outbid_refund.
(** On the chain: the bidder pays the bid, the previous bidder gets theirs back, nobody else's balance changes. *)
Theorem C37_outbid_balances : forall p lb w sender funds coll tok w' a,
  ra_reachable p lb w -> texec p (execute p lb) sender funds (PlaceBid coll tok) w w' ->
  s_auctions (w_st w) !! (coll, tok) = Some a ->
  exists n, funds = [Coin (c_denom (a_reserve a)) n] /\
    (forall x d, w_bank w' x d + (if decide (x = sender) then amt funds d else 0) +
                 (if decide (x = p_self p) then owed d a else 0) =
       w_bank w x d + (if decide (x = p_self p) then amt funds d else 0) +
       match a_high a with
       | Some hb => if decide (hb_bidder hb = x) then in_denom d (hb_coin hb) else 0
       | None => 0
       end) /\
    (forall c t, w_nft w' c t = w_nft w c t).
Proof. exact bid_refund_world. Qed.
Print Assumptions C37_outbid_balances.
Definition outbid1 : act := Tx "bobby" [us 200] (PlaceBid "coll1" "1").
Example C37_case : ra_reachable p1 lib1 w1 /\ s_auctions (w_st w1) !! ("coll1", "1") = Some auction1 /\
  texec p1 (execute p1 lib1) "bobby" [us 200] (PlaceBid "coll1" "1") w1 (after lib1 w1 [outbid1]) /\
  msgs_of (call (env_of w1) "bobby" [us 200] (PlaceBid "coll1" "1")) = [MSend "carol" [us 105]] /\
  w_bank w1 "carol" "ustars" = 999895 /\ w_bank (after lib1 w1 [outbid1]) "carol" "ustars" = 1000000 /\
  w_bank (after lib1 w1 [outbid1]) "aucti" "ustars" = 200.
Proof.
  split; [exact w1_reachable|]. split; [exact st1_auction|].
  split; [apply run_tx_sound, after_tx; by vm_compute|]. by vm_compute.
Qed.

(** * C38 *)
Theorem C38_phases : forall p lb st k a, ra_history p lb st -> s_auctions st !! k = Some a -> phase a.
Proof. exact phase_form. Qed.
Print Assumptions C38_phases.
Example C38_case : ra_history p1 lib1 st1 /\ s_auctions st1 !! ("coll1", "1") = Some auction1 /\
  a_first auction1 = Some (sec 1000) /\ a_end auction1 = Some (sec 4600) /\ a_high auction1 = Some high1.
Proof. split; [exact st1_history|]. split; [exact st1_auction|done]. Qed.

(** * C39 *)
Theorem C39_bid_end : forall p lb st v e sender funds coll tok st' msgs,
  ra_history p lb st -> execute p lb v e sender funds st (PlaceBid coll tok) = Ok (st', msgs) ->
  exists a a' t', s_auctions st !! (coll, tok) = Some a /\ s_auctions st' !! (coll, tok) = Some a' /\ a_end a' = Some t' /\
    match a_end a with
    | None => t' = e_time e + a_duration a * NANOS
    | Some t => t_seconds (e_time e) < t_seconds t /\ t <= t' /\
                t_seconds (e_time e) + cf_extend (s_config st) <= t_seconds t' /\
                (t_seconds (e_time e) + cf_extend (s_config st) <= t_seconds t -> t' = t) /\
                (t_seconds t < t_seconds (e_time e) + cf_extend (s_config st) -> t' = e_time e + cf_extend (s_config st) * NANOS)
    end.
Proof. exact bid_end. Qed.
Print Assumptions C39_bid_end.
(** No call at all makes an end time earlier. *)
Theorem C39_end_never_earlier : forall p lb st st' k a a' t,
  ra_history p lb st -> ra_call p lb st st' ->
  s_auctions st !! k = Some a -> s_auctions st' !! k = Some a' -> a_end a = Some t ->
  exists t', a_end a' = Some t' /\ t <= t'.
Proof. exact end_rises. Qed.
Print Assumptions C39_end_never_earlier.
(** The last part of the claim fails for the first bid: the duration may be shorter than the extension. *)
Theorem C39_time_left_refuted : forall lb, exists w w' a' t', ra_reachable p1 lb w /\
  run_tx p1 (execute p1 lb) w "bobby" [us 100] (PlaceBid "coll1" "1") = Ok w' /\
  s_auctions (w_st w') !! ("coll1", "1") = Some a' /\ a_end a' = Some t' /\
  t_seconds t' < t_seconds (w_time w) + cf_extend (s_config (w_st w)).
Proof. exact short_auction. Qed.
Print Assumptions C39_time_left_refuted.
(** A bid at 1020 s leaves the end at 4600 s; a bid at 4599 s moves it to 5499 s. *)
Example C39_case : ra_history p1 lib1 st1 /\
  is_ok (call (late 4599) "bobby" [us 200] (PlaceBid "coll1" "1")) = true /\
  a_end <$> (s_auctions (state_of (call (late 1020) "bobby" [us 200] (PlaceBid "coll1" "1"))) !! ("coll1", "1")) = Some (Some (sec 4600)) /\
  a_end <$> (s_auctions (state_of (call (late 4599) "bobby" [us 200] (PlaceBid "coll1" "1"))) !! ("coll1", "1")) = Some (Some (sec 5499)).
Proof. split; [exact st1_history|]. by vm_compute. Qed.

(** * C40 *)
Theorem C40_cancel : forall p lb st v e sender funds coll tok st' msgs,
  ra_history p lb st -> execute p lb v e sender funds st (CancelAuction coll tok) = Ok (st', msgs) ->
  exists a, s_auctions st !! (coll, tok) = Some a /\ sender = a_seller a /\ a_high a = None /\ funds = [] /\
    st' = State (s_config st) (s_mins st) (s_halt st) (delete (coll, tok) (s_auctions st)) /\
    msgs = [MNft coll tok (a_seller a)].
Proof. exact cancel_rule. Qed.
Print Assumptions C40_cancel.
Theorem C40_reprice : forall p lb st v e sender funds coll tok reserve st' msgs,
  ra_history p lb st -> execute p lb v e sender funds st (UpdateReservePrice coll tok reserve) = Ok (st', msgs) ->
  exists a, s_auctions st !! (coll, tok) = Some a /\ sender = a_seller a /\ a_high a = None /\ funds = [] /\ msgs = [] /\
    (exists m, s_mins st !! c_denom reserve = Some m /\ m <= c_amount reserve) /\
    st' = State (s_config st) (s_mins st) (s_halt st)
            (<[(coll, tok) := Auction coll tok (a_seller a) reserve (a_duration a) None (a_recipient a) None None]> (s_auctions st)).
Proof. exact reprice_rule. Qed.
Print Assumptions C40_reprice.
Definition w_open : world state := after lib1 rw0 [create1].
Example C40_case : ra_reachable p1 lib1 w_open /\
  is_ok (run_tx p1 (execute p1 lib1) w_open "alice" [] (CancelAuction "coll1" "1")) = true /\
  is_ok (run_tx p1 (execute p1 lib1) w_open "alice" [] (UpdateReservePrice "coll1" "1" (us 70))) = true /\
  is_ok (run_tx p1 (execute p1 lib1) w_open "bobby" [] (CancelAuction "coll1" "1")) = false /\
  is_ok (run_tx p1 (execute p1 lib1) w1 "alice" [] (CancelAuction "coll1" "1")) = false.
Proof. split; [apply after_reachable; [apply rw0_reachable|by vm_compute]|]. by vm_compute. Qed.

(** * C41 *)
Theorem C41_no_self_bid : forall p lb st k a hb, ra_history p lb st -> s_auctions st !! k = Some a -> a_high a = Some hb ->
  hb_bidder hb <> a_seller a.
Proof. exact no_self_bid_form. Qed.
Print Assumptions C41_no_self_bid.
Example C41_case : ra_history p1 lib1 st1 /\ s_auctions st1 !! ("coll1", "1") = Some auction1 /\ a_high auction1 = Some high1 /\
  is_ok (run_tx p1 (execute p1 lib1) w1 "alice" [us 200] (PlaceBid "coll1" "1")) = false.
Proof. split; [exact st1_history|]. split; [exact st1_auction|]. split; [done|by vm_compute]. Qed.

(** * C42 *)
Theorem C42_no_late_bid : forall p lb st v e sender funds coll tok st' msgs a t,
  ra_history p lb st -> execute p lb v e sender funds st (PlaceBid coll tok) = Ok (st', msgs) ->
  s_auctions st !! (coll, tok) = Some a -> a_end a = Some t -> t_seconds (e_time e) < t_seconds t.
Proof. exact no_late_bid_form. Qed.
Print Assumptions C42_no_late_bid.
Theorem C42_no_early_settlement : forall p lb st v e sender funds coll tok st' msgs a,
  ra_history p lb st -> execute p lb v e sender funds st (SettleAuction coll tok) = Ok (st', msgs) ->
  s_auctions st !! (coll, tok) = Some a -> exists t, a_end a = Some t /\ t <= e_time e.
Proof. exact no_early_settle_form. Qed.
Print Assumptions C42_no_early_settlement.
(** An auction with a bid disappears only by a settlement after its end, or in EndBlock after its end. *)
Theorem C42_removal_by_user : forall p lb st v e sender funds m st' msgs k a hb,
  ra_history p lb st -> execute p lb v e sender funds st m = Ok (st', msgs) ->
  s_auctions st !! k = Some a -> a_high a = Some hb -> s_auctions st' !! k = None ->
  m = SettleAuction (a_coll a) (a_tok a) /\ exists t, a_end a = Some t /\ t <= e_time e /\ ~ halted (s_halt st) t.
Proof. exact removal_rule_execute. Qed.
Print Assumptions C42_removal_by_user.
Theorem C42_removal_by_chain : forall p lb st v e m st' msgs k a,
  ra_history p lb st -> sudo p lb v e st m = Ok (st', msgs) ->
  s_auctions st !! k = Some a -> s_auctions st' !! k = None ->
  m = EndBlock /\ exists t, a_end a = Some t /\ t <= e_time e /\ ~ halted (s_halt st) t.
Proof. exact removal_rule_sudo. Qed.
Print Assumptions C42_removal_by_chain.
Example C42_case : ra_history p1 lib1 st1 /\ a_end auction1 = Some (sec 4600) /\
  is_ok (call (late 4599) "bobby" [us 200] (PlaceBid "coll1" "1")) = true /\
  is_ok (call (late 4600) "bobby" [us 200] (PlaceBid "coll1" "1")) = false /\
  is_ok (call (late 4599) "bobby" [] (SettleAuction "coll1" "1")) = false /\
  is_ok (call (late 4600) "bobby" [] (SettleAuction "coll1" "1")) = true /\
  s_auctions (state_of (call (late 4600) "bobby" [] (SettleAuction "coll1" "1"))) !! ("coll1", "1") = None.
Proof. split; [exact st1_history|]. by vm_compute. Qed.

(** * C43 *)
Theorem C43_settlement : forall p lb st v e sender funds coll tok st' msgs a t,
  ra_history p lb st -> execute p lb v e sender funds st (SettleAuction coll tok) = Ok (st', msgs) ->
  s_auctions st !! (coll, tok) = Some a -> a_end a = Some t -> ~ halted (s_halt st) t ->
  exists hb sp, a_high a = Some hb /\ splits hb sp /\ rates lb v (s_config st) a hb sp /\ msgs = settlement a hb sp /\
    (forall d, out msgs d = in_denom d (hb_coin hb)) /\
    s_auctions st' !! (coll, tok) = None /\ (forall k, k <> (coll, tok) -> s_auctions st' !! k = s_auctions st !! k).
Proof. exact settle_form. Qed.
Print Assumptions C43_settlement.
(** On the chain: the winner owns the NFT, the contract pays out the winning bid, the seller and the royalty
    recipient are paid, and nobody else's balance or NFT changes. *)
Theorem C43_settlement_balances : forall p lb w sender funds coll tok w' a t,
  ra_reachable p lb w -> texec p (execute p lb) sender funds (SettleAuction coll tok) w w' ->
  s_auctions (w_st w) !! (coll, tok) = Some a -> p_honest p coll = true ->
  a_end a = Some t -> ~ halted (s_halt (w_st w)) t ->
  exists hb sp, a_high a = Some hb /\ splits hb sp /\
    rates lb (view_of p (pay_in p w sender funds)) (s_config (w_st w)) a hb sp /\
    funds = [] /\ t <= w_time w /\
    s_auctions (w_st w') !! (coll, tok) = None /\ w_nft w' coll tok = Some (hb_bidder hb) /\
    (forall x d, w_bank w' x d + (if decide (x = p_self p) then in_denom d (hb_coin hb) else 0) =
       w_bank w x d +
       (if decide (sp_royalty_to sp = x) then in_denom d (Coin (c_denom (hb_coin hb)) (sp_royalty sp)) else 0) +
       (if decide (proceeds_to a = x) then in_denom d (Coin (c_denom (hb_coin hb)) (sp_seller sp)) else 0)) /\
    (forall c k, (c, k) <> (coll, tok) -> w_nft w' c k = w_nft w c k).
Proof. exact settle_world. Qed.
Print Assumptions C43_settlement_balances.
Theorem C43_settled_once : forall p lb st v e sender funds coll tok, s_auctions st !! (coll, tok) = None ->
  forall r, execute p lb v e sender funds st (SettleAuction coll tok) <> Ok r.
Proof. exact settle_absent. Qed.
Print Assumptions C43_settled_once.
(** 105: 2 are burnt, 5 go to the royalty recipient, 98 to alice. *)
Definition w_over : world state := after lib1 w1 [At (sec 4600)].
Definition w_sold : world state := after lib1 w_over [Tx "dave1" [] (SettleAuction "coll1" "1")].
Lemma not_halted1 : ~ halted (s_halt (w_st w_over)) (sec 4600).
Proof. rewrite <-within_halted. by vm_compute. Qed.
Lemma w_over_reachable : ra_reachable p1 lib1 w_over.
Proof. apply after_reachable; [exact w1_reachable|by vm_compute]. Qed.
Example C43_case : ra_reachable p1 lib1 w_over /\
  texec p1 (execute p1 lib1) "dave1" [] (SettleAuction "coll1" "1") w_over w_sold /\
  s_auctions (w_st w_over) !! ("coll1", "1") = Some auction1 /\ ~ halted (s_halt (w_st w_over)) (sec 4600) /\
  msgs_of (call (late 4600) "dave1" [] (SettleAuction "coll1" "1")) =
    settlement auction1 high1 (SaleSplit 2 5 98 "royal") /\
  w_nft w_sold "coll1" "1" = Some "carol" /\ w_bank w_sold "aucti" "ustars" = 0 /\
  w_bank w_sold "alice" "ustars" = w_bank w_over "alice" "ustars" + 98.
Proof.
  split; [exact w_over_reachable|]. split; [apply run_tx_sound, after_tx; by vm_compute|]. split; [by vm_compute|].
  split; [exact not_halted1|]. by vm_compute.
Qed.

(** * C44 *)
Theorem C44_postponed_by_settle : forall p lb st v e sender funds coll tok st' msgs a t,
  ra_history p lb st -> execute p lb v e sender funds st (SettleAuction coll tok) = Ok (st', msgs) ->
  s_auctions st !! (coll, tok) = Some a -> a_end a = Some t -> halted (s_halt st) t ->
  s_auctions st' !! (coll, tok) = Some (with_end a (e_time e + cf_halt_postpone (s_config st) * NANOS)) /\ msgs = [].
Proof. exact settle_halted. Qed.
Print Assumptions C44_postponed_by_settle.
Theorem C44_postponed_by_end_block : forall p lb st v e st' msgs k a t,
  ra_history p lb st -> sudo p lb v e st EndBlock = Ok (st', msgs) ->
  s_auctions st !! k = Some a -> a_end a = Some t -> halted (s_halt st) t ->
  s_auctions st' !! k = Some a \/
  s_auctions st' !! k = Some (with_end a (e_time e + cf_halt_postpone (s_config st) * NANOS)).
Proof. exact end_block_halted. Qed.
Print Assumptions C44_postponed_by_end_block.
(** The chain halts from 1010 s to 4700 s, while the auction ends at 4600 s. *)
Definition w_halt : world state := after lib1 w1 [At (sec 4700); Sudo BeginBlock].
Example C44_case : ra_reachable p1 lib1 w_halt /\ s_auctions (w_st w_halt) !! ("coll1", "1") = Some auction1 /\
  halted (s_halt (w_st w_halt)) (sec 4600) /\
  s_auctions (w_st (after lib1 w_halt [Tx "dave1" [] (SettleAuction "coll1" "1")])) !! ("coll1", "1") =
    Some (with_end auction1 (sec 8300)) /\
  s_auctions (w_st (after lib1 w_halt [Sudo EndBlock])) !! ("coll1", "1") = Some (with_end auction1 (sec 8300)) /\
  hm_windows (s_halt (w_st (after lib1 w_halt [Sudo EndBlock]))) = [HaltWindow 1010 5300].
Proof.
  split; [apply after_reachable; [exact w1_reachable|by vm_compute]|]. split; [by vm_compute|].
  split; [apply within_halted; by vm_compute|]. by vm_compute.
Qed.

(** * C45: false.  An auction ending later in the current second makes EndBlock fail, and with it every settlement. *)
Theorem C45_end_block_succeeds_refuted : forall lb, exists w a t, ra_reachable p1 lb w /\
  s_auctions (w_st w) !! ("coll1", "2") = Some a /\ a_end a = Some t /\ t < w_time w /\
  exists er, sudo p1 lb (view_of p1 w) (env_of w) (w_st w) EndBlock = Err er.
Proof. exact end_block_fails. Qed.
Print Assumptions C45_end_block_succeeds_refuted.
(** It succeeds when every due auction is over, on a standard collection, and can be paid or postponed. *)
Theorem C45_end_block_succeeds_partial : forall p lb w,
  ra_reachable p lb w -> t_seconds (w_time w) < U64_MAX ->
  (forall k a, s_auctions (w_st w) !! k = Some a -> due (w_time w) a ->
     p_honest p (a_coll a) = true /\ a_coll a <> p_self p /\
     ready p lb (view_of p w) (w_time w) (s_config (w_st w)) (s_halt (w_st w)) a) ->
  exists w', run_sudo p lb w EndBlock = Ok w'.
Proof. exact end_block_live. Qed.
Print Assumptions C45_end_block_succeeds_partial.
(** When it succeeds it processes the first due auctions, up to the limit, and nothing else. *)
Theorem C45_end_block_effect : forall p lb st v e st' msgs,
  ra_history p lb st -> sudo p lb v e st EndBlock = Ok (st', msgs) ->
  exists l os, first_due st (e_time e) (cf_max_settle (s_config st)) l /\
    Forall2 (fun a o => outcome lb v (e_time e) (s_config st) (s_halt st) a (fst o) (snd o)) l os /\
    processed st st' l os /\ msgs = concat (snd <$> os).
Proof. exact end_block_rule. Qed.
Print Assumptions C45_end_block_effect.
Lemma over_split : can_pay p1 lib1 (view_of p1 w_over) (s_config (w_st w_over)) auction1 high1.
Proof. split; [|by vm_compute]. exists (SaleSplit 2 5 98 "royal"). by vm_compute. Qed.
Example C45_case : ra_reachable p1 lib1 w_over /\
  (forall k a, s_auctions (w_st w_over) !! k = Some a -> due (w_time w_over) a ->
     p_honest p1 (a_coll a) = true /\ a_coll a <> p_self p1 /\
     ready p1 lib1 (view_of p1 w_over) (w_time w_over) (s_config (w_st w_over)) (s_halt (w_st w_over)) a) /\
  is_ok (run_sudo p1 lib1 w_over EndBlock) = true /\
  w_nft (after lib1 w_over [Sudo EndBlock]) "coll1" "1" = Some "carol".
Proof.
  split; [exact w_over_reachable|]. split; [|by vm_compute].
  intros k a Ha _. apply elem_of_map_to_list in Ha.
  assert (map_to_list (s_auctions (w_st w_over)) = [(("coll1", "1"), auction1)]) as E by (by vm_compute).
  assert ((k, a) ∈ [(("coll1", "1"), auction1)]) as Ha' by (rewrite <-E; exact Ha).
  apply elem_of_list_singleton in Ha'. injection Ha' as _ ->. split; [done|]. split; [done|].
  exists (sec 4600). split; [done|]. split; [by vm_compute|]. right. split; [exact not_halted1|].
  exists high1. split; [done|exact over_split].
Qed.

(** * C46: false. *)
(** A single auction on a collection that advertises an invalid royalty address stops EndBlock for good. *)
Theorem C46_isolation_refuted : forall lb, exists w a t, ra_reachable p1 lb w /\ s_auctions (w_st w) !! ("coll1", "1") = Some a /\
  p_honest p1 "coll1" = true /\ a_end a = Some t /\ t < w_time w /\ ~ halted (s_halt (w_st w)) t /\
  0 < cf_max_settle (s_config (w_st w)) /\
  forall e r, w_time w <= e_time e -> sudo p1 lb (view_of p1 w) e (w_st w) EndBlock <> Ok r.
Proof. exact end_block_poisoned. Qed.
Print Assumptions C46_isolation_refuted.
(** No rogue collection is needed: naming a blocked account as recipient of the proceeds does the same. *)
Theorem C46_isolation_recipient_refuted : exists w a t, ra_reachable p1 lib1 w /\ s_auctions (w_st w) !! ("coll1", "1") = Some a /\
  a_end a = Some t /\ t < w_time w /\
  (exists w', run_tx p1 (execute p1 lib1) w "carol" [] (SettleAuction "coll1" "1") = Ok w') /\
  forall st' msgs w', sudo p1 lib1 (view_of p1 w) (env_of w) (w_st w) EndBlock = Ok (st', msgs) ->
    ~ dispatch p1 (execute p1 lib1) (set_st w st') msgs w'.
Proof. exact end_block_blocked_recipient. Qed.
Print Assumptions C46_isolation_recipient_refuted.
(** The general reason: the earliest due auction blocks EndBlock if its end is later in this second or its
    royalty address is invalid. *)
Theorem C46_one_auction_blocks : forall p lb st v e a t,
  ra_history p lb st -> s_auctions st !! (a_coll a, a_tok a) = Some a -> a_end a = Some t ->
  t_seconds t <= t_seconds (e_time e) -> 0 < cf_max_settle (s_config st) ->
  (forall k b, s_auctions st !! k = Some b -> due (e_time e) b -> b <> a -> end_before (a_ekey a) (a_ekey b)) ->
  (e_time e < t \/
   (~ halted (s_halt st) t /\
    exists s to share, q_info v (a_coll a) = Some (CollectionInfo s (Some (to, share))) /\ p_valid p to = false)) ->
  forall r, sudo p lb v e st EndBlock <> Ok r.
Proof. exact end_block_blocked. Qed.
Print Assumptions C46_one_auction_blocks.

(** * C47: false.  EndBlock drops the window when no auction is due yet, although one will end inside it. *)
Theorem C47_protection_refuted : exists w k a t w1 w2, ra_reachable p1 lib1 w /\
  s_auctions (w_st w) !! k = Some a /\ a_end a = Some t /\ halted (s_halt (w_st w)) t /\
  run_sudo p1 lib1 w EndBlock = Ok w1 /\ s_auctions (w_st w1) !! k = Some a /\
  run_acts p1 lib1 w1 [At (t + NANOS); Sudo BeginBlock; Sudo EndBlock] = Ok w2 /\
  s_auctions (w_st w2) !! k = None /\ w_nft w2 "coll1" "1" = Some "bobby".
Proof. exact halt_protection_lost. Qed.
Print Assumptions C47_protection_refuted.
(** It holds for auctions that are over: their window stays, and no call sells them; they are only postponed. *)
Theorem C47_protection_user_partial : forall p lb st v e sender funds m st' msgs k a t w,
  ra_history p lb st -> execute p lb v e sender funds st m = Ok (st', msgs) ->
  s_auctions st !! k = Some a -> a_end a = Some t -> t_seconds t <= t_seconds (e_time e) ->
  w ∈ hm_windows (s_halt st) -> hw_start w < t_seconds t < hw_end w ->
  w ∈ hm_windows (s_halt st') /\
  (s_auctions st' !! k = Some a \/
   s_auctions st' !! k = Some (with_end a (e_time e + cf_halt_postpone (s_config st) * NANOS))).
Proof. exact guard_execute. Qed.
Print Assumptions C47_protection_user_partial.
Theorem C47_protection_chain_partial : forall p lb st v e m st' msgs k a t w,
  ra_history p lb st -> sudo p lb v e st m = Ok (st', msgs) -> 0 < cf_max_settle (s_config st) ->
  s_auctions st !! k = Some a -> a_end a = Some t -> t_seconds t <= t_seconds (e_time e) ->
  w ∈ hm_windows (s_halt st) -> hw_start w < t_seconds t < hw_end w ->
  w ∈ hm_windows (s_halt st') /\
  (s_auctions st' !! k = Some a \/
   s_auctions st' !! k = Some (with_end a (e_time e + cf_halt_postpone (s_config st) * NANOS))).
Proof. exact guard_sudo. Qed.
Print Assumptions C47_protection_chain_partial.
Example C47_case : ra_reachable p1 lib1 w_halt /\ s_auctions (w_st w_halt) !! ("coll1", "1") = Some auction1 /\
  a_end auction1 = Some (sec 4600) /\ t_seconds (sec 4600) <= t_seconds (w_time w_halt) /\
  hm_windows (s_halt (w_st w_halt)) = [HaltWindow 1010 5300] /\
  is_ok (run_sudo p1 lib1 w_halt EndBlock) = true /\ 0 < cf_max_settle (s_config (w_st w_halt)).
Proof. split; [apply after_reachable; [exact w1_reachable|by vm_compute]|]. by vm_compute. Qed.

(** * C48 *)
Theorem C48_fee_burnt : forall p lb st v e sender funds coll tok reserve duration recipient st' msgs,
  ra_history p lb st -> execute p lb v e sender funds st (CreateAuction coll tok reserve duration recipient) = Ok (st', msgs) ->
  let fee := cf_create_fee (s_config st) in
  (c_amount fee = 0 /\ funds = [] /\ msgs = [MNft coll tok (p_self p)]) \/
  (0 < c_amount fee /\ c_amount fee <= amt funds (c_denom fee) /\ msgs = [MFairBurn fee; MNft coll tok (p_self p)]).
Proof. exact fee_form. Qed.
Print Assumptions C48_fee_burnt.
(** Whatever is attached beyond the fee is kept by the contract. *)
Theorem C48_keeps_nothing_refuted : forall lb, exists w w', ra_reachable p1 lb w /\
  run_tx p1 (execute p1 lb) w "alice" [us 15] (CreateAuction "coll1" "1" (us 100) 60 None) = Ok w' /\
  cf_create_fee (s_config (w_st w)) = us 10 /\ w_bank w "aucti" "ustars" = 0 /\
  w_bank w' "aucti" "ustars" = 5 /\ high_total (w_st w') "ustars" = 0.
Proof. exact overpaid_fee. Qed.
Print Assumptions C48_keeps_nothing_refuted.
Example C48_case : ra_history p1 lib1 st1 /\
  msgs_of (call (late 1020) "alice" [us 10] (CreateAuction "coll1" "2" (us 100) 60 None)) = [MFairBurn (us 10); MNft "coll1" "2" "aucti"] /\
  is_ok (call (late 1020) "alice" [us 9] (CreateAuction "coll1" "2" (us 100) 60 None)) = false.
Proof. split; [exact st1_history|]. by vm_compute. Qed.

(** * C49 *)
Theorem C49_config_valid : forall p lb st, ra_history p lb st ->
  0 < cf_increment (s_config st) < DEC_ONE /\ 0 < cf_min_duration (s_config st) /\ 0 < cf_extend (s_config st).
Proof. exact history_config. Qed.
Print Assumptions C49_config_valid.
Theorem C49_users_change_no_config : forall p lb st v e s f m st' msgs,
  ra_history p lb st -> execute p lb v e s f st m = Ok (st', msgs) ->
  s_config st' = s_config st /\ s_mins st' = s_mins st /\ s_halt st' = s_halt st.
Proof. exact users_form. Qed.
Print Assumptions C49_users_change_no_config.
Theorem C49_blocks_change_no_config : forall p lb st v e m st' msgs,
  ra_history p lb st -> m = BeginBlock \/ m = EndBlock ->
  sudo p lb v e st m = Ok (st', msgs) -> s_config st' = s_config st /\ s_mins st' = s_mins st.
Proof. exact blocks_form. Qed.
Print Assumptions C49_blocks_change_no_config.
Definition raise_inc (n : N) : sudo_msg := UpdateParams (ParamsUpdate None None (Some n) None None None None None None None).
Example C49_case : ra_history p1 lib1 st1 /\ is_ok (run_sudo p1 lib1 w1 (raise_inc 0)) = false /\
  is_ok (run_sudo p1 lib1 w1 (raise_inc DEC_ONE)) = false /\
  cf_increment (s_config (w_st (after lib1 w1 [Sudo (raise_inc 70)]))) = 70.
Proof. split; [exact st1_history|]. by vm_compute. Qed.

(** * C50 *)
Theorem C50_create_allowed : forall p lb st v e sender funds coll tok reserve duration recipient st' msgs,
  ra_history p lb st -> execute p lb v e sender funds st (CreateAuction coll tok reserve duration recipient) = Ok (st', msgs) ->
  (exists m, s_mins st !! c_denom reserve = Some m /\ m <= c_amount reserve) /\
  cf_min_duration (s_config st) <= duration <= cf_max_duration (s_config st).
Proof. exact create_form. Qed.
Print Assumptions C50_create_allowed.
Theorem C50_reprice_allowed : forall p lb st v e sender funds coll tok reserve st' msgs,
  ra_history p lb st -> execute p lb v e sender funds st (UpdateReservePrice coll tok reserve) = Ok (st', msgs) ->
  exists m, s_mins st !! c_denom reserve = Some m /\ m <= c_amount reserve.
Proof. exact reprice_form. Qed.
Print Assumptions C50_reprice_allowed.
Example C50_case : ra_reachable p1 lib1 w_open /\ s_mins (w_st w_open) !! "ustars" = Some 50 /\
  is_ok (run_tx p1 (execute p1 lib1) w_open "alice" [us 10] (CreateAuction "coll1" "2" (us 50) 60 None)) = true /\
  is_ok (run_tx p1 (execute p1 lib1) w_open "alice" [us 10] (CreateAuction "coll1" "2" (us 49) 60 None)) = false /\
  is_ok (run_tx p1 (execute p1 lib1) w_open "alice" [us 10] (CreateAuction "coll1" "2" (us 50) 59 None)) = false /\
  is_ok (run_tx p1 (execute p1 lib1) w_open "alice" [] (UpdateReservePrice "coll1" "1" (us 50))) = true /\
  is_ok (run_tx p1 (execute p1 lib1) w_open "alice" [] (UpdateReservePrice "coll1" "1" (us 49))) = false.
Proof. split; [apply after_reachable; [apply rw0_reachable|by vm_compute]|]. by vm_compute. Qed.

(** * C51 *)
Theorem C51_seller_page : forall p lb w seller desc limit after res, ra_reachable p lb w ->
  query_auctions_by_seller p (w_st w) seller desc limit after = Ok res ->
  page key_before a_key (fun x => s_auctions (w_st w) !! a_key x = Some x /\ a_seller x = seller)
    (opts_after desc limit after) res.
Proof. exact seller_page_form. Qed.
Print Assumptions C51_seller_page.
Theorem C51_seller_walk : forall p lb w seller desc limit fuel, ra_reachable p lb w ->
  p_valid p seller = true -> limit <> Some 0 -> (size (s_auctions (w_st w)) < fuel)%nat ->
  complete_walk key_before a_key (fun x => s_auctions (w_st w) !! a_key x = Some x /\ a_seller x = seller) desc
    (walk a_key (fun o => match query_auctions_by_seller p (w_st w) seller (qo_desc o) (qo_limit o)
                                  (match (if desc then qo_max o else qo_min o) with Some (BExcl k) => Some k | _ => None end) with
                          | Ok l => l | Err _ => [] end) desc limit None fuel).
Proof. exact seller_walk_form. Qed.
Print Assumptions C51_seller_walk.
Theorem C51_end_time_page : forall p lb w t desc limit after, ra_reachable p lb w ->
  page end_before a_ekey
    (fun x => s_auctions (w_st w) !! a_key x = Some x /\ (default false desc = false -> end_second x < U64_MAX))
    (opts_after desc limit (Some (t, default ("", "") after)))
    (query_auctions_by_end_time (w_st w) t desc limit after).
Proof. exact end_page_form. Qed.
Print Assumptions C51_end_time_page.
(** Paging works when the end second of the last entry is passed along with its key. *)
Theorem C51_end_time_walk : forall p lb w desc limit t after fuel, ra_reachable p lb w ->
  limit <> Some 0 -> (size (s_auctions (w_st w)) < fuel)%nat ->
  complete_walk end_before a_ekey
    (fun x => (s_auctions (w_st w) !! a_key x = Some x /\ (desc = false -> end_second x < U64_MAX)) /\
      if desc then end_before (a_ekey x) (t, default ("", "") after) else end_before (t, default ("", "") after) (a_ekey x))
    desc (end_walk (w_st w) desc limit t after fuel).
Proof. exact end_walk_form. Qed.
Print Assumptions C51_end_time_walk.
(** With the end time left unchanged the same entry comes back. *)
Theorem C51_end_time_paging_refuted : forall lb, exists w a, ra_reachable p1 lb w /\
  query_auctions_by_end_time (w_st w) 0 None (Some 1) None = [a] /\
  query_auctions_by_end_time (w_st w) 0 None (Some 1) (Some (a_key a)) = [a].
Proof. exact end_time_paging_repeats. Qed.
Print Assumptions C51_end_time_paging_refuted.
Definition w_two : world state := after lib1 w1 [Tx "alice" [us 10] (CreateAuction "coll1" "2" (us 60) 60 None);
  Tx "bobby" [us 60] (PlaceBid "coll1" "2")].
Example C51_case : ra_reachable p1 lib1 w_two /\ size (s_auctions (w_st w_two)) = 2%nat /\ p_valid p1 "alice" = true /\
  map a_tok (end_walk (w_st w_two) false (Some 1) 0 None 3) = ["2"; "1"] /\
  map a_tok (end_walk (w_st w_two) true (Some 1) 9999 None 3) = ["1"; "2"] /\
  match query_auctions_by_seller p1 (w_st w_two) "alice" None (Some 1) None with Ok l => map a_tok l | Err _ => [] end = ["1"].
Proof. split; [apply after_reachable; [exact w1_reachable|by vm_compute]|]. by vm_compute. Qed.

(** * C68: an ended auction can be settled by anyone *)
Theorem C68_settle_live : forall p lb w sender coll tok a,
  ra_reachable p lb w -> sender <> p_self p -> s_auctions (w_st w) !! (coll, tok) = Some a ->
  p_honest p coll = true -> coll <> p_self p ->
  ready p lb (view_of p (pay_in p w sender [])) (w_time w) (s_config (w_st w)) (s_halt (w_st w)) a ->
  exists w', run_tx p (execute p lb) w sender [] (SettleAuction coll tok) = Ok w'.
Proof. exact settle_live. Qed.
Print Assumptions C68_settle_live.
Example C68_case : ra_reachable p1 lib1 w_over /\ s_auctions (w_st w_over) !! ("coll1", "1") = Some auction1 /\
  ready p1 lib1 (view_of p1 (pay_in p1 w_over "dave1" [])) (w_time w_over) (s_config (w_st w_over)) (s_halt (w_st w_over)) auction1 /\
  is_ok (run_tx p1 (execute p1 lib1) w_over "dave1" [] (SettleAuction "coll1" "1")) = true.
Proof.
  split; [exact w_over_reachable|]. split; [by vm_compute|]. split; [|by vm_compute].
  exists (sec 4600). split; [done|]. split; [by vm_compute|]. right. split; [exact not_halted1|].
  exists high1. split; [done|]. split; [|by vm_compute]. exists (SaleSplit 2 5 98 "royal"). by vm_compute.
Qed.

(** * C69: a seller can cancel before the first bid *)
Theorem C69_cancel_live : forall p lb w coll tok a,
  ra_reachable p lb w -> s_auctions (w_st w) !! (coll, tok) = Some a -> a_high a = None ->
  p_honest p coll = true -> coll <> p_self p ->
  exists w', run_tx p (execute p lb) w (a_seller a) [] (CancelAuction coll tok) = Ok w' /\
    s_auctions (w_st w') !! (coll, tok) = None /\ w_nft w' coll tok = Some (a_seller a).
Proof. exact cancel_live. Qed.
Print Assumptions C69_cancel_live.
Example C69_case : ra_reachable p1 lib1 w_open /\
  s_auctions (w_st w_open) !! ("coll1", "1") = Some (Auction "coll1" "1" "alice" (us 100) 3600 None None None None) /\
  w_nft w_open "coll1" "1" = Some "aucti" /\ w_nft (after lib1 w_open [Tx "alice" [] (CancelAuction "coll1" "1")]) "coll1" "1" = Some "alice".
Proof. split; [apply after_reachable; [apply rw0_reachable|by vm_compute]|]. by vm_compute. Qed.

(** * C70: a high enough bid on an open auction is accepted *)
Theorem C70_bid_live : forall p lb w sender coll tok a n,
  ra_reachable p lb w -> sender <> p_self p -> s_auctions (w_st w) !! (coll, tok) = Some a ->
  sender <> a_seller a -> n <= w_bank w sender (c_denom (a_reserve a)) -> 0 < n ->
  match a_high a with
  | None => c_amount (a_reserve a) <= n
  | Some hb => c_amount (hb_coin hb) + ceil_div (c_amount (hb_coin hb) * cf_increment (s_config (w_st w))) DEC_ONE <= n /\
               p_blocked p (hb_bidder hb) = false
  end ->
  n <= U128_MAX ->
  (forall t, a_end a = Some t -> t_seconds (w_time w) < t_seconds t) ->
  w_time w + a_duration a * NANOS <= U64_MAX -> w_time w + cf_extend (s_config (w_st w)) * NANOS <= U64_MAX ->
  exists w', run_tx p (execute p lb) w sender [Coin (c_denom (a_reserve a)) n] (PlaceBid coll tok) = Ok w'.
Proof. exact bid_live. Qed.
Print Assumptions C70_bid_live.
Example C70_case : ra_reachable p1 lib1 w1 /\ s_auctions (w_st w1) !! ("coll1", "1") = Some auction1 /\
  105 + ceil_div (105 * cf_increment (s_config (w_st w1))) DEC_ONE = 111 /\ 111 <= w_bank w1 "bobby" "ustars" /\
  t_seconds (w_time w1) < t_seconds (sec 4600) /\ w_time w1 + 3600 * NANOS <= U64_MAX /\
  is_ok (run_tx p1 (execute p1 lib1) w1 "bobby" [us 111] (PlaceBid "coll1" "1")) = true.
Proof. split; [exact w1_reachable|]. by vm_compute. Qed.

(** * C71: coins are conserved *)
Theorem C71_conservation_user : forall p lb st v e sender funds m st' msgs d,
  ra_history p lb st -> execute p lb v e sender funds st m = Ok (st', msgs) ->
  high_total st' d + out msgs d <= high_total st d + amt funds d /\
  ((forall c t r du rc, m <> CreateAuction c t r du rc) -> high_total st' d + out msgs d = high_total st d + amt funds d).
Proof. exact conservation_execute. Qed.
Print Assumptions C71_conservation_user.
Theorem C71_conservation_chain : forall p lb st v e m st' msgs d,
  ra_history p lb st -> sudo p lb v e st m = Ok (st', msgs) -> high_total st' d + out msgs d = high_total st d.
Proof. exact conservation_sudo. Qed.
Print Assumptions C71_conservation_chain.
Example C71_case : ra_history p1 lib1 st1 /\ high_total st1 "ustars" = 105 /\
  high_total (state_of (call (late 1020) "bobby" [us 200] (PlaceBid "coll1" "1"))) "ustars" = 200 /\
  out (msgs_of (call (late 1020) "bobby" [us 200] (PlaceBid "coll1" "1"))) "ustars" = 105 /\
  high_total (state_of (call (late 4600) "bobby" [] (SettleAuction "coll1" "1"))) "ustars" = 0 /\
  out (msgs_of (call (late 4600) "bobby" [] (SettleAuction "coll1" "1"))) "ustars" = 105.
Proof. split; [exact st1_history|]. by vm_compute. Qed.

(** * C72: BeginBlock records halts exactly, and succeeds *)
Theorem C72_begin_block_effect : forall p lb st v e st' msgs,
  sudo p lb v e st BeginBlock = Ok (st', msgs) ->
  msgs = [] /\ s_auctions st' = s_auctions st /\ hm_prev (s_halt st') = t_seconds (e_time e) /\
  hm_prev (s_halt st) <= t_seconds (e_time e) /\
  hm_windows (s_halt st') = hm_windows (s_halt st) ++
    (if decide (0 < hm_prev (s_halt st) /\ hm_prev (s_halt st) + cf_halt_threshold (s_config st) <= t_seconds (e_time e))
     then [HaltWindow (hm_prev (s_halt st)) (t_seconds (e_time e) + cf_halt_buffer (s_config st))] else []).
Proof. exact begin_block_rule. Qed.
Print Assumptions C72_begin_block_effect.
Theorem C72_begin_block_live : forall p lb w,
  ra_reachable p lb w -> t_seconds (w_time w) + cf_halt_buffer (s_config (w_st w)) <= U64_MAX ->
  exists w', run_sudo p lb w BeginBlock = Ok w'.
Proof. exact begin_block_live. Qed.
Print Assumptions C72_begin_block_live.
Example C72_case : ra_reachable p1 lib1 w1 /\ t_seconds (w_time w1) + cf_halt_buffer (s_config (w_st w1)) <= U64_MAX /\
  hm_windows (s_halt (w_st (after lib1 w1 [Sudo BeginBlock]))) = [] /\
  hm_windows (s_halt (w_st (after lib1 w1 [At (sec 2209); Sudo BeginBlock]))) = [] /\
  hm_windows (s_halt (w_st (after lib1 w1 [At (sec 2210); Sudo BeginBlock]))) = [HaltWindow 1010 2810].
Proof. split; [exact w1_reachable|]. by vm_compute. Qed.

(** * C73: the terms of an auction are fixed *)
Theorem C73_terms_fixed : forall p lb st st' k a a',
  ra_history p lb st -> ra_call p lb st st' ->
  s_auctions st !! k = Some a -> s_auctions st' !! k = Some a' ->
  a_coll a' = a_coll a /\ a_tok a' = a_tok a /\ a_seller a' = a_seller a /\ a_duration a' = a_duration a /\
  a_recipient a' = a_recipient a /\ (a_first a <> None -> a_first a' = a_first a /\ a_reserve a' = a_reserve a).
Proof. exact terms_fixed. Qed.
Print Assumptions C73_terms_fixed.
Lemma outbid_call : ra_call p1 lib1 st1 (state_of (call (late 1020) "bobby" [us 200] (PlaceBid "coll1" "1"))).
Proof. eapply call_execute; [|apply call_ok; by vm_compute]. done. Qed.
Example C73_case : ra_history p1 lib1 st1 /\ ra_call p1 lib1 st1 (state_of (call (late 1020) "bobby" [us 200] (PlaceBid "coll1" "1"))) /\
  s_auctions st1 !! ("coll1", "1") = Some auction1 /\
  s_auctions (state_of (call (late 1020) "bobby" [us 200] (PlaceBid "coll1" "1"))) !! ("coll1", "1") =
    Some (Auction "coll1" "1" "alice" (us 100) 3600 (Some (sec 4600)) None (Some (HighBid (us 200) "bobby")) (Some (sec 1000))).
Proof. split; [exact st1_history|]. split; [exact outbid_call|]. split; [exact st1_auction|]. by vm_compute. Qed.

(** * C74: auctions appear only when the owner creates them *)
Theorem C74_auctions_created_by_owner : forall p lb st st' k a', ra_history p lb st -> ra_call p lb st st' ->
  s_auctions st !! k = None -> s_auctions st' !! k = Some a' ->
  exists v e sender funds coll tok reserve duration recipient msgs, k = (coll, tok) /\
    execute p lb v e sender funds st (CreateAuction coll tok reserve duration recipient) = Ok (st', msgs) /\
    (forall o, q_owner v coll tok = Some o -> o = sender) /\
    a' = Auction coll tok sender reserve duration None recipient None None.
Proof. exact appear_form. Qed.
Print Assumptions C74_auctions_created_by_owner.
Definition create2 : msg := CreateAuction "coll1" "2" (us 60) 60 (Some "dave1").
Example C74_case : ra_history p1 lib1 st1 /\ ra_call p1 lib1 st1 (state_of (call (late 1020) "alice" [us 10] create2)) /\
  s_auctions st1 !! ("coll1", "2") = None /\
  s_auctions (state_of (call (late 1020) "alice" [us 10] create2)) !! ("coll1", "2") =
    Some (Auction "coll1" "2" "alice" (us 60) 60 None (Some "dave1") None None) /\
  is_ok (call (late 1020) "bobby" [us 10] create2) = false.
Proof.
  split; [exact st1_history|]. split; [eapply call_execute; [|apply call_ok; by vm_compute]; done|]. by vm_compute.
Qed.

(** * C101: what a bid does *)
Theorem C101_bid_exact : forall p lb st v e sender funds coll tok st' msgs,
  ra_history p lb st -> execute p lb v e sender funds st (PlaceBid coll tok) = Ok (st', msgs) ->
  exists a n a', s_auctions st !! (coll, tok) = Some a /\ sender <> a_seller a /\
    funds = [Coin (c_denom (a_reserve a)) n] /\ 0 < n /\
    bid_result (e_time e) (s_config st) sender n a a' msgs /\
    st' = State (s_config st) (s_mins st) (s_halt st) (<[(coll, tok) := a']> (s_auctions st)).
Proof. exact bid_exact. Qed.
Print Assumptions C101_bid_exact.
(** One bid in the last 900 seconds, which extends the auction, and one before. *)
Example C101_case : ra_history p1 lib1 st1 /\ s_auctions st1 !! ("coll1", "1") = Some auction1 /\
  map_to_list (s_auctions (state_of (call (late 4000) "bobby" [us 200] (PlaceBid "coll1" "1")))) =
    [(("coll1", "1"), Auction "coll1" "1" "alice" (us 100) 3600 (Some (sec 4900)) None (Some (HighBid (us 200) "bobby")) (Some (sec 1000)))] /\
  msgs_of (call (late 4000) "bobby" [us 200] (PlaceBid "coll1" "1")) = [MSend "carol" [us 105]] /\
  map_to_list (s_auctions (state_of (call (late 3700) "bobby" [us 200] (PlaceBid "coll1" "1")))) =
    [(("coll1", "1"), Auction "coll1" "1" "alice" (us 100) 3600 (Some (sec 4600)) None (Some (HighBid (us 200) "bobby")) (Some (sec 1000)))] /\
  is_ok (call (late 3700) "alice" [us 200] (PlaceBid "coll1" "1")) = false.
Proof. split; [exact st1_history|]. split; [exact st1_auction|]. by vm_compute. Qed.

(** * C102: who may open an auction, and what opening does *)
Theorem C102_create_exact : forall p lb st v e sender funds coll tok reserve duration recipient st' msgs,
  execute p lb v e sender funds st (CreateAuction coll tok reserve duration recipient) = Ok (st', msgs) <->
  may_open p lb v (e_time e) sender st coll tok reserve duration recipient /\
  pays_fee (cf_create_fee (s_config st)) funds /\
  st' = State (s_config st) (s_mins st) (s_halt st)
          (<[(coll, tok) := Auction coll tok sender reserve duration None recipient None None]> (s_auctions st)) /\
  msgs = fee_burnt (cf_create_fee (s_config st)) ++ [MNft coll tok (p_self p)].
Proof. exact create_exact. Qed.
Print Assumptions C102_create_exact.
Example C102_case :
  is_ok (call (late 1020) "alice" [us 10] create2) = true /\
  msgs_of (call (late 1020) "alice" [us 10] create2) = [MFairBurn (us 10); MNft "coll1" "2" "aucti"] /\
  is_ok (call (late 1020) "alice" [us 9] create2) = false /\
  is_ok (call (late 1020) "alice" [us 10] (CreateAuction "coll1" "2" (us 49) 60 None)) = false /\
  is_ok (call (late 1020) "alice" [us 10] (CreateAuction "coll1" "2" (us 50) 59 None)) = false /\
  is_ok (call (late 1020) "alice" [us 10] (CreateAuction "coll1" "2" (us 50) 86401 None)) = false /\
  is_ok (call (late 1020) "alice" [us 10] (CreateAuction "coll1" "2" (Coin "uatom" 50) 60 None)) = false.
Proof. by vm_compute. Qed.

(** * C103: governance calls *)
Theorem C103_governance_exact : forall p lb v e st m st' msgs, m <> BeginBlock -> m <> EndBlock ->
  sudo p lb v e st m = Ok (st', msgs) <-> governs p st m st' /\ msgs = [].
Proof. exact governance_exact. Qed.
Print Assumptions C103_governance_exact.
Theorem C103_instantiate_exact : forall p c mins st,
  instantiate p c mins = Ok st <->
  p_valid p (cf_fair_burn c) = true /\ config_ok c /\
  exists m, adds_mins ∅ mins m /\ st = State c m (HaltManager 0 []) ∅.
Proof. exact instantiate_exact. Qed.
Print Assumptions C103_instantiate_exact.
Example C103_case :
  is_ok (run_sudo p1 lib1 w1 (SetMinReservePrices [Coin "uatom" 7; Coin "uosmo" 8])) = true /\
  is_ok (run_sudo p1 lib1 w1 (SetMinReservePrices [Coin "uatom" 7; Coin "uatom" 8])) = false /\
  is_ok (run_sudo p1 lib1 w1 (SetMinReservePrices [us 7])) = false /\
  is_ok (run_sudo p1 lib1 w1 (UnsetMinReservePrices ["ustars"])) = true /\
  is_ok (run_sudo p1 lib1 w1 (UnsetMinReservePrices ["uatom"])) = false /\
  is_ok (run_sudo p1 lib1 w1 (UpdateParams (ParamsUpdate None None (Some 0) None None None None None None None))) = false /\
  cf_increment (s_config (w_st (after lib1 w1 [Sudo (UpdateParams (ParamsUpdate None None (Some 7) None None None None None None None))]))) = 7.
Proof. by vm_compute. Qed.

(** * C104: which halt windows are dropped *)
Theorem C104_window_exact : forall p lb st v e st' msgs,
  ra_history p lb st -> sudo p lb v e st EndBlock = Ok (st', msgs) -> 0 < cf_max_settle (s_config st) ->
  hm_prev (s_halt st') = hm_prev (s_halt st) /\
  match hm_windows (s_halt st) with
  | [] => hm_windows (s_halt st') = []
  | w :: ws =>
      (hm_windows (s_halt st') = ws /\ forall k a, s_auctions st !! k = Some a -> due (e_time e) a -> hw_end w < end_second a) \/
      (hm_windows (s_halt st') = w :: ws /\ exists k a, s_auctions st !! k = Some a /\ due (e_time e) a /\ end_second a <= hw_end w)
  end.
Proof. exact window_exact. Qed.
Print Assumptions C104_window_exact.
(** The first EndBlock meets the due auction and keeps the window; at the second one nothing is due and it goes. *)
Example C104_case : ra_reachable p1 lib1 w_halt /\ 0 < cf_max_settle (s_config (w_st w_halt)) /\
  is_ok (run_acts p1 lib1 w_halt [Sudo EndBlock; Sudo EndBlock]) = true /\
  hm_windows (s_halt (w_st (after lib1 w_halt [Sudo EndBlock]))) = [HaltWindow 1010 5300] /\
  hm_windows (s_halt (w_st (after lib1 w_halt [Sudo EndBlock; Sudo EndBlock]))) = [].
Proof. split; [apply after_reachable; [exact w1_reachable|by vm_compute]|]. by vm_compute. Qed.

(** * C105: the remaining queries *)
Theorem C105_min_prices_page : forall st desc limit after,
  page id_before c_denom (fun c => s_mins st !! c_denom c = Some (c_amount c))
    (opts_after desc limit after) (query_min_reserve_prices st desc limit after).
Proof. exact mins_page_form. Qed.
Print Assumptions C105_min_prices_page.
Theorem C105_min_prices_walk : forall st desc limit fuel, limit <> Some 0 -> (size (s_mins st) < fuel)%nat ->
  complete_walk id_before c_denom (fun c => s_mins st !! c_denom c = Some (c_amount c)) desc
    (walk c_denom (fun o => query_min_reserve_prices st (qo_desc o) (qo_limit o)
                              (match (if desc then qo_max o else qo_min o) with Some (BExcl k) => Some k | _ => None end))
       desc limit None fuel).
Proof. exact mins_walk. Qed.
Print Assumptions C105_min_prices_walk.
Theorem C105_auction_query : forall p st coll tok o,
  query_auction p st coll tok = Ok o <-> p_valid p coll = true /\ o = s_auctions st !! (coll, tok).
Proof. exact query_auction_form. Qed.
Print Assumptions C105_auction_query.
Definition w_mins : world state := after lib1 w1 [Sudo (SetMinReservePrices [Coin "uosmo" 8; Coin "uatom" 7])].
Example C105_case : ra_reachable p1 lib1 w_mins /\
  query_min_reserve_prices (w_st w_mins) None (Some 2) None = [Coin "uatom" 7; Coin "uosmo" 8] /\
  query_min_reserve_prices (w_st w_mins) (Some true) (Some 2) (Some "ustars") = [Coin "uosmo" 8; Coin "uatom" 7] /\
  query_auction p1 (w_st w_mins) "coll1" "1" = Ok (Some auction1) /\ query_auction p1 (w_st w_mins) "coll1" "2" = Ok None.
Proof. split; [apply after_reachable; [exact w1_reachable|by vm_compute]|]. by vm_compute. Qed.
