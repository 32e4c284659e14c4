(** The properties of marketplace v2 (C01-C33, C66, C67 and C96-C100 of properties.jsonl).  Each theorem is closed by a lemma proved
    elsewhere; what it rests on is printed beneath it, and an example shows a concrete case meeting its hypotheses. *)
From stdpp Require Import relations.
From Verif Require Import Base BaseFacts Common Chain ChainFacts V2Model V2Spec V2Facts V2Inv V2Reach V2Book V2Auth V2Calls
  IndexRange QuerySpec V2Query V2Live V2Examples V2More V2Final.

(** The sale used in the examples: alice sells token 2 into carol's collection bid. *)
Definition sell2 : msg := SellNft "coll1" "2" (det 700).
Definition sold2 : result (state * list cmsg) := call1 "alice" [us 5] sell2.
Lemma sold2_ok : execute p0 (view_of p0 w1) (env_of w1) "alice" [us 5] st1 sell2 = Ok (state_of sold2, msgs_of sold2).
Proof. by vm_compute. Qed.
Lemma sold2_sells : sells st1 sell2 (state_of sold2) (msgs_of sold2) "coll1" "2" "carol".
Proof.
  split; [|split; [done|]].
  - assert (msgs_of sold2 = [MSend "feemg" [us 5]; MRegInit "regis" "coll1"; MSend "feemg" [us 18]; MSend "royal" [us 45];
                   MSend "alice" [us 837]; MNft "coll1" "2" "carol"]) as -> by by vm_compute. set_solver.
  - intros i [a Hi]. exists a.
    apply (one_entry _ ask1_id ask1) in Hi as [-> ->]; by vm_compute.
Qed.
Lemma u64_4 : N.of_nat 4 < U64_MAX.
Proof. by vm_compute. Qed.

(** * C01 *)
Theorem C01_escrow_funded : forall p w d, reachable p w -> escrow (w_st w) d <= w_bank w (p_self p) d.
Proof. exact reachable_escrow. Qed.
Print Assumptions C01_escrow_funded.
Example C01_case : reachable p0 w1 /\ escrow (w_st w1) "ustars" = 1700 /\ w_bank w1 "mrktp" "ustars" = 1700.
Proof. split; [exact w1_reachable|]. by vm_compute. Qed.

(** * C02 *)
Theorem C02_conservation : forall p n st v e sender funds m st' msgs d,
  collision_free p -> N.of_nat n < U64_MAX -> v2_history p n st ->
  execute p v e sender funds st m = Ok (st', msgs) ->
  escrow st' d + paid_out msgs d = escrow st d + (if no_coin_call m then 0 else coins_in funds d).
Proof. exact history_conservation. Qed.
Print Assumptions C02_conservation.
(** Without any assumption on the hash or the length of the history, no coin is ever created. *)
Theorem C02_never_pays_more : forall p n st v e sender funds m st' msgs d,
  v2_history p n st -> execute p v e sender funds st m = Ok (st', msgs) ->
  escrow st' d + paid_out msgs d <= escrow st d + (if no_coin_call m then 0 else coins_in funds d).
Proof. exact (fun p n st v e s f m st' ms d H => wf_conservation p st v e s f m st' ms d (history_wf p n st H)). Qed.
Print Assumptions C02_never_pays_more.
Example C02_case : collision_free p0 /\ v2_history p0 4 st1 /\
  execute p0 (view_of p0 w1) (env_of w1) "alice" [us 5] st1 sell2 = Ok (state_of sold2, msgs_of sold2) /\
  escrow (state_of sold2) "ustars" = 800 /\ paid_out (msgs_of sold2) "ustars" = 905 /\ escrow st1 "ustars" = 1700 /\
  coins_in [us 5] "ustars" = 5.
Proof. split; [exact p0_collision_free|]. split; [exact st1_history|]. split; [exact sold2_ok|]. by vm_compute. Qed.

(** * C03: false.  Coins attached to the calls that need none are kept. *)
Theorem C03_coins_returned_refuted :
  exists p w sender funds m w', reachable p w /\ run_tx p (execute p) w sender funds m = Ok w' /\
    w_bank w (p_self p) "ustars" = escrow (w_st w) "ustars" /\
    coins_in funds "ustars" = 7 /\
    w_bank w' (p_self p) "ustars" = escrow (w_st w') "ustars" + 7.
Proof. exact stranded_coins. Qed.
Print Assumptions C03_coins_returned_refuted.
(** In fact none of the attached coins ever leaves the contract in such a call. *)
Theorem C03_coins_always_kept : forall p n st v e sender funds m st' msgs d,
  v2_history p n st -> no_coin_call m = true -> execute p v e sender funds st m = Ok (st', msgs) ->
  escrow st' d + paid_out msgs d = escrow st d.
Proof. exact no_coin_kept. Qed.
Print Assumptions C03_coins_always_kept.
Example C03_case : v2_history p0 4 st1 /\
  is_ok (execute p0 (view_of p0 w1) (env_of w1) "alice" [us 7] st1 (AcceptCollectionBid cbid_id "2" (det 800))) = true.
Proof. split; [exact st1_history|]. by vm_compute. Qed.

(** * C04 *)
Theorem C04_custody : forall p w i a,
  p_reg_reenters p = false -> reachable p w -> s_asks (w_st w) !! i = Some a -> p_honest p (a_coll a) = true ->
  w_nft w (a_coll a) (a_tok a) = Some (p_self p).
Proof. exact custody_ask. Qed.
Print Assumptions C04_custody.
Theorem C04_listed_once : forall p w i j a b,
  reachable p w -> s_asks (w_st w) !! i = Some a -> s_asks (w_st w) !! j = Some b ->
  a_coll a = a_coll b -> a_tok a = a_tok b -> i = j.
Proof. exact one_ask_per_nft. Qed.
Print Assumptions C04_listed_once.
Example C04_case : p_reg_reenters p0 = false /\ reachable p0 w1 /\ s_asks (w_st w1) !! ask1_id = Some ask1 /\
  p_honest p0 "coll1" = true /\ w_nft w1 "coll1" "1" = Some "mrktp".
Proof. split; [done|]. split; [exact w1_reachable|]. by vm_compute. Qed.

(** * C05 *)
Theorem C05_never_crossed : forall p n st i a,
  v2_history p n st -> s_asks st !! i = Some a ->
  (forall j b, s_bids st !! j = Some b -> b_coll b = a_coll a -> b_tok b = a_tok a ->
     c_denom (d_price (b_det b)) = c_denom (d_price (a_det a)) ->
     c_amount (d_price (b_det b)) < c_amount (d_price (a_det a))) /\
  (forall j cb, s_cbids st !! j = Some cb -> cb_coll cb = a_coll a ->
     c_denom (d_price (cb_det cb)) = c_denom (d_price (a_det a)) ->
     c_amount (d_price (cb_det cb)) < c_amount (d_price (a_det a))).
Proof. exact (fun p n st i a H => history_uncrossed p n st H i a). Qed.
Print Assumptions C05_never_crossed.
Example C05_case : v2_history p0 4 st1 /\ s_asks st1 !! ask1_id = Some ask1 /\ s_cbids st1 !! cbid_id = Some cbid1 /\
  cb_coll cbid1 = a_coll ask1.
Proof. split; [exact st1_history|]. by vm_compute. Qed.

(** * C06 *)
Theorem C06_split_exact : forall p n v e sender funds st m st' msgs c t to,
  v2_history p n st -> execute p v e sender funds st m = Ok (st', msgs) -> sells st m st' msgs c t to ->
  exists a mb f pre post (pays : list (addr * N)),
    trade sender st m a mb f /\ c = a_coll a /\ t = a_tok a /\ to = nft_to mb /\
    msgs = pre ++ (send_one (c_denom (trade_price a mb f)) <$> pays) ++ MNft c t to :: post /\
    Forall (fun x => 0 < snd x) pays /\ total_dues pays = c_amount (trade_price a mb f) /\
    forwards (s_config st) funds m c pre /\ change_to sender post.
Proof. exact split_exact. Qed.
Print Assumptions C06_split_exact.

(** * C07 *)
Theorem C07_fee_formula : forall p n v e sender funds st m st' msgs c t to,
  v2_history p n st -> execute p v e sender funds st m = Ok (st', msgs) -> sells st m st' msgs c t to ->
  exists a mb f, trade sender st m a mb f /\ c = a_coll a /\ t = a_tok a /\ to = nft_to mb /\
    settles p v (s_config st) sender funds m msgs a mb f /\
    let cfg := s_config st in let price := c_amount (trade_price a mb f) in let dn := c_denom (trade_price a mb f) in
    let mk := maker a mb f in let tk := taker a mb f in
    let pay (x : addr) (n : N) := 0 < n -> MSend x [Coin dn n] ∈ msgs in
    pay (cf_fee_manager cfg)
        (ceil_div (price * cf_protocol_bps cfg * (10000 - if_some mk (cf_maker_bps cfg) - if_some tk (cf_taker_bps cfg))) (10 ^ 8)) /\
    (forall x, mk = Some x -> pay x (ceil_div (price * cf_protocol_bps cfg * cf_maker_bps cfg) (10 ^ 8))) /\
    (forall x, tk = Some x -> pay x (ceil_div (price * cf_protocol_bps cfg * cf_taker_bps cfg) (10 ^ 8))).
Proof. exact fees_formula. Qed.
Print Assumptions C07_fee_formula.

(** * C08 *)
Theorem C08_royalty_capped : forall p n v e sender funds st m st' msgs c t to,
  v2_history p n st -> execute p v e sender funds st m = Ok (st', msgs) -> sells st m st' msgs c t to ->
  exists a mb f, trade sender st m a mb f /\ c = a_coll a /\ t = a_tok a /\ to = nft_to mb /\
    settles p v (s_config st) sender funds m msgs a mb f /\
    let cfg := s_config st in let price := c_amount (trade_price a mb f) in let dn := c_denom (trade_price a mb f) in
    forall r share, royalty_due p v cfg c = Some (r, share) ->
      let n := ceil_div (price * N.min share (cf_max_royalty_bps cfg * 10 ^ 14)) (10 ^ 18) in
      (0 < n -> MSend r [Coin dn n] ∈ msgs) /\ n <= ceil_div (price * cf_max_royalty_bps cfg) 10000.
Proof. exact royalty_formula. Qed.
Print Assumptions C08_royalty_capped.
Example C06_C07_C08_case : v2_history p0 4 st1 /\
  execute p0 (view_of p0 w1) (env_of w1) "alice" [us 5] st1 sell2 = Ok (state_of sold2, msgs_of sold2) /\
  sells st1 sell2 (state_of sold2) (msgs_of sold2) "coll1" "2" "carol" /\
  royalty_due p0 (view_of p0 w1) cfg0 "coll1" = Some ("royal", 50000000000000000) /\
  msgs_of sold2 = [MSend "feemg" [us 5]; MRegInit "regis" "coll1"; MSend "feemg" [us 18]; MSend "royal" [us 45];
                   MSend "alice" [us 837]; MNft "coll1" "2" "carol"].
Proof. split; [exact st1_history|]. split; [exact sold2_ok|]. split; [exact sold2_sells|]. by vm_compute. Qed.

(** * C09 *)
Theorem C09_best_bid : forall p n v e sender funds st m st' msgs coll tok price,
  slash_free p -> v2_history p n st ->
  execute p v e sender funds st m = Ok (st', msgs) -> ask_call st m coll tok price ->
  (exists a mb, a_coll a = coll /\ a_tok a = tok /\ best_bid st coll tok price mb /\
     trade sender st m a mb false /\ settles p v (s_config st) sender funds m msgs a mb false /\ ~ resting st' mb /\
     s_asks st' !! a_id a = None) \/
  ((forall mb, ~ fits st coll tok price mb) /\ (forall c t to, ~ sells st m st' msgs c t to)).
Proof.
  exact (fun p n v e s f st m st' ms c t pr Hs H => ask_filled_best p v e s f st m st' ms c t pr (history_wf p n st H) Hs).
Qed.
Print Assumptions C09_best_bid.
Example C09_case : slash_free p0 /\ v2_history p0 4 st1 /\
  execute p0 (view_of p0 w1) (env_of w1) "alice" [us 5] st1 sell2 = Ok (state_of sold2, msgs_of sold2) /\
  ask_call st1 sell2 "coll1" "2" (us 700) /\
  fits st1 "coll1" "2" (us 700) (MBid bid1) /\ fits st1 "coll1" "2" (us 700) (MCBid cbid1).
Proof.
  split; [exact p0_slash_free|]. split; [exact st1_history|]. split; [exact sold2_ok|].
  split; [exact (AskCallSell st1 "coll1" "2" (det 700))|]. split; by vm_compute.
Qed.

(** * C10 *)
Theorem C10_cheapest_ask : forall p n v e sender funds st m st' msgs coll tok price,
  collision_free p -> prefix_free p -> v2_history p n st ->
  execute p v e sender funds st m = Ok (st', msgs) -> bid_call st m coll tok price ->
  (exists a mb, cheapest st coll tok price a /\ price_of mb = price /\
     trade sender st m a mb true /\ settles p v (s_config st) sender funds m msgs a mb true /\
     s_asks st' !! a_id a = None) \/
  ((forall a, ~ offered st coll tok price a) /\ (forall c t to, ~ sells st m st' msgs c t to)).
Proof.
  exact (fun p n v e s f st m st' ms c t pr Hc Hp H =>
    bid_filled_cheapest p v e s f st m st' ms c t pr (history_wf p n st H) Hc Hp).
Qed.
Print Assumptions C10_cheapest_ask.
Definition buy1 : msg := BuyCollectionNft "coll1" (Details (us 1050) None (Some "findb")).
Definition bought1 : result (state * list cmsg) := call1 "david" [us 1100] buy1.
Example C10_case : collision_free p0 /\ prefix_free p0 /\ v2_history p0 4 st1 /\
  execute p0 (view_of p0 w1) (env_of w1) "david" [us 1100] st1 buy1 = Ok (state_of bought1, msgs_of bought1) /\
  bid_call st1 buy1 "coll1" None (us 1050) /\ offered st1 "coll1" None (us 1050) ask1.
Proof.
  split; [exact p0_collision_free|]. split; [exact p0_prefix_free|]. split; [exact st1_history|]. split; [by vm_compute|].
  split; [exact (CBidCallBuy st1 "coll1" _)|]. split; [by vm_compute|]. split; [done|]. split; [done|]. by vm_compute.
Qed.

(** * C11 *)
Theorem C11_limit_prices : forall p n v e sender funds st m st' msgs c t to,
  v2_history p n st -> execute p v e sender funds st m = Ok (st', msgs) -> sells st m st' msgs c t to ->
  exists a mb f, trade sender st m a mb f /\ settles p v (s_config st) sender funds m msgs a mb f /\
    c_denom (trade_price a mb f) = c_denom (price_of mb) /\ c_amount (trade_price a mb f) <= c_amount (price_of mb) /\
    c_denom (seller_min m a) = c_denom (trade_price a mb f) /\ c_amount (seller_min m a) <= c_amount (trade_price a mb f).
Proof.
  exact (fun p n v e s f st m st' ms c t to H => sells_limits p v e s f st m st' ms c t to (history_wf p n st H)).
Qed.
Print Assumptions C11_limit_prices.
(** Its hypotheses are those of C06, met in [C06_C07_C08_case]. *)

(** * C12 *)
Theorem C12_bid_changes : forall p n v e sender funds st m st' msgs i b,
  collision_free p -> prefix_free p -> slash_free p -> N.of_nat n < U64_MAX -> v2_history p n st ->
  execute p v e sender funds st m = Ok (st', msgs) ->
  s_bids st !! i = Some b -> s_bids st' !! i <> Some b -> sender <> b_creator b ->
  s_bids st' !! i = None /\
  exists a, trade sender st m a (MBid b) false /\ settles p v (s_config st) sender funds m msgs a (MBid b) false /\
    a_coll a = b_coll b /\ a_tok a = b_tok b.
Proof. exact bid_changes. Qed.
Print Assumptions C12_bid_changes.
Theorem C12_collection_bid_changes : forall p n v e sender funds st m st' msgs i b,
  collision_free p -> prefix_free p -> slash_free p -> N.of_nat n < U64_MAX -> v2_history p n st ->
  execute p v e sender funds st m = Ok (st', msgs) ->
  s_cbids st !! i = Some b -> s_cbids st' !! i <> Some b -> sender <> cb_creator b ->
  s_cbids st' !! i = None /\
  exists a, trade sender st m a (MCBid b) false /\ settles p v (s_config st) sender funds m msgs a (MCBid b) false /\
    a_coll a = cb_coll b.
Proof. exact cbid_changes. Qed.
Print Assumptions C12_collection_bid_changes.
Theorem C12_ask_changes : forall p w sender funds m st' msgs i a,
  collision_free p -> prefix_free p -> p_reg_reenters p = false -> reachable p w -> sender <> p_self p ->
  p_honest p (a_coll a) = true ->
  execute p (view_of p (pay_in p w sender funds)) (env_of w) sender funds (w_st w) m = Ok (st', msgs) ->
  s_asks (w_st w) !! i = Some a -> s_asks st' !! i <> Some a -> sender <> a_creator a ->
  s_asks st' !! i = None /\
  exists mb, trade sender (w_st w) m a mb true /\
    settles p (view_of p (pay_in p w sender funds)) (s_config (w_st w)) sender funds m msgs a mb true.
Proof. exact ask_changes_world. Qed.
Print Assumptions C12_ask_changes.
Example C12_bid_case : s_cbids st1 !! cbid_id = Some cbid1 /\ s_cbids (state_of sold2) !! cbid_id <> Some cbid1 /\
  "alice" <> cb_creator cbid1.
Proof.
  split; [by vm_compute|]. split; [|done].
  assert (s_cbids (state_of sold2) !! cbid_id = None) as -> by by vm_compute. done.
Qed.
Example C12_ask_case :
  execute p0 (view_of p0 (pay_in p0 w1 "david" [us 1100])) (env_of w1) "david" [us 1100] (w_st w1) buy1
    = Ok (state_of bought1, msgs_of bought1) /\
  s_asks (w_st w1) !! ask1_id = Some ask1 /\ s_asks (state_of bought1) !! ask1_id <> Some ask1.
Proof.
  split; [by vm_compute|]. split; [by vm_compute|].
  assert (s_asks (state_of bought1) !! ask1_id = None) as -> by by vm_compute. done.
Qed.

(** * C13 *)
Theorem C13_withdraw_bid : forall p w i b,
  reachable p w -> s_bids (w_st w) !! i = Some b -> p_blocked p (b_creator b) = false ->
  exists w', run_tx p (execute p) w (b_creator b) [] (RemoveBid i) = Ok w' /\
    s_bids (w_st w') !! i = None /\
    (forall d, w_bank w' (b_creator b) d = w_bank w (b_creator b) d + in_denom d (d_price (b_det b))).
Proof. exact withdraw_bid. Qed.
Print Assumptions C13_withdraw_bid.
Theorem C13_withdraw_collection_bid : forall p w i b,
  reachable p w -> s_cbids (w_st w) !! i = Some b -> p_blocked p (cb_creator b) = false ->
  exists w', run_tx p (execute p) w (cb_creator b) [] (RemoveCollectionBid i) = Ok w' /\
    s_cbids (w_st w') !! i = None /\
    (forall d, w_bank w' (cb_creator b) d = w_bank w (cb_creator b) d + in_denom d (d_price (cb_det b))).
Proof. exact withdraw_cbid. Qed.
Print Assumptions C13_withdraw_collection_bid.
Example C13_case : reachable p0 w1 /\ s_bids (w_st w1) !! bid_id = Some bid1 /\ p_blocked p0 (b_creator bid1) = false /\
  s_cbids (w_st w1) !! cbid_id = Some cbid1 /\ p_blocked p0 (cb_creator cbid1) = false.
Proof. split; [exact w1_reachable|]. by vm_compute. Qed.

(** * C14 *)
Theorem C14_withdraw_ask : forall p w i a,
  reachable p w -> p_reg_reenters p = false -> s_asks (w_st w) !! i = Some a ->
  p_honest p (a_coll a) = true -> a_coll a <> p_self p ->
  exists w', run_tx p (execute p) w (a_creator a) [] (RemoveAsk i) = Ok w' /\
    s_asks (w_st w') !! i = None /\ w_nft w' (a_coll a) (a_tok a) = Some (proceeds_to a).
Proof. exact withdraw_ask. Qed.
Print Assumptions C14_withdraw_ask.
Example C14_case : reachable p0 w1 /\ s_asks (w_st w1) !! ask1_id = Some ask1 /\ p_honest p0 (a_coll ask1) = true.
Proof. split; [exact w1_reachable|]. by vm_compute. Qed.

(** * C15 *)
Theorem C15_charged_exactly : forall p n v e sender funds st m st' msgs old limit,
  v2_history p n st -> execute p v e sender funds st m = Ok (st', msgs) -> paying_call st m old limit ->
  exists back, change_to sender back /\
    ((exists a mb head, trade sender st m a mb true /\ settles p v (s_config st) sender funds m msgs a mb true /\
        msgs = head ++ MNft (a_coll a) (a_tok a) (nft_to mb) :: back /\
        (forall c t to, MNft c t to ∉ head) /\
        forall d, coins_in funds d + opt_in_denom d old = in_denom d (d_price (a_det a)) + paid_out back d) \/
     (msgs = back /\ (exists mb, resting st' mb /\ price_of mb = limit /\ buyer_of mb = sender) /\
        forall d, coins_in funds d + opt_in_denom d old = in_denom d limit + paid_out back d)).
Proof. exact (fun p n v e s f st m st' ms o l H => charged p v e s f st m st' ms o l (history_wf p n st H)). Qed.
Print Assumptions C15_charged_exactly.
(** Bobby lowers their bid from 800 to 500, attaching 40 more for no reason, and gets 340 back. *)
Example C15_case : v2_history p0 4 st1 /\
  (exists st', execute p0 (view_of p0 w1) (env_of w1) "bobby" [us 40] st1 (UpdateBid bid_id (det 500))
     = Ok (st', [MSend "bobby" [us 340]])) /\
  paying_call st1 (UpdateBid bid_id (det 500)) (Some (us 800)) (us 500).
Proof.
  split; [exact st1_history|]. split; [eexists; by vm_compute|].
  exact (PayUpdateBid st1 bid_id (det 500) bid1 (proj1 (proj2 st1_orders))).
Qed.

(** * C16 *)
Theorem C16_immediate_sells : forall p n v e sender funds st m st' msgs,
  v2_history p n st -> execute p v e sender funds st m = Ok (st', msgs) -> immediate m = true ->
  (exists a mb f, trade sender st m a mb f /\ settles p v (s_config st) sender funds m msgs a mb f) /\
  submap (s_asks st') (s_asks st) /\ submap (s_bids st') (s_bids st) /\ submap (s_cbids st') (s_cbids st).
Proof. exact (fun p n v e s f st m st' ms H => immediate_sells p v e s f st m st' ms (history_wf p n st H)). Qed.
Print Assumptions C16_immediate_sells.
Theorem C16_sell_fails : forall p n v e sender funds st coll tok d,
  slash_free p -> v2_history p n st -> (forall mb, ~ fits st coll tok (d_price d) mb) ->
  exists er, execute p v e sender funds st (SellNft coll tok d) = Err er.
Proof.
  exact (fun p n v e s f st c t d Hs H => immediate_sell_fails p v e s f st c t d (history_wf p n st H) Hs).
Qed.
Print Assumptions C16_sell_fails.
Theorem C16_buy_fails : forall p n v e sender funds st m coll tok price,
  collision_free p -> prefix_free p -> v2_history p n st -> immediate m = true ->
  bid_call st m coll tok price -> (forall a, ~ offered st coll tok price a) ->
  exists er, execute p v e sender funds st m = Err er.
Proof.
  exact (fun p n v e s f st m c t pr Hc Hp H => immediate_buy_fails p v e s f st m c t pr (history_wf p n st H) Hc Hp).
Qed.
Print Assumptions C16_buy_fails.
Example C16_case : immediate sell2 = true /\ immediate buy1 = true /\ v2_history p0 4 st1 /\
  (forall mb, ~ fits st1 "coll1" "2" (Coin "uatom" 1) mb) /\ (forall a, ~ offered st1 "coll1" (Some "7") (us 5000) a).
Proof.
  split; [done|]. split; [done|]. split; [exact st1_history|]. split.
  - intros mb (Hr&[Hd _]&_). destruct mb as [b|b]; cbn in Hr, Hd.
    + apply bids1 in Hr as [_ ->]. done.
    + apply cbids1 in Hr as [_ ->]. done.
  - intros a (Ha&_&Ht&_). specialize (Ht "7" eq_refl).
    apply asks1 in Ha as [_ ->]. done.
Qed.

(** * C17 *)
Theorem C17_config_bounds : forall p n st, v2_history p n st ->
  cf_protocol_bps (s_config st) < 10000 /\ cf_maker_bps (s_config st) + cf_taker_bps (s_config st) < 10000.
Proof. exact config_bounds. Qed.
Print Assumptions C17_config_bounds.
Example C17_case : v2_history p0 4 st1 /\ s_config st1 = Config "feemg" "regis" 200 1000 2000 3000 "ustars".
Proof. split; [exact st1_history|]. by vm_compute. Qed.

(** * C18 *)
Theorem C18_only_admin : forall p v e sender funds st m st' msgs,
  execute p v e sender funds st m = Ok (st', msgs) ->
  (s_config st', s_denoms st', s_fees st') <> (s_config st, s_denoms st, s_fees st) ->
  admin_call m = true /\ q_admin v = Some (Some sender).
Proof. exact config_admin. Qed.
Print Assumptions C18_only_admin.
Theorem C18_admin_calls : forall p v e sender funds st m st' msgs,
  execute p v e sender funds st m = Ok (st', msgs) -> admin_call m = true -> q_admin v = Some (Some sender).
Proof. exact admin_call_authorised. Qed.
Print Assumptions C18_admin_calls.
Theorem C18_frozen_without_admin : forall p st,
  v2_history_with p (fun v _ sender => q_admin v <> Some (Some sender)) st ->
  exists c, instantiate p c = Ok (State (s_config st) (s_denoms st) (s_fees st) 0 ∅ ∅ ∅) /\ s_denoms st = ∅ /\ s_fees st = ∅.
Proof. exact no_admin_frozen. Qed.
Print Assumptions C18_frozen_without_admin.
Example C18_case :
  is_ok (execute p0 (view_of p0 w1) (env_of w1) "admin" [] st1 (SetListingFee (us 9))) = true /\
  is_ok (execute p0 (view_of p0 w1) (env_of w1) "alice" [] st1 (SetListingFee (us 9))) = false.
Proof. by vm_compute. Qed.
Example C18_frozen_case :
  v2_history_with p0 (fun v _ sender => q_admin v <> Some (Some sender))
    (w_st (after w0 [("carol", [us 900], SetCollectionBid "coll1" (det 900))])).
Proof.
  exists cfg0, st0. split; [by vm_compute|]. eapply rtc_once.
  exists (view_of p0 w0), (env_of w0), "carol", [us 900], (SetCollectionBid "coll1" (det 900)), [].
  split; [done|]. split; [done|]. by vm_compute.
Qed.

(** * C19 *)
Theorem C19_admin_inert : forall p v e sender funds st m st' msgs,
  execute p v e sender funds st m = Ok (st', msgs) -> admin_call m = true ->
  msgs = [] /\ s_asks st' = s_asks st /\ s_bids st' = s_bids st /\ s_cbids st' = s_cbids st.
Proof. exact admin_call_inert. Qed.
Print Assumptions C19_admin_inert.
Example C19_case :
  is_ok (execute p0 (view_of p0 w1) (env_of w1) "admin" [] st1 (UpdateConfig cfg0)) = true /\
  is_ok (execute p0 (view_of p0 w1) (env_of w1) "admin" [] st1 (UpdateCollectionDenom "coll1" "uatom")) = true /\
  is_ok (execute p0 (view_of p0 w1) (env_of w1) "admin" [] st1 (RemoveListingFee "ustars")) = true.
Proof. by vm_compute. Qed.

(** * C20 *)
Theorem C20_listing_fee : forall p v e sender funds st m st' msgs coll tok d,
  execute p v e sender funds st m = Ok (st', msgs) -> m = SetAsk coll tok d \/ m = SellNft coll tok d ->
  exists c rest, funds = [c] /\ 0 < c_amount c /\ s_fees st !! c_denom c = Some (c_amount c) /\
    msgs = MSend (cf_fee_manager (s_config st)) [c] :: rest.
Proof. exact listing_fee. Qed.
Print Assumptions C20_listing_fee.
Example C20_case : execute p0 (view_of p0 w1) (env_of w1) "alice" [us 5] st1 sell2 = Ok (state_of sold2, msgs_of sold2) /\
  s_fees st1 !! "ustars" = Some 5.
Proof. split; [exact sold2_ok|]. by vm_compute. Qed.

(** * C21 *)
Theorem C21_positive_prices : forall p n st, v2_history p n st ->
  (forall i a, s_asks st !! i = Some a -> 0 < c_amount (d_price (a_det a))) /\
  (forall i b, s_bids st !! i = Some b -> 0 < c_amount (d_price (b_det b))) /\
  (forall i b, s_cbids st !! i = Some b -> 0 < c_amount (d_price (cb_det b))).
Proof. exact positive_prices. Qed.
Print Assumptions C21_positive_prices.
Example C21_case : v2_history p0 4 st1 /\ s_asks st1 !! ask1_id = Some ask1 /\ s_bids st1 !! bid_id = Some bid1.
Proof. split; [exact st1_history|]. by vm_compute. Qed.

(** * C22 *)
Theorem C22_placing_keeps : forall p n st v e sender funds m st' msgs coll tok d id,
  collision_free p -> N.of_nat n < U64_MAX -> v2_history p n st ->
  m = SetBid coll tok d \/ m = BuySpecificNft coll tok d \/ m = SetCollectionBid coll d \/ m = BuyCollectionNft coll d \/
  m = AcceptAsk id d ->
  execute p v e sender funds st m = Ok (st', msgs) -> submap (s_bids st) (s_bids st') /\ submap (s_cbids st) (s_cbids st').
Proof. exact placing_leaves. Qed.
Print Assumptions C22_placing_keeps.
Theorem C22_ids_never_reissued : forall p n k st0 st st1 st2 i c,
  collision_free p -> N.of_nat n + N.of_nat k < U64_MAX ->
  instantiate p c = Ok st0 -> nsteps (hstep p (execute p)) n st0 st ->
  (is_Some (s_bids st !! i) \/ is_Some (s_cbids st !! i)) ->
  nsteps (hstep p (execute p)) k st st1 -> hstep p (execute p) st1 st2 ->
  (s_bids st1 !! i = None -> s_bids st2 !! i = None) /\ (s_cbids st1 !! i = None -> s_cbids st2 !! i = None).
Proof. exact never_reissued. Qed.
Print Assumptions C22_ids_never_reissued.
Theorem C22_bid_accepted : forall p n v e sender st coll tok d,
  collision_free p -> prefix_free p -> N.of_nat n < U64_MAX -> v2_history p n st ->
  p_valid p coll = true -> named_ok p d -> ~ not_yet_tradable v e coll -> priced st coll (d_price d) ->
  (forall a, ~ offered st coll (Some tok) (d_price d) a) ->
  exists st' i, execute p v e sender [d_price d] st (SetBid coll tok d) = Ok (st', []) /\
    s_bids st !! i = None /\ s_bids st' = <[i := Bid i sender coll tok d]> (s_bids st) /\
    s_asks st' = s_asks st /\ s_cbids st' = s_cbids st.
Proof. exact place_bid. Qed.
Print Assumptions C22_bid_accepted.
Theorem C22_collection_bid_accepted : forall p n v e sender st coll d,
  collision_free p -> N.of_nat n < U64_MAX -> v2_history p n st ->
  p_valid p coll = true -> named_ok p d -> ~ not_yet_tradable v e coll -> priced st coll (d_price d) ->
  c_amount (d_price d) < U128_MAX -> (forall a, ~ offered st coll None (d_price d) a) ->
  exists st' i, execute p v e sender [d_price d] st (SetCollectionBid coll d) = Ok (st', []) /\
    s_cbids st !! i = None /\ s_cbids st' = <[i := CBid i sender coll d]> (s_cbids st) /\
    s_asks st' = s_asks st /\ s_bids st' = s_bids st.
Proof. exact place_cbid. Qed.
Print Assumptions C22_collection_bid_accepted.
Lemma tradable1 : ~ not_yet_tradable (view_of p0 w1) (env_of w1) "coll1".
Proof.
  intros (ci&start&H&Hs&_). assert (ci = CollectionInfo None (Some ("royal", 50000000000000000))) as ->.
  { apply (f_equal (fun o => match o with Some x => x | None => ci end)) in H. cbn in H. rewrite <-H. by vm_compute. }
  done.
Qed.
Example C22_case : collision_free p0 /\ prefix_free p0 /\ N.of_nat 4 < U64_MAX /\ v2_history p0 4 st1 /\
  p_valid p0 "coll1" = true /\ named_ok p0 (Details (us 950) (Some "carol") (Some "finda")) /\
  ~ not_yet_tradable (view_of p0 w1) (env_of w1) "coll1" /\ priced st1 "coll1" (us 950) /\
  (forall a, ~ offered st1 "coll1" None (us 950) a).
Proof.
  split; [exact p0_collision_free|]. split; [exact p0_prefix_free|]. split; [exact u64_4|]. split; [exact st1_history|].
  split; [done|]. split; [split; intros x [= <-]; done|]. split; [exact tradable1|]. split; [by vm_compute|].
  intros a (Ha&_&_&_&Hp).
  apply asks1 in Ha as [_ ->]. cbn in Hp. lia.
Qed.

(** * C23: false for arbitrary address strings, true when no address is a prefix of another. *)
Theorem C23_ask_ids_refuted :
  forall p, exists c1 t1 c2 t2, (c1, t1) <> (c2, t2) /\ generate_id p [c1; t1] = generate_id p [c2; t2].
Proof. exact ask_ids_collide. Qed.
Print Assumptions C23_ask_ids_refuted.
Theorem C23_ask_ids_distinct : forall p c1 t1 c2 t2,
  collision_free p -> prefix_free p -> p_valid p c1 = true -> p_valid p c2 = true ->
  generate_id p [c1; t1] = generate_id p [c2; t2] -> c1 = c2 /\ t1 = t2.
Proof. exact ask_id_inj. Qed.
Print Assumptions C23_ask_ids_distinct.
Theorem C23_resting_ids : forall p n st i j a b,
  v2_history p n st -> s_asks st !! i = Some a -> s_asks st !! j = Some b ->
  collision_free p -> prefix_free p -> (i = j <-> a_coll a = a_coll b /\ a_tok a = a_tok b).
Proof. exact resting_ids_distinct. Qed.
Print Assumptions C23_resting_ids.
Example C23_case : collision_free p0 /\ prefix_free p0 /\ p_valid p0 "coll1" = true /\ p_valid p0 "coll2" = true /\
  generate_id p0 ["coll1"; "23"] <> generate_id p0 ["coll2"; "3"].
Proof. split; [exact p0_collision_free|]. split; [exact p0_prefix_free|]. by vm_compute. Qed.

(** * C24: (a) holds, (b) is false when the start time is moved; it holds if the time was never earlier. *)
Theorem C24_opening_needs_tradable : forall p v e sender funds st m coll,
  opens m = Some coll -> not_yet_tradable v e coll -> exists er, execute p v e sender funds st m = Err er.
Proof. exact opens_tradable. Qed.
Print Assumptions C24_opening_needs_tradable.
Theorem C24_sold_early_refuted :
  exists p w sender funds m st' msgs c t to, reachable p w /\
    not_yet_tradable (view_of p w) (env_of w) c /\
    execute p (view_of p (pay_in p w sender funds)) (env_of w) sender funds (w_st w) m = Ok (st', msgs) /\
    sells (w_st w) m st' msgs c t to /\ (exists w', run_tx p (execute p) w sender funds m = Ok w').
Proof. exact sold_early. Qed.
Print Assumptions C24_sold_early_refuted.
Theorem C24_never_sold_early : forall p coll st v e sender funds m st' msgs,
  v2_history_with p (fun v e _ => not_yet_tradable v e coll) st -> not_yet_tradable v e coll ->
  execute p v e sender funds st m = Ok (st', msgs) -> forall t to, MNft coll t to ∉ msgs.
Proof. exact never_sold_early. Qed.
Print Assumptions C24_never_sold_early.
Lemma early2 : not_yet_tradable (view_of p0 w0) (env_of w0) "coll2".
Proof. exists (CollectionInfo (Some 2000000000) None), 2000000000. by vm_compute. Qed.
Example C24_case : not_yet_tradable (view_of p0 w0) (env_of w0) "coll2" /\
  opens (SetBid "coll2" "1" (det 10)) = Some "coll2" /\
  v2_history_with p0 (fun v e _ => not_yet_tradable v e "coll2")
    (w_st (after w0 [("carol", [us 900], SetCollectionBid "coll1" (det 900))])).
Proof.
  split; [exact early2|]. split; [done|]. exists cfg0, st0. split; [by vm_compute|]. eapply rtc_once.
  exists (view_of p0 w0), (env_of w0), "carol", [us 900], (SetCollectionBid "coll1" (det 900)), [].
  split; [done|]. split; [exact early2|]. by vm_compute.
Qed.

(** * C25 *)
Theorem C25_asks_page : forall p n st coll dn o, v2_history p n st ->
  page price_before ask_key
    (fun x => s_asks st !! a_id x = Some x /\ a_coll x = coll /\ c_denom (d_price (a_det x)) = dn) o
    (query_asks_by_collection_denom st coll dn o).
Proof. exact (fun p n st c dn o H => asks_page p st (history_wf p n st H) c dn o). Qed.
Print Assumptions C25_asks_page.
Theorem C25_asks_walk : forall p n st coll dn desc limit fuel,
  v2_history p n st -> limit <> Some 0 -> (size (s_asks st) < fuel)%nat ->
  complete_walk price_before ask_key
    (fun x => s_asks st !! a_id x = Some x /\ a_coll x = coll /\ c_denom (d_price (a_det x)) = dn) desc
    (walk ask_key (query_asks_by_collection_denom st coll dn) desc limit None fuel).
Proof. exact (fun p n st c dn de l fu H => asks_walk p st (history_wf p n st H) c dn de l fu). Qed.
Print Assumptions C25_asks_walk.
Theorem C25_bids_page : forall p n st coll tok dn o, v2_history p n st -> slash_free p -> p_valid p coll = true ->
  page price_before bid_key
    (fun x => s_bids st !! b_id x = Some x /\ (b_coll x = coll /\ b_tok x = tok) /\ c_denom (d_price (b_det x)) = dn) o
    (query_bids_by_token_price st coll tok dn o).
Proof. exact (fun p n st c t dn o H => bids_page p st (history_wf p n st H) c t dn o). Qed.
Print Assumptions C25_bids_page.
Theorem C25_bids_walk : forall p n st coll tok dn desc limit fuel,
  v2_history p n st -> slash_free p -> p_valid p coll = true -> limit <> Some 0 -> (size (s_bids st) < fuel)%nat ->
  complete_walk price_before bid_key
    (fun x => s_bids st !! b_id x = Some x /\ (b_coll x = coll /\ b_tok x = tok) /\ c_denom (d_price (b_det x)) = dn) desc
    (walk bid_key (query_bids_by_token_price st coll tok dn) desc limit None fuel).
Proof. exact (fun p n st c t dn de l fu H => bids_walk p st (history_wf p n st H) c t dn de l fu). Qed.
Print Assumptions C25_bids_walk.
Theorem C25_collection_bids_page : forall p n st coll dn o, v2_history p n st ->
  page price_before cbid_key
    (fun x => s_cbids st !! cb_id x = Some x /\ cb_coll x = coll /\ c_denom (d_price (cb_det x)) = dn) o
    (query_collection_bids_by_price st coll dn o).
Proof. exact (fun p n st c dn o H => cbids_page p st (history_wf p n st H) c dn o). Qed.
Print Assumptions C25_collection_bids_page.
Theorem C25_collection_bids_walk : forall p n st coll dn desc limit fuel,
  v2_history p n st -> limit <> Some 0 -> (size (s_cbids st) < fuel)%nat ->
  complete_walk price_before cbid_key
    (fun x => s_cbids st !! cb_id x = Some x /\ cb_coll x = coll /\ c_denom (d_price (cb_det x)) = dn) desc
    (walk cbid_key (query_collection_bids_by_price st coll dn) desc limit None fuel).
Proof. exact (fun p n st c dn de l fu H => cbids_walk p st (history_wf p n st H) c dn de l fu). Qed.
Print Assumptions C25_collection_bids_walk.

(** * C26 *)
Theorem C26_asks_page : forall p n st creator coll o, v2_history p n st ->
  page id_before a_id (fun x => s_asks st !! a_id x = Some x /\ a_creator x = creator /\ a_coll x = coll) o
    (query_asks_by_creator_collection st creator coll o).
Proof. exact (fun p n st cr c o H => asks_of_page p st (history_wf p n st H) cr c o). Qed.
Print Assumptions C26_asks_page.
Theorem C26_asks_walk : forall p n st creator coll desc limit fuel,
  v2_history p n st -> limit <> Some 0 -> (size (s_asks st) < fuel)%nat ->
  complete_walk id_before a_id (fun x => s_asks st !! a_id x = Some x /\ a_creator x = creator /\ a_coll x = coll) desc
    (walk a_id (query_asks_by_creator_collection st creator coll) desc limit None fuel).
Proof. exact (fun p n st cr c de l fu H => asks_of_walk p st (history_wf p n st H) cr c de l fu). Qed.
Print Assumptions C26_asks_walk.
Theorem C26_bids_page : forall p n st creator coll o, v2_history p n st ->
  page id_before b_id (fun x => s_bids st !! b_id x = Some x /\ b_creator x = creator /\ b_coll x = coll) o
    (query_bids_by_creator_collection st creator coll o).
Proof. exact (fun p n st cr c o H => bids_of_page p st (history_wf p n st H) cr c o). Qed.
Print Assumptions C26_bids_page.
Theorem C26_bids_walk : forall p n st creator coll desc limit fuel,
  v2_history p n st -> limit <> Some 0 -> (size (s_bids st) < fuel)%nat ->
  complete_walk id_before b_id (fun x => s_bids st !! b_id x = Some x /\ b_creator x = creator /\ b_coll x = coll) desc
    (walk b_id (query_bids_by_creator_collection st creator coll) desc limit None fuel).
Proof. exact (fun p n st cr c de l fu H => bids_of_walk p st (history_wf p n st H) cr c de l fu). Qed.
Print Assumptions C26_bids_walk.
Theorem C26_collection_bids_page : forall p n st creator coll o, v2_history p n st ->
  page id_before cb_id (fun x => s_cbids st !! cb_id x = Some x /\ cb_creator x = creator /\ cb_coll x = coll) o
    (query_collection_bids_by_creator_collection st creator coll o).
Proof. exact (fun p n st cr c o H => cbids_of_page p st (history_wf p n st H) cr c o). Qed.
Print Assumptions C26_collection_bids_page.
Theorem C26_collection_bids_walk : forall p n st creator coll desc limit fuel,
  v2_history p n st -> limit <> Some 0 -> (size (s_cbids st) < fuel)%nat ->
  complete_walk id_before cb_id (fun x => s_cbids st !! cb_id x = Some x /\ cb_creator x = creator /\ cb_coll x = coll) desc
    (walk cb_id (query_collection_bids_by_creator_collection st creator coll) desc limit None fuel).
Proof. exact (fun p n st cr c de l fu H => cbids_of_walk p st (history_wf p n st H) cr c de l fu). Qed.
Print Assumptions C26_collection_bids_walk.
(** Three collection bids, walked in pages of two from the highest price. *)
Definition queue : list tx := [
  ("carol", [us 900], SetCollectionBid "coll1" (det 900));
  ("bobby", [us 950], SetCollectionBid "coll1" (det 950));
  ("carol", [us 100], SetCollectionBid "coll1" (det 100))].
Example C25_C26_case : v2_history p0 3 (w_st (after w0 queue)) /\
  (cbid_key <$> walk cbid_key (query_collection_bids_by_price (w_st (after w0 queue)) "coll1" "ustars") true (Some 2) None 4)
    = [(950, "#coll1" +:+ be8 10 +:+ be8 2); (900, "#coll1" +:+ be8 10 +:+ be8 1); (100, "#coll1" +:+ be8 10 +:+ be8 3)] /\
  (cb_id <$> walk cb_id (query_collection_bids_by_creator_collection (w_st (after w0 queue)) "carol" "coll1") false (Some 1) None 4)
    = ["#coll1" +:+ be8 10 +:+ be8 1; "#coll1" +:+ be8 10 +:+ be8 3].
Proof. split; [apply (after_history queue)|]; by vm_compute. Qed.

(** * C27 *)
Theorem C27_lookup_asks : forall p n st (ids : list string), v2_history p n st ->
  a_id <$> query_asks st ids = filter (fun i => is_Some (s_asks st !! i)) ids /\
  (forall a, a ∈ query_asks st ids -> s_asks st !! a_id a = Some a).
Proof. exact lookup_asks. Qed.
Print Assumptions C27_lookup_asks.
Theorem C27_lookup_bids : forall p n st (ids : list string), v2_history p n st ->
  b_id <$> query_bids st ids = filter (fun i => is_Some (s_bids st !! i)) ids /\
  (forall b, b ∈ query_bids st ids -> s_bids st !! b_id b = Some b).
Proof. exact lookup_bids. Qed.
Print Assumptions C27_lookup_bids.
Theorem C27_lookup_collection_bids : forall p n st (ids : list string), v2_history p n st ->
  cb_id <$> query_collection_bids st ids = filter (fun i => is_Some (s_cbids st !! i)) ids /\
  (forall b, b ∈ query_collection_bids st ids -> s_cbids st !! cb_id b = Some b).
Proof. exact lookup_cbids. Qed.
Print Assumptions C27_lookup_collection_bids.
Example C27_case : v2_history p0 4 st1 /\ query_asks st1 ["nope"; ask1_id; ask1_id] = [ask1; ask1].
Proof. split; [exact st1_history|]. by vm_compute. Qed.

(** * C28 *)
Theorem C28_fees_fit : forall p n st v a mb f margin,
  v2_history p n st -> fees_leave_room p v (s_config st) a mb f margin ->
  total_dues (sale_dues p v (s_config st) a mb f) <= c_amount (trade_price a mb f).
Proof. exact (fun p n st v a mb f mg H => dues_fit p v (s_config st) a mb f mg (wf_config _ _ (history_wf p n st H))). Qed.
Print Assumptions C28_fees_fit.
Theorem C28_sale_succeeds : forall p n st v a mb f resp margin,
  v2_history p n st -> 0 < c_amount (trade_price a mb f) -> c_amount (trade_price a mb f) <= U128_MAX ->
  royalty_answers p v (s_config st) (a_coll a) -> fees_leave_room p v (s_config st) a mb f margin ->
  exists st' msgs, finalize_sale p v st a (s_config st) mb f resp = Ok (st', msgs).
Proof.
  exact (fun p n st v a mb f r mg H => sale_succeeds p v st a (s_config st) mb f r mg (wf_config _ _ (history_wf p n st H))).
Qed.
Print Assumptions C28_sale_succeeds.
Example C28_case : v2_history p0 4 st1 /\ royalty_answers p0 (view_of p0 w1) (s_config st1) "coll1" /\
  fees_leave_room p0 (view_of p0 w1) (s_config st1) ask1 (MCBid cbid1) false 100000000000000000.
Proof.
  split; [exact st1_history|]. split; [split|by vm_compute].
  - exists (None, None). by vm_compute.
  - intros ci pa sh H. assert (ci = CollectionInfo None (Some ("royal", 50000000000000000))) as ->.
    { apply (f_equal (fun o => match o with Some x => x | None => ci end)) in H. cbn in H. rewrite <-H. by vm_compute. }
    by intros [= <- _].
Qed.

(** * C29: false (a bid whose finder cannot receive coins, or a dust bid, blocks sellers); true when the best bid's
    payments can be received and the fees leave room. *)
Theorem C29_poison_bid_refuted :
  exists p w sender coll tok d lp mb, reachable p w /\
    w_nft w coll tok = Some sender /\ can_transfer w coll tok (p_self p) = true /\ p_honest p coll = true /\
    ~ not_yet_tradable (view_of p w) (env_of w) coll /\ named_ok p d /\ priced (w_st w) coll (d_price d) /\
    s_fees (w_st w) !! c_denom lp = Some (c_amount lp) /\ c_amount lp <= w_bank w sender (c_denom lp) /\
    fits (w_st w) coll tok (d_price d) mb /\
    (exists er, run_tx p (execute p) w sender [lp] (SetAsk coll tok d) = Err er) /\
    (exists er, run_tx p (execute p) w sender [lp] (SellNft coll tok d) = Err er).
Proof. exact poison_bid. Qed.
Print Assumptions C29_poison_bid_refuted.
Theorem C29_dust_bid_refuted :
  exists p w sender coll tok d lp mb, reachable p w /\
    w_nft w coll tok = Some sender /\ can_transfer w coll tok (p_self p) = true /\ p_honest p coll = true /\
    (forall x, p_blocked p x = true -> x = "block") /\
    named_ok p d /\ priced (w_st w) coll (d_price d) /\
    s_fees (w_st w) !! c_denom lp = Some (c_amount lp) /\ c_amount lp <= w_bank w sender (c_denom lp) /\
    fits (w_st w) coll tok (d_price d) mb /\
    (exists er, run_tx p (execute p) w sender [lp] (SetAsk coll tok d) = Err er).
Proof. exact dust_bid. Qed.
Print Assumptions C29_dust_bid_refuted.
Theorem C29_seller_can_sell : forall p w sender m coll tok d lp mb margin,
  let st := w_st w in let cfg := s_config st in let v := view_of p w in
  reachable p w -> slash_free p -> p_valid p coll = true -> named_ok p d -> ~ not_yet_tradable v (env_of w) coll ->
  priced st coll (d_price d) -> sender <> p_self p -> coll <> p_self p -> p_honest p coll = true ->
  w_nft w coll tok = Some sender -> can_transfer w coll tok (p_self p) = true ->
  s_fees st !! c_denom lp = Some (c_amount lp) -> 0 < c_amount lp -> c_amount lp <= w_bank w sender (c_denom lp) ->
  (m = SetAsk coll tok d \/ m = SellNft coll tok d) -> fits st coll tok (d_price d) mb ->
  royalty_answers p v cfg coll ->
  p_blocked p (cf_fee_manager cfg) = false -> p_blocked p sender = false ->
  (forall mb, best_bid st coll tok (d_price d) mb -> c_amount (price_of mb) <= U128_MAX /\
     fees_leave_room p v cfg (Ask "" sender coll tok d) mb false margin /\
     forall to n, (to, n) ∈ sale_payments p v cfg (Ask "" sender coll tok d) mb false -> p_blocked p to = false) ->
  exists mb w', best_bid st coll tok (d_price d) mb /\
    run_tx p (execute p) w sender [lp] m = Ok w' /\ w_nft w' coll tok = Some (nft_to mb) /\ ~ resting (w_st w') mb.
Proof. exact sell_executes. Qed.
Print Assumptions C29_seller_can_sell.
Lemma best2 mb : best_bid st1 "coll1" "2" (us 700) mb -> mb = MCBid cbid1.
Proof.
  intros [(Hr&_&_) Hb].
  assert (fits st1 "coll1" "2" (us 700) (MCBid cbid1)) as Hf by by vm_compute.
  specialize (Hb _ Hf). destruct mb as [b|b]; cbn in Hr.
  - apply bids1 in Hr as [_ ->]. cbn in Hb. lia.
  - by apply cbids1 in Hr as [_ ->].
Qed.
Example C29_case : reachable p0 w1 /\ w_nft w1 "coll1" "2" = Some "alice" /\ can_transfer w1 "coll1" "2" "mrktp" = true /\
  fits st1 "coll1" "2" (us 700) (MCBid cbid1) /\
  (forall mb, best_bid st1 "coll1" "2" (us 700) mb -> c_amount (price_of mb) <= U128_MAX /\
     fees_leave_room p0 (view_of p0 w1) cfg0 (Ask "" "alice" "coll1" "2" (det 700)) mb false 100000000000000000 /\
     forall to n, (to, n) ∈ sale_payments p0 (view_of p0 w1) cfg0 (Ask "" "alice" "coll1" "2" (det 700)) mb false ->
       p_blocked p0 to = false).
Proof.
  split; [exact w1_reachable|]. split; [by vm_compute|]. split; [by vm_compute|]. split; [by vm_compute|].
  intros mb ->%best2. split; [by vm_compute|]. split; [by vm_compute|]. intros to n.
  assert (sale_payments p0 (view_of p0 w1) cfg0 (Ask "" "alice" "coll1" "2" (det 700)) (MCBid cbid1) false
    = [("feemg", 18); ("royal", 45); ("alice", 837)]) as -> by by vm_compute.
  rewrite !elem_of_cons, elem_of_nil. intros [[= -> _]|[[= -> _]|[[= -> _]|[]]]]; done.
Qed.

(** * C30 *)
Theorem C30_bid_leaves : forall p n v e sender funds st m st' msgs i b,
  collision_free p -> prefix_free p -> slash_free p -> N.of_nat n < U64_MAX -> v2_history p n st ->
  execute p v e sender funds st m = Ok (st', msgs) ->
  s_bids st !! i = Some b -> s_bids st' !! i = None ->
  (m = RemoveBid i /\ sender = b_creator b /\ msgs = [MSend (b_creator b) [d_price (b_det b)]]) \/
  exists a d f, (d = b_det b \/ sender = b_creator b /\ m = UpdateBid i d) /\
    let b' := Bid (b_id b) (b_creator b) (b_coll b) (b_tok b) d in
    settles p v (s_config st) sender funds m msgs a (MBid b') f /\ a_coll a = b_coll b /\ a_tok a = b_tok b.
Proof. exact bid_leaves. Qed.
Print Assumptions C30_bid_leaves.
Theorem C30_collection_bid_leaves : forall p n v e sender funds st m st' msgs i b,
  collision_free p -> prefix_free p -> slash_free p -> N.of_nat n < U64_MAX -> v2_history p n st ->
  execute p v e sender funds st m = Ok (st', msgs) ->
  s_cbids st !! i = Some b -> s_cbids st' !! i = None ->
  (m = RemoveCollectionBid i /\ sender = cb_creator b /\ msgs = [MSend (cb_creator b) [d_price (cb_det b)]]) \/
  exists a d f, (d = cb_det b \/ sender = cb_creator b /\ m = UpdateCollectionBid i d) /\
    let b' := CBid (cb_id b) (cb_creator b) (cb_coll b) d in
    settles p v (s_config st) sender funds m msgs a (MCBid b') f /\ a_coll a = cb_coll b.
Proof. exact cbid_leaves. Qed.
Print Assumptions C30_collection_bid_leaves.
Theorem C30_ask_leaves : forall p n v e sender funds st m st' msgs i a,
  v2_history p n st -> collision_free p -> prefix_free p -> slash_free p ->
  execute p v e sender funds st m = Ok (st', msgs) ->
  s_asks st !! i = Some a -> s_asks st' !! i = None ->
  (m = RemoveAsk i /\ sender = a_creator a /\ msgs = [MNft (a_coll a) (a_tok a) (proceeds_to a)]) \/
  exists a' mb f, a_coll a' = a_coll a /\ a_tok a' = a_tok a /\
    settles p v (s_config st) sender funds m msgs a' mb f.
Proof. exact (fun p n v e s f st m st' ms i a H => ask_leaves p v e s f st m st' ms i a (history_wf p n st H)). Qed.
Print Assumptions C30_ask_leaves.
(** A response that settles a sale delivers the NFT and pays the seller whatever the dues leave. *)
Theorem C30_seller_paid : forall p v cfg sender funds m msgs a mb f,
  settles p v cfg sender funds m msgs a mb f ->
  let rest := c_amount (trade_price a mb f) - total_dues (sale_dues p v cfg a mb f) in
  MNft (a_coll a) (a_tok a) (nft_to mb) ∈ msgs /\
  (0 < rest -> MSend (proceeds_to a) [Coin (c_denom (trade_price a mb f)) rest] ∈ msgs).
Proof. exact delivery_payment. Qed.
Print Assumptions C30_seller_paid.
Example C30_case : s_cbids st1 !! cbid_id = Some cbid1 /\ s_cbids (state_of sold2) !! cbid_id = None /\
  s_asks st1 !! ask1_id = Some ask1 /\ s_asks (state_of bought1) !! ask1_id = None.
Proof. by vm_compute. Qed.

(** * C31 *)
Theorem C31_identity_kept : forall p n v e sender funds st m st' msgs,
  v2_history p n st -> execute p v e sender funds st m = Ok (st', msgs) ->
  (forall i a a', s_asks st !! i = Some a -> s_asks st' !! i = Some a' ->
     a' = Ask (a_id a) (a_creator a) (a_coll a) (a_tok a) (a_det a')) /\
  (forall i b b', s_bids st !! i = Some b -> s_bids st' !! i = Some b' ->
     b' = Bid (b_id b) (b_creator b) (b_coll b) (b_tok b) (b_det b')) /\
  (forall i b b', s_cbids st !! i = Some b -> s_cbids st' !! i = Some b' ->
     b' = CBid (cb_id b) (cb_creator b) (cb_coll b) (cb_det b')).
Proof. exact (fun p n v e s f st m st' ms H => identity_kept p v e s f st m st' ms (history_wf p n st H)). Qed.
Print Assumptions C31_identity_kept.
Example C31_case : v2_history p0 4 st1 /\
  (s_asks (state_of (call1 "alice" [] (UpdateAsk ask1_id (det 1200)))) !! ask1_id
     = Some (Ask ask1_id "alice" "coll1" "1" (det 1200))).
Proof. split; [exact st1_history|]. by vm_compute. Qed.

(** * C32: false when the NFT is listed; true when it is not. *)
Theorem C32_recipient_ignored_refuted :
  exists p w sender m id tok d st' msgs r f, reachable p w /\ m = AcceptCollectionBid id tok d /\
    d_recipient d = Some r /\ d_finder d = Some f /\
    execute p (view_of p w) (env_of w) sender [] (w_st w) m = Ok (st', msgs) /\
    (exists n, 0 < n /\ MSend sender [Coin "ustars" n] ∈ msgs) /\
    (forall cs, MSend r cs ∉ msgs) /\ (forall cs, MSend f cs ∉ msgs).
Proof. exact recipient_ignored. Qed.
Print Assumptions C32_recipient_ignored_refuted.
Theorem C32_accept_bid_details : forall p n v e sender funds st st' msgs id d b,
  v2_history p n st -> collision_free p -> prefix_free p ->
  execute p v e sender funds st (AcceptBid id d) = Ok (st', msgs) ->
  s_bids st !! id = Some b -> unlisted st (b_coll b) (b_tok b) ->
  exists a, a_creator a = sender /\ a_coll a = b_coll b /\ a_tok a = b_tok b /\
    proceeds_to a = default sender (d_recipient d) /\ taker a (MBid b) false = d_finder d /\
    settles p v (s_config st) sender funds (AcceptBid id d) msgs a (MBid b) false.
Proof.
  exact (fun p n v e s f st st' ms id d b H => accept_bid_details p v e s f st st' ms id d b (history_wf p n st H)).
Qed.
Print Assumptions C32_accept_bid_details.
Theorem C32_accept_collection_bid_details : forall p n v e sender funds st st' msgs id tok d cb,
  v2_history p n st -> collision_free p -> prefix_free p ->
  execute p v e sender funds st (AcceptCollectionBid id tok d) = Ok (st', msgs) ->
  s_cbids st !! id = Some cb -> unlisted st (cb_coll cb) tok ->
  exists a, a_creator a = sender /\ a_coll a = cb_coll cb /\ a_tok a = tok /\
    proceeds_to a = default sender (d_recipient d) /\ taker a (MCBid cb) false = d_finder d /\
    settles p v (s_config st) sender funds (AcceptCollectionBid id tok d) msgs a (MCBid cb) false.
Proof.
  exact (fun p n v e s f st st' ms id t d b H => accept_cbid_details p v e s f st st' ms id t d b (history_wf p n st H)).
Qed.
Print Assumptions C32_accept_collection_bid_details.
Lemma unlisted2 : unlisted st1 "coll1" "2".
Proof.
  intros i a Hi [_ Ht].
  apply asks1 in Hi as [_ ->]. done.
Qed.
Example C32_case : unlisted st1 "coll1" "2" /\
  msgs_of (call1 "alice" [] (AcceptCollectionBid cbid_id "2" (Details (us 800) (Some "david") (Some "findb"))))
  = [MRegInit "regis" "coll1"; MSend "feemg" [us 13]; MSend "findb" [us 6]; MSend "royal" [us 45]; MSend "david" [us 836];
     MNft "coll1" "2" "carol"].
Proof. split; [exact unlisted2|]. by vm_compute. Qed.

(** * C33 *)
Theorem C33_only_owner_sells : forall p w sender funds m w' coll tok,
  reachable p w -> collision_free p -> prefix_free p -> texec p (execute p) sender funds m w w' ->
  owner_call (w_st w) m coll tok -> p_honest p coll = true ->
  (forall o, w_nft w coll tok = Some o -> o = sender) /\
  (royalty_known p (view_of p w) (s_config (w_st w)) coll ->
     w_nft w coll tok = Some sender /\ can_transfer w coll tok (p_self p) = true).
Proof. exact (fun p w s f m w' c t H => texec_owner p w s f m w' c t (reachable_wf p w H)). Qed.
Print Assumptions C33_only_owner_sells.
Theorem C33_owner_approved : forall p w sender funds m w' coll tok,
  reachable p w -> collision_free p -> prefix_free p -> run_tx p (execute p) w sender funds m = Ok w' ->
  owner_call (w_st w) m coll tok -> p_honest p coll = true ->
  w_nft w coll tok = Some sender /\ can_transfer w coll tok (p_self p) = true.
Proof. exact (fun p w s f m w' c t H => run_tx_owner p w s f m w' c t (reachable_wf p w H)). Qed.
Print Assumptions C33_owner_approved.
Example C33_case : reachable p0 w1 /\ is_ok (run_tx p0 (execute p0) w1 "alice" [us 5] sell2) = true /\
  owner_call (w_st w1) sell2 "coll1" "2" /\
  owner_call (w_st w1) (AcceptBid bid_id (det 800)) "coll1" "2" /\
  is_ok (run_tx p0 (execute p0) w1 "alice" [] (AcceptBid bid_id (det 800))) = true /\
  is_ok (run_tx p0 (execute p0) w1 "bobby" [] (AcceptBid bid_id (det 800))) = false.
Proof.
  split; [exact w1_reachable|]. split; [by vm_compute|]. split; [exact (OwnerSell (w_st w1) "coll1" "2" (det 700))|].
  split; [exact (OwnerAcceptBid (w_st w1) bid_id (det 800) bid1 (proj1 (proj2 st1_orders)) unlisted2)|]. by vm_compute.
Qed.

(** * C66: what the contract accepts, the chain executes, unless a recipient is barred or the NFT cannot be moved. *)
Theorem C66_accepted_executes : forall p w sender funds m st' msgs,
  reachable p w -> sender <> p_self p -> covers (w_bank w) sender funds = true ->
  execute p (view_of p (pay_in p w sender funds)) (env_of w) sender funds (w_st w) m = Ok (st', msgs) ->
  receivable p msgs -> movable p w msgs ->
  exists w', run_tx p (execute p) w sender funds m = Ok w' /\ w_st w' = st' /\
    (forall c t to, MNft c t to ∈ msgs -> p_honest p c = true -> w_nft w' c t = Some to).
Proof. exact accepted_executes. Qed.
Print Assumptions C66_accepted_executes.
Example C66_case : reachable p0 w1 /\ covers (w_bank w1) "alice" [us 5] = true /\
  receivable p0 (msgs_of sold2) /\ movable p0 w1 (msgs_of sold2).
Proof.
  split; [exact w1_reachable|]. split; [by vm_compute|].
  assert (msgs_of sold2 = [MSend "feemg" [us 5]; MRegInit "regis" "coll1"; MSend "feemg" [us 18]; MSend "royal" [us 45];
                   MSend "alice" [us 837]; MNft "coll1" "2" "carol"]) as -> by by vm_compute.
  split.
  - intros to cs. rewrite !elem_of_cons, elem_of_nil. naive_solver.
  - intros c t to. rewrite !elem_of_cons, elem_of_nil. intros H. assert (c = "coll1" /\ t = "2") as [-> ->] by naive_solver.
    split; [done|]. intros _. by vm_compute.
Qed.

(** * C67: a listed NFT can be bought at its price. *)
Theorem C67_listed_can_be_bought : forall p w sender id a r fd margin,
  let st := w_st w in let cfg := s_config st in let v := view_of p w in let price := d_price (a_det a) in
  let d := Details price r fd in let mb := MBid (Bid "" sender (a_coll a) (a_tok a) d) in
  reachable p w -> p_reg_reenters p = false -> s_asks st !! id = Some a -> named_ok p d ->
  sender <> p_self p -> a_coll a <> p_self p -> p_honest p (a_coll a) = true ->
  c_amount price <= w_bank w sender (c_denom price) -> c_amount price <= U128_MAX ->
  royalty_answers p v cfg (a_coll a) -> fees_leave_room p v cfg a mb true margin ->
  p_blocked p (cf_fee_manager cfg) = false -> p_blocked p sender = false ->
  (forall to n, (to, n) ∈ sale_payments p v cfg a mb true -> p_blocked p to = false) ->
  exists w', run_tx p (execute p) w sender [price] (AcceptAsk id d) = Ok w' /\
    w_nft w' (a_coll a) (a_tok a) = Some (nft_to mb) /\ s_asks (w_st w') !! id = None.
Proof. exact buy_executes. Qed.
Print Assumptions C67_listed_can_be_bought.
Example C67_case : reachable p0 w1 /\ s_asks st1 !! ask1_id = Some ask1 /\ 1000 <= w_bank w1 "david" "ustars" /\
  fees_leave_room p0 (view_of p0 w1) (s_config st1) ask1 (MBid (Bid "" "david" "coll1" "1" (det 1000))) true 100000000000000000.
Proof. split; [exact w1_reachable|]. by vm_compute. Qed.

(** * C96: an order rests exactly as stated in the message, and a call touches nothing else. *)
Theorem C96_rests_as_stated : forall p n v e sender funds st m st' msgs,
  v2_history p n st -> execute p v e sender funds st m = Ok (st', msgs) -> admin_call m = false ->
  (forall c t to, ~ sells st m st' msgs c t to) ->
  rests p sender funds st st' m msgs /\ s_config st' = s_config st /\ s_denoms st' = s_denoms st /\ s_fees st' = s_fees st.
Proof. exact rests_exactly. Qed.
Print Assumptions C96_rests_as_stated.
Theorem C96_sale_takes_two_orders : forall p n v e sender funds st m st' msgs c t to,
  v2_history p n st -> execute p v e sender funds st m = Ok (st', msgs) -> sells st m st' msgs c t to ->
  exists a mb f, trade sender st m a mb f /\ c = a_coll a /\ t = a_tok a /\ to = nft_to mb /\
    settles p v (s_config st) sender funds m msgs a mb f /\ takes_out st st' a mb /\
    s_config st' = s_config st /\ s_denoms st' = s_denoms st /\ s_fees st' = s_fees st.
Proof. exact sells_exactly. Qed.
Print Assumptions C96_sale_takes_two_orders.
(** Bobby raises their bid from 800 to 850, attaching 60, and takes the NFT themself. *)
Definition upd96 : msg := UpdateBid bid_id (Details (us 850) None (Some "finda")).
Example C96_case :
  v2_history p0 4 st1 /\ is_ok (call1 "bobby" [us 60] upd96) = true /\
  msgs_of (call1 "bobby" [us 60] upd96) = [MSend "bobby" [us 10]] /\
  s_bids (state_of (call1 "bobby" [us 60] upd96)) !! bid_id
    = Some (Bid bid_id "bobby" "coll1" "2" (Details (us 850) None (Some "finda"))) /\
  (forall c t to, ~ sells st1 upd96 (state_of (call1 "bobby" [us 60] upd96)) (msgs_of (call1 "bobby" [us 60] upd96)) c t to).
Proof.
  split; [exact st1_history|]. split; [by vm_compute|]. split; [by vm_compute|]. split; [by vm_compute|].
  intros c t to (H&_). assert (msgs_of (call1 "bobby" [us 60] upd96) = [MSend "bobby" [us 10]]) as E by by vm_compute.
  rewrite E in H. by apply elem_of_list_singleton in H.
Qed.
Example C96_sale_case :
  v2_history p0 4 st1 /\
  execute p0 (view_of p0 w1) (env_of w1) "alice" [us 5] st1 sell2 = Ok (state_of sold2, msgs_of sold2) /\
  sells st1 sell2 (state_of sold2) (msgs_of sold2) "coll1" "2" "carol".
Proof. split; [exact st1_history|]. split; [exact sold2_ok|exact sold2_sells]. Qed.

(** * C97: administrative calls do exactly what they say, if and only if the contract's admin makes them. *)
Theorem C97_admin_exact : forall p v e sender funds st m st' msgs,
  admin_call m = true ->
  execute p v e sender funds st m = Ok (st', msgs) <->
  q_admin v = Some (Some sender) /\ configures p st m st' /\ msgs = [].
Proof. exact admin_exact. Qed.
Print Assumptions C97_admin_exact.
Theorem C97_instantiate_exact : forall p c st,
  instantiate p c = Ok st <-> config_ok p c /\ st = State c ∅ ∅ 0 ∅ ∅ ∅.
Proof. exact instantiate_exact. Qed.
Print Assumptions C97_instantiate_exact.
Example C97_case :
  q_admin (view_of p0 w1) = Some (Some "admin") /\ config_ok p0 cfg0 /\
  configures p0 st1 (UpdateConfig cfg0)
    (State cfg0 (s_denoms st1) (s_fees st1) (s_nonce st1) (s_asks st1) (s_bids st1) (s_cbids st1)) /\
  is_ok (execute p0 (view_of p0 w1) (env_of w1) "admin" [] st1
           (UpdateConfig (Config "feemg" "regis" 200 1000 5000 5000 "ustars"))) = false.
Proof.
  split; [by vm_compute|]. split; [by vm_compute|]. split; [|by vm_compute]. apply ConfUpdate. by vm_compute.
Qed.

(** * C98: only positive prices in the collection's denom enter the book or a sale. *)
Theorem C98_entry_price : forall p v e sender funds st m st' msgs coll price,
  execute p v e sender funds st m = Ok (st', msgs) ->
  (exists tok, ask_call st m coll tok price) \/ (exists tok, bid_call st m coll tok price) -> priced st coll price.
Proof. exact entry_price. Qed.
Print Assumptions C98_entry_price.
Example C98_case :
  execute p0 (view_of p0 w1) (env_of w1) "alice" [us 5] st1 sell2 = Ok (state_of sold2, msgs_of sold2) /\
  (exists tok, ask_call st1 sell2 "coll1" tok (us 700)) /\
  is_ok (execute p0 (view_of p0 w1) (env_of w1) "carol" [Coin "uatom" 50] st1
           (SetBid "coll1" "9" (Details (Coin "uatom" 50) None None))) = false.
Proof. split; [exact sold2_ok|]. split; [exists "2"; constructor|by vm_compute]. Qed.

(** * C99: every address the contract holds on to passed validation. *)
Theorem C99_addresses_valid : forall p n st, v2_history p n st ->
  p_valid p (cf_fee_manager (s_config st)) = true /\ p_valid p (cf_registry (s_config st)) = true /\
  (forall i a, s_asks st !! i = Some a -> p_valid p (a_coll a) = true /\ named_ok p (a_det a)) /\
  (forall i b, s_bids st !! i = Some b -> p_valid p (b_coll b) = true /\ named_ok p (b_det b)) /\
  (forall i b, s_cbids st !! i = Some b -> p_valid p (cb_coll b) = true /\ named_ok p (cb_det b)).
Proof. exact addresses_valid. Qed.
Print Assumptions C99_addresses_valid.
Example C99_case : v2_history p0 4 st1 /\ s_bids st1 !! bid_id = Some bid1 /\ d_recipient (b_det bid1) = Some "carol" /\
  is_ok (call1 "bobby" [us 60] (UpdateBid bid_id (Details (us 850) (Some "no/slash") None))) = false.
Proof. split; [exact st1_history|]. by vm_compute. Qed.

(** * C100: the royalty registry is told about a collection exactly when a sale finds it unregistered. *)
Theorem C100_registry_told : forall p v e sender funds st m st' msgs c t to,
  execute p v e sender funds st m = Ok (st', msgs) -> sells st m st' msgs c t to ->
  forall r c', MRegInit r c' ∈ msgs <->
    r = cf_registry (s_config st) /\ c' = c /\ royalty_unregistered p v (s_config st) c'.
Proof. exact registry_told. Qed.
Print Assumptions C100_registry_told.
Theorem C100_only_in_sales : forall p v e sender funds st m st' msgs r c,
  execute p v e sender funds st m = Ok (st', msgs) -> MRegInit r c ∈ msgs -> exists t to, sells st m st' msgs c t to.
Proof. exact registry_told_in_sales. Qed.
Print Assumptions C100_only_in_sales.
Example C100_case :
  execute p0 (view_of p0 w1) (env_of w1) "alice" [us 5] st1 sell2 = Ok (state_of sold2, msgs_of sold2) /\
  sells st1 sell2 (state_of sold2) (msgs_of sold2) "coll1" "2" "carol" /\ MRegInit "regis" "coll1" ∈ msgs_of sold2.
Proof.
  split; [exact sold2_ok|]. split; [exact sold2_sells|].
  apply (registry_told p0 _ _ _ _ _ _ _ _ _ _ _ sold2_ok sold2_sells). split_and!; [by vm_compute|done|].
  split; [by vm_compute|]. exists (CollectionInfo None (Some ("royal", 50000000000000000))), ("royal", 50000000000000000).
  by vm_compute.
Qed.
