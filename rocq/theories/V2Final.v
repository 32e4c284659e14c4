(** The v2 results restated over reachable worlds and storage histories, in the form used by V2Properties.v. *)
From stdpp Require Import relations.
From Verif Require Import Base BaseFacts Common Chain ChainFacts V2Model V2Spec V2Facts V2Inv V2Sale V2Trade V2Reach V2Book
  V2Auth V2Calls QuerySpec IndexRange IndexWalk V2Query V2Live.

Section Final.
Context (p : params).

Lemma custody_ask w i a :
  p_reg_reenters p = false -> reachable p w -> s_asks (w_st w) !! i = Some a -> p_honest p (a_coll a) = true ->
  w_nft w (a_coll a) (a_tok a) = Some (p_self p).
Proof.
  intros Hr Hw Hi Hh. destruct (reachable_custody p w Hr Hw) as (_&_&H&_). apply H; [done|]. by exists i, a.
Qed.
Lemma one_ask_per_nft w i j a b :
  reachable p w -> s_asks (w_st w) !! i = Some a -> s_asks (w_st w) !! j = Some b ->
  a_coll a = a_coll b -> a_tok a = a_tok b -> i = j.
Proof.
  intros Hw Hi Hj E1 E2. pose proof (reachable_wf p w Hw) as Hwf.
  destruct (wf_ask _ _ Hwf _ _ Hi) as (_&->&_). destruct (wf_ask _ _ Hwf _ _ Hj) as (_&->&_). by rewrite E1, E2.
Qed.

(** Every due of a sale that is not zero is paid, in the sale's denom. *)
Lemma settles_pays v cfg sender funds m msgs a mb f x :
  settles p v cfg sender funds m msgs a mb f -> x ∈ sale_dues p v cfg a mb f -> 0 < snd x ->
  MSend (fst x) [Coin (c_denom (trade_price a mb f)) (snd x)] ∈ msgs.
Proof.
  intros (pre&post&->&_) Hx H0. apply elem_of_app. right. apply elem_of_app. left. apply elem_of_list_fmap.
  exists x. split; [done|]. apply elem_of_list_In, filter_In. split; [|by apply N.ltb_lt].
  apply in_or_app. left. by apply elem_of_list_In.
Qed.
Lemma split_exact n v e sender funds st m st' msgs c t to :
  v2_history p n st -> execute p v e sender funds st m = Ok (st', msgs) -> sells st m st' msgs c t to ->
  exists a mb f pre post (pays : list (addr * N)),
    trade sender st m a mb f /\ c = a_coll a /\ t = a_tok a /\ to = nft_to mb /\
    msgs = pre ++ (send_one (c_denom (trade_price a mb f)) <$> pays) ++ MNft c t to :: post /\
    Forall (fun x => 0 < snd x) pays /\ total_dues pays = c_amount (trade_price a mb f) /\
    forwards (s_config st) funds m c pre /\ change_to sender post.
Proof.
  intros Hn He Hs. destruct (sells_settles p _ _ _ _ _ _ _ _ _ _ _ (history_wf p n st Hn) He Hs)
    as (a&mb&f&Ht&(pre&post&Hm&Hf&Hc&_&Hd)&->&->&->).
  exists a, mb, f, pre, post, (sale_payments p v (s_config st) a mb f). repeat split; try done.
  - apply sale_payments_pos.
  - by apply sale_payments_total.
Qed.
Lemma fees_formula n v e sender funds st m st' msgs c t to :
  v2_history p n st -> execute p v e sender funds st m = Ok (st', msgs) -> sells st m st' msgs c t to ->
  exists a mb f, trade sender st m a mb f /\ c = a_coll a /\ t = a_tok a /\ to = nft_to mb /\
    settles p v (s_config st) sender funds m msgs a mb f /\
    let cfg := s_config st in let price := c_amount (trade_price a mb f) in let dn := c_denom (trade_price a mb f) in
    let mk := maker a mb f in let tk := taker a mb f in
    let pay (x : addr) (n : N) := 0 < n -> MSend x [Coin dn n] ∈ msgs in
    pay (cf_fee_manager cfg)
        (ceil_div (price * cf_protocol_bps cfg * (10000 - if_some mk (cf_maker_bps cfg) - if_some tk (cf_taker_bps cfg))) (10 ^ 8)) /\
    (forall x, mk = Some x -> pay x (ceil_div (price * cf_protocol_bps cfg * cf_maker_bps cfg) (10 ^ 8))) /\
    (forall x, tk = Some x -> pay x (ceil_div (price * cf_protocol_bps cfg * cf_taker_bps cfg) (10 ^ 8))).
Proof.
  intros Hn He Hs. destruct (sells_settles p _ _ _ _ _ _ _ _ _ _ _ (history_wf p n st Hn) He Hs)
    as (a&mb&f&Ht&Hset&->&->&->).
  exists a, mb, f. do 5 (split; [done|]). cbv zeta. split; [|split].
  - intros H0. eapply (settles_pays _ _ _ _ _ _ _ _ _ (_, _)) in Hset; [exact Hset| |exact H0].
    unfold sale_dues. set_solver.
  - intros x Hx H0. eapply (settles_pays _ _ _ _ _ _ _ _ _ (_, _)) in Hset; [exact Hset| |exact H0].
    unfold sale_dues, reward_part. rewrite Hx. cbn. set_solver.
  - intros x Hx H0. eapply (settles_pays _ _ _ _ _ _ _ _ _ (_, _)) in Hset; [exact Hset| |exact H0].
    unfold sale_dues, reward_part. rewrite Hx. cbn. set_solver.
Qed.
Lemma royalty_formula n v e sender funds st m st' msgs c t to :
  v2_history p n st -> execute p v e sender funds st m = Ok (st', msgs) -> sells st m st' msgs c t to ->
  exists a mb f, trade sender st m a mb f /\ c = a_coll a /\ t = a_tok a /\ to = nft_to mb /\
    settles p v (s_config st) sender funds m msgs a mb f /\
    let cfg := s_config st in let price := c_amount (trade_price a mb f) in let dn := c_denom (trade_price a mb f) in
    forall r share, royalty_due p v cfg c = Some (r, share) ->
      let n := ceil_div (price * N.min share (cf_max_royalty_bps cfg * 10 ^ 14)) (10 ^ 18) in
      (0 < n -> MSend r [Coin dn n] ∈ msgs) /\ n <= ceil_div (price * cf_max_royalty_bps cfg) 10000.
Proof.
  intros Hn He Hs. destruct (sells_settles p _ _ _ _ _ _ _ _ _ _ _ (history_wf p n st Hn) He Hs)
    as (a&mb&f&Ht&Hset&->&->&->).
  exists a, mb, f. do 5 (split; [done|]). cbv zeta. intros r share Hr. split.
  - intros H0. eapply (settles_pays _ _ _ _ _ _ _ _ _ (_, _)) in Hset; [exact Hset| |exact H0].
    unfold sale_dues. rewrite Hr. unfold royalty_part. set_solver.
  - apply (royalty_part_le (s_config st) _ share).
Qed.

Lemma ask_changes_world w sender funds m st' msgs i a :
  collision_free p -> prefix_free p -> p_reg_reenters p = false -> reachable p w -> sender <> p_self p ->
  p_honest p (a_coll a) = true ->
  execute p (view_of p (pay_in p w sender funds)) (env_of w) sender funds (w_st w) m = Ok (st', msgs) ->
  s_asks (w_st w) !! i = Some a -> s_asks st' !! i <> Some a -> sender <> a_creator a ->
  s_asks st' !! i = None /\
  exists mb, trade sender (w_st w) m a mb true /\
    settles p (view_of p (pay_in p w sender funds)) (s_config (w_st w)) sender funds m msgs a mb true.
Proof.
  intros Hcf Hpf Hr Hw Hs Hh He Hi Hn Hne.
  eapply ask_changes; try done; [by apply reachable_wf|].
  cbn. rewrite Hh. by apply (custody_ask w i a).
Qed.

Lemma config_bounds n st : v2_history p n st ->
  cf_protocol_bps (s_config st) < 10000 /\ cf_maker_bps (s_config st) + cf_taker_bps (s_config st) < 10000.
Proof.
  intros Hn. exact (config_check_Ok _ (wf_config _ _ (history_wf p n st Hn))).
Qed.
Lemma positive_prices n st : v2_history p n st ->
  (forall i a, s_asks st !! i = Some a -> 0 < c_amount (d_price (a_det a))) /\
  (forall i b, s_bids st !! i = Some b -> 0 < c_amount (d_price (b_det b))) /\
  (forall i b, s_cbids st !! i = Some b -> 0 < c_amount (d_price (cb_det b))).
Proof.
  intros Hn. pose proof (history_wf p n st Hn) as Hwf. split; [|split]; intros i x Hi.
  - by apply (wf_ask _ _ Hwf) in Hi as (_&_&?&_).
  - by apply (wf_bid _ _ Hwf) in Hi as (_&?&_).
  - by apply (wf_cbid _ _ Hwf) in Hi as (_&?&_).
Qed.
Lemma resting_ids_distinct n st i j a b :
  v2_history p n st -> s_asks st !! i = Some a -> s_asks st !! j = Some b ->
  collision_free p -> prefix_free p -> (i = j <-> a_coll a = a_coll b /\ a_tok a = a_tok b).
Proof.
  intros Hn Hi Hj Hc Hp. pose proof (history_wf p n st Hn) as Hwf.
  destruct (wf_ask _ _ Hwf _ _ Hi) as (_&Ei&_&Vi&_). destruct (wf_ask _ _ Hwf _ _ Hj) as (_&Ej&_&Vj&_).
  split.
  - intros E. apply (ask_id_inj p); try done. congruence.
  - intros [E1 E2]. rewrite Ei, Ej. by rewrite E1, E2.
Qed.

Lemma placing_leaves n st v e sender funds m st' msgs coll tok d id :
  collision_free p -> N.of_nat n < U64_MAX -> v2_history p n st ->
  m = SetBid coll tok d \/ m = BuySpecificNft coll tok d \/ m = SetCollectionBid coll d \/ m = BuyCollectionNft coll d \/
  m = AcceptAsk id d ->
  execute p v e sender funds st m = Ok (st', msgs) -> submap (s_bids st) (s_bids st') /\ submap (s_cbids st) (s_cbids st').
Proof.
  intros Hc Hn Hh Hm He. eapply (placing_keeps p n); try done.
  destruct Hm as [->|[->|[->|[->| ->]]]]; cbn; [left|left|right|right|left]; try by eexists.
  destruct (s_asks st !! id) eqn:E; [by eexists|]. exfalso. cbn in He.
  apply bind_Ok in He as (d'&_&He). unfold execute_accept_ask in He. apply bind_Ok in He as (fs&_&He).
  apply bind_Ok in He as (a&Ha&_). by rewrite E in Ha.
Qed.

Lemma no_coin_kept n st v e sender funds m st' msgs d :
  v2_history p n st -> no_coin_call m = true -> execute p v e sender funds st m = Ok (st', msgs) ->
  escrow st' d + paid_out msgs d = escrow st d.
Proof.
  intros Hn Hm H%execute_effect. rewrite !escrow_liab, paid_out_out.
  eapply effect_accounting in H as [_ H]; [|by eapply history_wf]. rewrite H.
  - unfold taken. rewrite <-no_coin_call_eq, Hm. lia.
  - split; intros i; destruct m; done.
Qed.
Lemma lookup_asks n st (ids : list string) : v2_history p n st ->
  a_id <$> query_asks st ids = filter (fun i => is_Some (s_asks st !! i)) ids /\
  (forall a, a ∈ query_asks st ids -> s_asks st !! a_id a = Some a).
Proof.
  intros H%history_wf. split; [by apply (query_asks_ids p st H)|]. intros a. by apply (query_asks_resting p st H).
Qed.
Lemma lookup_bids n st (ids : list string) : v2_history p n st ->
  b_id <$> query_bids st ids = filter (fun i => is_Some (s_bids st !! i)) ids /\
  (forall b, b ∈ query_bids st ids -> s_bids st !! b_id b = Some b).
Proof.
  intros H%history_wf. split; [by apply (query_bids_ids p st H)|]. intros a. by apply (query_bids_resting p st H).
Qed.
Lemma lookup_cbids n st (ids : list string) : v2_history p n st ->
  cb_id <$> query_collection_bids st ids = filter (fun i => is_Some (s_cbids st !! i)) ids /\
  (forall b, b ∈ query_collection_bids st ids -> s_cbids st !! cb_id b = Some b).
Proof.
  intros H%history_wf. split; [by apply (query_cbids_ids p st H)|]. intros a. by apply (query_cbids_resting p st H).
Qed.
Lemma delivery_payment v cfg sender funds m msgs a mb f :
  settles p v cfg sender funds m msgs a mb f ->
  let rest := c_amount (trade_price a mb f) - total_dues (sale_dues p v cfg a mb f) in
  MNft (a_coll a) (a_tok a) (nft_to mb) ∈ msgs /\
  (0 < rest -> MSend (proceeds_to a) [Coin (c_denom (trade_price a mb f)) rest] ∈ msgs).
Proof. intros H. split; [by eapply settles_delivers|]. by eapply settles_seller_paid. Qed.
End Final.
