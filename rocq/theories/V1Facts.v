(** Inversion of the handlers of marketplace v1: what a successful call does. *)
From stdpp Require Import relations pretty.
From Verif Require Import Base Common Chain BaseFacts ChainFacts IndexRange SaleFacts Plain V1Model V1Spec.

Local Opaque U128_MAX U64_MAX.

(** * Arithmetic *)
Lemma floor_floor a r : a * r / DEC_ONE / 100 = a * r / 10 ^ 20.
Proof. unfold DEC_ONE. rewrite N.div_div by lia. done. Qed.
Lemma percent_floor a b : a * dec_percent b / DEC_ONE / 100 = a * b / 10000.
Proof.
  rewrite floor_floor. unfold dec_percent.
  replace (a * (b * 10000000000000000)) with ((a * b) * 10000000000000000) by lia.
  change (10 ^ 20) with (10000 * 10000000000000000). by rewrite N.div_mul_cancel_r by lia.
Qed.
Lemma mul_floor_Ok a r n : mul_floor a r = Ok n -> n = a * r / DEC_ONE /\ n <= U128_MAX.
Proof. unfold mul_floor. cbv zeta. intros H. inv_ok. lia. Qed.
Lemma add128_Ok a b n : add128 a b = Ok n -> n = a + b.
Proof. unfold add128. intros H. inv_ok. done. Qed.
Lemma sub128_Ok a b n : sub128 a b = Ok n -> n = a - b /\ b <= a.
Proof. unfold sub128. intros H. inv_ok. lia. Qed.
Lemma plus_seconds_Ok t s n : t_plus_seconds t s = Ok n -> n = t + s * 1000000000.
Proof. unfold t_plus_seconds, NANOS. intros H. inv_ok. done. Qed.
(** The two complementary roundings lose at most one unit. *)
Lemma complement a s : s <= 10 ^ 18 ->
  let r := a * s / 10 ^ 18 in let q := a * (10 ^ 18 - s) / 10 ^ 18 in r + q = a \/ r + q + 1 = a.
Proof.
  intros Hs. cbv zeta. change (10 ^ 18) with 1000000000000000000 in *.
  pose proof (N.div_mod (a * s) 1000000000000000000 ltac:(lia)) as H1.
  pose proof (N.mod_lt (a * s) 1000000000000000000 ltac:(lia)) as H2.
  pose proof (N.div_mod (a * (1000000000000000000 - s)) 1000000000000000000 ltac:(lia)) as H3.
  pose proof (N.mod_lt (a * (1000000000000000000 - s)) 1000000000000000000 ltac:(lia)) as H4.
  assert (a * s + a * (1000000000000000000 - s) = a * 1000000000000000000) as H5 by nia.
  generalize dependent (a * s / 1000000000000000000). generalize dependent (a * s mod 1000000000000000000).
  generalize dependent (a * (1000000000000000000 - s) / 1000000000000000000).
  generalize dependent (a * (1000000000000000000 - s) mod 1000000000000000000).
  intros. lia.
Qed.

(** * Checks *)
Lemma addr_validate_Ok p s a : addr_validate p s = Ok a -> a = s /\ p_valid p s = true.
Proof. unfold addr_validate. intros H. inv_ok. done. Qed.
Lemma maybe_addr_Ok p s a : maybe_addr p s = Ok a -> a = s /\ (forall y, s = Some y -> p_valid p y = true).
Proof.
  destruct s as [s|]; cbn; intros H; [|by inv_ok].
  apply bind_Ok in H as (y&Hy&H). apply addr_validate_Ok in Hy as [-> Hv]. injection H as <-.
  split; [done|]. intros y [= <-]. done.
Qed.
Lemma nonpayable_Ok f u : nonpayable f = Ok u -> f = [].
Proof. by destruct f. Qed.
Lemma must_pay_Ok f d n : must_pay f d = Ok n -> f = [Coin d n] /\ 0 < n.
Proof.
  unfold must_pay, one_coin. intros H. apply bind_Ok in H as ([d' n']&H1&H2). inv_ok. cbn in *.
  apply bool_decide_eq_true in Heqb. subst. split; [done|]. lia.
Qed.
Lemma may_pay_Ok f d n : may_pay f d = Ok n -> (f = [] /\ n = 0) \/ f = [Coin d n].
Proof.
  unfold may_pay. intros H. destruct f as [|[d' n'] [|]]; inv_ok; [by left|right].
  apply bool_decide_eq_true in Heqb. by rewrite <-Heqb.
Qed.
Lemma only_owner_Ok v s coll tok u : only_owner v s coll tok = Ok u -> owns v s coll tok.
Proof.
  unfold only_owner, owns, tok_str. destruct (q_owner v coll (pretty tok)); [|done].
  intros H%ensure_Ok%bool_decide_eq_true. congruence.
Qed.
Lemma only_tradable_Ok v e coll u : only_tradable v e coll = Ok u -> tradable v e coll.
Proof.
  unfold only_tradable, tradable. intros H ci start E1 E2. rewrite E1, E2 in H. inv_ok. lia.
Qed.
Lemma expiry_Ok r e t u : expiry_is_valid r e t = Ok u -> in_window r (e_time e) t.
Proof.
  unfold expiry_is_valid, in_window. intros H. apply bind_Ok in H as (lo&Hlo&H). apply bind_Ok in H as (?&H1&H).
  apply bind_Ok in H as (hi&Hhi&H). apply ensure_Ok in H1, H. apply plus_seconds_Ok in Hlo, Hhi. lia.
Qed.
Lemma finders_Ok st bps u : finders_ok st bps = Ok u -> finder_allowed st bps.
Proof.
  unfold finders_ok, finder_allowed. intros H b ->. apply ensure_Ok in H. unfold dec_percent in H.
  change (10 ^ 16) with 10000000000000000. lia.
Qed.
Lemma only_operator_Ok st s u : only_operator st s = Ok u -> operator st s.
Proof.
  unfold only_operator, operator. intros H%ensure_Ok. apply existsb_exists in H as (o&Ho&H).
  apply bool_decide_eq_true in H as ->. by apply elem_of_list_In.
Qed.
Lemma load_Ok {A} (o : option A) a : load o = Ok a -> o = Some a.
Proof. destruct o; cbn; congruence. Qed.
Lemma live_Ok t e : negb (is_expired t e) = true -> live e t.
Proof. unfold is_expired, live. lia. Qed.
Lemma price_Ok st c u : price_validate st c = Ok u ->
  c_denom c = "ustars" /\ 0 < c_amount c /\ sp_min_price (s_params st) <= c_amount c.
Proof.
  unfold price_validate. intros H. apply bind_Ok in H as (?&H1&H2). apply ensure_Ok in H1, H2.
  apply andb_prop in H1 as [H1 H3]. apply bool_decide_eq_true in H3. unfold NATIVE_DENOM in H3. split_and!; [done|lia|lia].
Qed.
Lemma stale_Ok st e t u : stale_check st e t = Ok u -> stale st (e_time e) t.
Proof.
  unfold stale_check, stale. intros H. destruct (sp_stale (s_params st)) as [|secs]; [done|].
  apply bind_Ok in H as (n&Hn&H). apply ensure_Ok in H. apply plus_seconds_Ok in Hn. exists secs. split; [done|]. lia.
Qed.
Lemma reward_Ok st price n : removal_reward st price = Ok n -> n = price * sp_reward (s_params st) / 10 ^ 20.
Proof.
  unfold removal_reward. intros H. apply bind_Ok in H as (m&Hm&H). apply mul_floor_Ok in Hm as [-> _].
  injection H as <-. apply floor_floor.
Qed.

(** * Sales *)
Lemma payout_Ok x v st coll price to finder bps resp ms : payout x v st coll price to finder bps resp = Ok ms ->
  exists ci, q_info v coll = Some ci /\
  let sp := split_of (sp_trading_fee (s_params st)) price finder bps (ci_royalty ci) in
  ms = resp ++ map SPlain (split_msgs x sp finder to) /\ split_fits sp price.
Proof.
  unfold payout. intros H. apply bind_Ok in H as (n&Hn&H). apply mul_floor_Ok in Hn as [-> _]. cbv zeta in H.
  rewrite floor_floor in H. set (rate := sp_trading_fee (s_params st)) in *.
  destruct (q_info v coll) as [ci|] eqn:Eci; [|done]. exists ci. split; [done|]. cbv zeta.
  apply bind_Ok in H as ([fm cut]&Hf&H).
  assert (cut = finders_cut price finder bps /\
    fm = match finder with Some f => if cut =? 0 then [] else [SPlain (pay f cut)] | None => [] end) as [Hcut Hfm].
  { destruct finder as [f|]; [|by injection Hf as <- <-]. apply bind_Ok in Hf as (n&Hn&Hf). injection Hf as <- <-. unfold finders_cut.
    assert (n = match bps with Some b => price * b / 10000 | None => 0 end) as ->.
    { destruct bps as [b|]; [|by injection Hn]. apply bind_Ok in Hn as (k&Hk&Hn). injection Hn as <-.
      apply mul_floor_Ok in Hk as [-> _]. apply percent_floor. }
    split; [done|]. destruct (_ =? 0) eqn:E1, (0 <? _) eqn:E2; try done; lia. }
  clear Hf. set (fee := price * rate / 10 ^ 20) in *.
  assert (fair_burn x fee = map SPlain (if (fee =? 0) && x_zero_burn x then [] else [MFairBurn (native fee)])) as Hb.
  { unfold fair_burn. by destruct (_ && _). }
  assert (map SPlain (match finder with Some f => if cut =? 0 then [] else [pay f cut] | None => [] end) = fm) as Hfm'.
  { rewrite Hfm. destruct finder; [|done]. by destruct (cut =? 0). }
  unfold parse_royalties in H. unfold split_of. destruct (ci_royalty ci) as [[rto share]|].
  - destruct (share =? 0) eqn:Es.
    + apply bind_Ok in H as (s1&H1&H). apply bind_Ok in H as (?&H2&H). apply bind_Ok in H as (n2&H3&H).
      apply bind_Ok in H as (n3&H4&H). injection H as <-. apply add128_Ok in H1 as ->. apply ensure_Ok in H2.
      apply sub128_Ok in H3 as [-> ?]. apply sub128_Ok in H4 as [-> ?].
      rewrite <-Hcut. fold fee. cbn [x_fee x_finder x_royalty x_seller split_msgs]. split.
      * unfold split_msgs. cbn [x_fee x_finder x_royalty x_seller]. rewrite !map_app, Hb, Hfm'. by rewrite <-!app_assoc.
      * unfold split_fits. cbn. lia.
    + apply bind_Ok in H as (amount&Ha&H). apply mul_floor_Ok in Ha as [-> _].
      apply bind_Ok in H as (s1&H1&H). apply bind_Ok in H as (s2&H2&H). apply bind_Ok in H as (?&H3&H).
      apply bind_Ok in H as (rest&H4&H). apply bind_Ok in H as (n1&H5&H). apply bind_Ok in H as (n2&H6&H).
      apply bind_Ok in H as (n3&H7&H). injection H as <-. apply add128_Ok in H1 as ->. apply add128_Ok in H2 as ->.
      apply ensure_Ok in H3. apply sub128_Ok in H4 as [-> Hs]. apply mul_floor_Ok in H5 as [-> _].
      apply sub128_Ok in H6 as [-> ?]. apply sub128_Ok in H7 as [-> ?].
      rewrite <-Hcut. fold fee. split.
      * unfold split_msgs. cbn [x_fee x_finder x_royalty x_seller]. rewrite !map_app, Hb, Hfm'. by rewrite <-!app_assoc.
      * unfold split_fits. cbn [x_fee x_finder x_royalty x_seller]. change DEC_ONE with (10 ^ 18) in *.
        pose proof (complement price share Hs) as Hc. cbv zeta in Hc. lia.
  - apply bind_Ok in H as (s1&H1&H). apply bind_Ok in H as (?&H2&H). apply bind_Ok in H as (n2&H3&H).
    apply bind_Ok in H as (n3&H4&H). injection H as <-. apply add128_Ok in H1 as ->. apply ensure_Ok in H2.
    apply sub128_Ok in H3 as [-> ?]. apply sub128_Ok in H4 as [-> ?].
    rewrite <-Hcut. fold fee. split.
    + unfold split_msgs. cbn [x_fee x_finder x_royalty x_seller]. rewrite !map_app, Hb, Hfm'. by rewrite <-!app_assoc.
    + unfold split_fits. cbn. lia.
Qed.

(** The messages of a sale. *)
Definition sold_smsgs (x : ext) (sp : split) (finder : option addr) (seller_to : addr) (coll : addr) (tok : N) (buyer_to : addr) : list smsg :=
  map SPlain (split_msgs x sp finder seller_to ++ [MNft coll (pretty tok) buyer_to]).
Definition sale_hooks (st : state) (coll : addr) (tok price : N) (seller buyer : addr) : list smsg :=
  map (fun h => SHook h (HSale coll tok (native price) seller buyer)) (s_sale_hooks st).

Lemma finalize_sale_Ok x v st a price buyer finder to resp ms : finalize_sale x v st a price buyer finder to resp = Ok ms ->
  exists ci, q_info v (k_coll a) = Some ci /\
  let sp := split_of (sp_trading_fee (s_params st)) price finder (k_finders a) (ci_royalty ci) in
  split_fits sp price /\
  ms = resp ++ sold_smsgs x sp finder (default (k_seller a) (k_recipient a)) (k_coll a) (k_tok a) (default buyer to)
            ++ sale_hooks st (k_coll a) (k_tok a) (k_price a) (k_seller a) buyer.
Proof.
  unfold finalize_sale. intros H. apply bind_Ok in H as (ms'&H1&H2). apply payout_Ok in H1 as (ci&Hci&->&Hf).
  exists ci. split; [done|]. cbv zeta. split; [done|]. injection H2 as <-. unfold sold_smsgs. rewrite map_app, <-!app_assoc.
  cbn [map app]. unfold address_or, tok_str, default. repeat f_equal; by destruct (k_recipient a), to.
Qed.

(** * What a successful call does *)
Section Effect.
Context (p : params) (x : ext) (v : view) (e : env) (s : addr) (f : list coin) (st : state).

Definition ask_hooks (a : ask) (act : hook_action) : list smsg := map (fun h => SHook h (HAsk a act)) (s_ask_hooks st).
Definition bid_hooks (b : bid) (act : hook_action) : list smsg := map (fun h => SHook h (HBid b act)) (s_bid_hooks st).
Definition cbid_hooks (b : cbid) (act : hook_action) : list smsg := map (fun h => SHook h (HCBid b act)) (s_cbid_hooks st).
Definition plain_msgs (ms : list cmsg) : list smsg := map SPlain ms.

(** The checks every bidding call passes. *)
Record bid_checks (ba : bid_args) (price : N) : Prop := {
  bc_valid : p_valid p (ba_coll ba) = true;
  bc_finder : ba_finder ba <> Some s;
  bc_fee : finder_allowed st (ba_bps ba);
  bc_paid : f = [native price];
  bc_pos : 0 < price;
  bc_min : sp_min_price (s_params st) <= price;
  bc_window : in_window (sp_bid_expiry (s_params st)) (e_time e) (ba_expires ba);
}.
(** An ask that this sender may bid on. *)
Record open_ask (a : ask) : Prop := {
  oa_live : live e (k_expires a);
  oa_active : k_active a = true;
  oa_reserve : forall r, k_reserve a = Some r -> r = s;
}.

Inductive effect : msg -> state -> list smsg -> Prop :=
  | E_SetAsk ty coll tok price recipient reserve bps expires :
      let a := Ask ty coll tok s (c_amount price) recipient reserve bps expires true in
      let fee := sp_listing_fee (s_params st) in
      p_valid p coll = true ->
      c_denom price = "ustars" -> 0 < c_amount price -> sp_min_price (s_params st) <= c_amount price ->
      c_amount price <= 100000000000000 ->
      owns v s coll tok -> tradable v e coll -> q_approval v coll (pretty tok) (p_self p) = true ->
      in_window (sp_ask_expiry (s_params st)) (e_time e) expires ->
      (f = [] /\ fee = 0) \/ f = [native fee] ->
      finder_allowed st bps ->
      (forall r, reserve = Some r -> r <> s /\ ty = FixedPrice) ->
      effect (SetAsk ty coll tok price recipient reserve bps expires) (store_ask st a)
        (plain_msgs (if fee =? 0 then [] else [MFairBurn (native fee)]) ++ ask_hooks a HCreate)
  | E_RemoveAsk coll tok a :
      f = [] -> owns v s coll tok -> s_asks st !! (coll, tok) = Some a ->
      effect (RemoveAsk coll tok) (remove_ask st coll tok) (ask_hooks a HDelete)
  | E_UpdateAskPrice coll tok price a :
      let a' := Ask (k_type a) (k_coll a) (k_tok a) (k_seller a) (c_amount price) (k_recipient a) (k_reserve a)
                    (k_finders a) (k_expires a) (k_active a) in
      f = [] -> owns v s coll tok -> s_asks st !! (coll, tok) = Some a ->
      c_denom price = "ustars" -> 0 < c_amount price -> sp_min_price (s_params st) <= c_amount price ->
      k_active a = true -> live e (k_expires a) ->
      effect (UpdateAskPrice coll tok price) (set_asks st (<[(coll, tok) := a']> (s_asks st))) (ask_hooks a' HUpdate)
  | E_SaveBid m ba price :
      let b := Bid (ba_coll ba) (ba_tok ba) s price (ba_bps ba) (ba_expires ba) in
      bid_call m = Some ba -> bid_checks ba price ->
      match s_asks st !! (ba_coll ba, ba_tok ba) with
      | None => ba_now ba = false
      | Some a => open_ask a /\ match k_type a with FixedPrice => price < k_price a | Auction => k_price a <= price end
      end ->
      effect m (store_bid (remove_bid st (ba_coll ba) (ba_tok ba) s) b)
        (plain_msgs (refund_of st (ba_coll ba) (ba_tok ba) s) ++ bid_hooks b HCreate)
  | E_BuyAsk m ba price a ci :
      let sp := split_of (sp_trading_fee (s_params st)) price (ba_finder ba) (k_finders a) (ci_royalty ci) in
      bid_call m = Some ba -> bid_checks ba price ->
      s_asks st !! (ba_coll ba, ba_tok ba) = Some a -> open_ask a -> k_type a = FixedPrice -> k_price a = price ->
      owns v (k_seller a) (k_coll a) (k_tok a) -> q_info v (k_coll a) = Some ci -> split_fits sp price ->
      effect m (remove_ask (remove_bid st (ba_coll ba) (ba_tok ba) s) (ba_coll ba) (ba_tok ba))
        (plain_msgs (refund_of st (ba_coll ba) (ba_tok ba) s) ++
         sold_smsgs x sp (ba_finder ba) (default (k_seller a) (k_recipient a)) (k_coll a) (k_tok a) (default s (ba_to ba)) ++
         sale_hooks st (k_coll a) (k_tok a) price (k_seller a) s)
  | E_RemoveBid coll tok b :
      f = [] -> s_bids st !! (coll, tok, s) = Some b ->
      effect (RemoveBid coll tok) (remove_bid st coll tok s) (plain_msgs [pay (b_bidder b) (b_price b)] ++ bid_hooks b HDelete)
  | E_AcceptBid coll tok bidder finder b ci :
      let sp := split_of (sp_trading_fee (s_params st)) (b_price b) finder (b_finders b) (ci_royalty ci) in
      f = [] -> owns v s coll tok -> tradable v e coll -> s_bids st !! (coll, tok, bidder) = Some b ->
      live e (b_expires b) -> q_info v coll = Some ci -> split_fits sp (b_price b) ->
      effect (AcceptBid coll tok bidder finder) (remove_bid (remove_ask st coll tok) coll tok bidder)
        (sold_smsgs x sp finder s coll tok bidder ++ sale_hooks st coll tok (b_price b) s bidder)
  | E_RejectBid coll tok bidder b :
      f = [] -> owns v s coll tok -> s_bids st !! (coll, tok, bidder) = Some b ->
      effect (RejectBid coll tok bidder) (remove_bid st coll tok bidder)
        (plain_msgs [pay bidder (b_price b)] ++ bid_hooks b HDelete)
  | E_SetCollectionBid coll expires bps price :
      let b := CBid coll s price bps expires in
      p_valid p coll = true ->
      f = [native price] -> 0 < price -> sp_min_price (s_params st) <= price ->
      in_window (sp_bid_expiry (s_params st)) (e_time e) expires -> finder_allowed st bps ->
      effect (SetCollectionBid coll expires bps) (store_cbid (remove_cbid st coll s) b)
        (plain_msgs (match s_cbids st !! (coll, s) with Some o => [pay (cb_bidder o) (cb_price o)] | None => [] end)
         ++ cbid_hooks b HCreate)
  | E_RemoveCollectionBid coll b :
      f = [] -> s_cbids st !! (coll, s) = Some b ->
      effect (RemoveCollectionBid coll) (remove_cbid st coll s)
        (plain_msgs [pay (cb_bidder b) (cb_price b)] ++ cbid_hooks b HDelete)
  | E_AcceptCollectionBid coll tok bidder finder b ci :
      let sp := split_of (sp_trading_fee (s_params st)) (cb_price b) finder (cb_finders b) (ci_royalty ci) in
      f = [] -> owns v s coll tok -> tradable v e coll -> s_cbids st !! (coll, bidder) = Some b ->
      live e (cb_expires b) -> q_info v coll = Some ci -> split_fits sp (cb_price b) ->
      effect (AcceptCollectionBid coll tok bidder finder) (remove_ask (remove_cbid st coll bidder) coll tok)
        (sold_smsgs x sp finder s coll tok bidder ++ sale_hooks st coll tok (cb_price b) s bidder)
  | E_SyncAsk coll tok a (ok : bool) :
      let a' := Ask (k_type a) (k_coll a) (k_tok a) (k_seller a) (k_price a) (k_recipient a) (k_reserve a)
                    (k_finders a) (k_expires a) ok in
      f = [] -> operator st s -> s_asks st !! (coll, tok) = Some a ->
      ok = q_approval v coll (pretty tok) (p_self p) -> k_active a = negb ok ->
      effect (SyncAsk coll tok) (set_asks st (<[(coll, tok) := a']> (s_asks st))) (ask_hooks a' HUpdate)
  | E_RemoveStaleAsk coll tok a :
      f = [] -> operator st s -> s_asks st !! (coll, tok) = Some a ->
      (q_owner v coll (pretty tok) = None \/ q_approval v coll (pretty tok) (p_self p) = false \/ ~ live e (k_expires a)) ->
      effect (RemoveStaleAsk coll tok) (remove_ask st coll tok) (ask_hooks a HDelete)
  | E_RemoveStaleBid coll tok bidder b :
      let reward := b_price b * sp_reward (s_params st) / 10 ^ 20 in
      f = [] -> operator st s -> s_bids st !! (coll, tok, bidder) = Some b -> stale st (e_time e) (b_expires b) ->
      reward <= b_price b ->
      effect (RemoveStaleBid coll tok bidder) (remove_bid st coll tok bidder)
        (plain_msgs [pay (b_bidder b) (b_price b - reward); pay s reward] ++ bid_hooks b HDelete)
  | E_RemoveStaleCollectionBid coll bidder b :
      let reward := cb_price b * sp_reward (s_params st) / 10 ^ 20 in
      f = [] -> operator st s -> s_cbids st !! (coll, bidder) = Some b -> stale st (e_time e) (cb_expires b) ->
      reward <= cb_price b ->
      effect (RemoveStaleCollectionBid coll bidder) (remove_cbid st coll bidder)
        (plain_msgs [pay (cb_bidder b) (cb_price b - reward); pay s reward] ++ cbid_hooks b HDelete).

Lemma remove_bid_none coll tok who : s_bids st !! (coll, tok, who) = None -> remove_bid st coll tok who = st.
Proof. intros H. unfold remove_bid, set_bids. rewrite delete_notin by done. by destruct st. Qed.
Lemma remove_cbid_none coll who : s_cbids st !! (coll, who) = None -> remove_cbid st coll who = st.
Proof. intros H. unfold remove_cbid, set_cbids. rewrite delete_notin by done. by destruct st. Qed.
Lemma remove_ask_none coll tok : s_asks st !! (coll, tok) = None -> remove_ask st coll tok = st.
Proof. intros H. unfold remove_ask, set_asks. rewrite delete_notin by done. by destruct st. Qed.

Lemma set_ask_effect ty coll tok price recipient reserve bps expires st' ms : p_valid p coll = true ->
  execute_set_ask p x v e s f st ty coll tok price recipient reserve bps expires = Ok (st', ms) ->
  effect (SetAsk ty coll tok price recipient reserve bps expires) st' ms.
Proof.
  intros Hv. unfold execute_set_ask. intros H.
  apply bind_Ok in H as (?&H1&H). apply bind_Ok in H as (?&H2&H). apply bind_Ok in H as (?&H3&H).
  apply bind_Ok in H as (?&H4&H). apply bind_Ok in H as (?&H5&H). apply bind_Ok in H as (?&H6&H).
  apply bind_Ok in H as (fee&H7&H). apply bind_Ok in H as (?&H8&H). apply bind_Ok in H as (?&H9&H).
  apply bind_Ok in H as (?&H10&H). injection H as <- <-.
  apply price_Ok in H1 as (?&?&?). apply ensure_Ok in H2. apply only_owner_Ok in H3. apply only_tradable_Ok in H4.
  apply ensure_Ok in H5. apply expiry_Ok in H6. apply may_pay_Ok in H7. apply ensure_Ok in H8. apply finders_Ok in H9.
  apply N.eqb_eq in H8. subst fee. unfold MAX_FIXED_PRICE_ASK_AMOUNT in H2.
  replace (if 0 <? sp_listing_fee (s_params st) then fair_burn x (sp_listing_fee (s_params st)) else [])
    with (plain_msgs (if sp_listing_fee (s_params st) =? 0 then [] else [MFairBurn (native (sp_listing_fee (s_params st)))])).
  - apply E_SetAsk; try done; [lia|]. intros r ->. apply bind_Ok in H10 as (?&Ha&Hb).
    apply ensure_Ok, bool_decide_eq_true in Ha. by apply ensure_Ok, bool_decide_eq_true in Hb.
  - unfold fair_burn. destruct (sp_listing_fee (s_params st) =? 0) eqn:E.
    + by replace (0 <? _) with false by lia.
    + replace (0 <? _) with true by lia. by cbn.
Qed.

Lemma set_bid_effect m ba to st' ms :
  bid_call m = Some ba -> ba_to ba = to -> p_valid p (ba_coll ba) = true ->
  execute_set_bid x v e s f st (ba_coll ba) (ba_tok ba) (ba_bps ba) (ba_expires ba) (ba_finder ba) to (ba_now ba) = Ok (st', ms) ->
  effect m st' ms.
Proof.
  intros Hm Hto Hv. destruct ba as [coll tok expires finder bps to' now] eqn:Eba. cbn in *. subst to'.
  unfold execute_set_bid. intros H.
  apply bind_Ok in H as (?&H1&H). apply bind_Ok in H as (?&H2&H). apply bind_Ok in H as (price&H3&H).
  apply bind_Ok in H as (?&H4&H). apply bind_Ok in H as (?&H5&H). apply bind_Ok in H as (?&_&H).
  apply ensure_Ok, bool_decide_eq_true in H1. apply finders_Ok in H2. apply must_pay_Ok in H3 as [H3 Hpos].
  apply ensure_Ok in H4. apply expiry_Ok in H5.
  assert (bid_checks ba price) as Hc by (subst ba; constructor; cbn; try done; lia).
  assert (exists res, match s_bids st !! (coll, tok, s) with
      | Some old => (remove_bid st coll tok s, [send s (b_price old)]) | None => (st, []) end
      = (remove_bid st coll tok s, res) /\ res = plain_msgs (refund_of st coll tok s)) as (res&Eres&Hres).
  { unfold refund_of. destruct (s_bids st !! (coll, tok, s)) eqn:E; eexists; split; try done.
    by rewrite remove_bid_none. }
  rewrite Eres in H. cbn beta iota zeta in H. clear Eres.
  change (s_asks (remove_bid st coll tok s)) with (s_asks st) in H.
  apply bind_Ok in H as (?&Ho&H).
  assert (forall b, b = Bid coll tok s price bps expires ->
    match s_asks st !! (coll, tok) with
      | None => now = false
      | Some a => open_ask a /\ match k_type a with FixedPrice => price < k_price a | Auction => k_price a <= price end
      end ->
    Ok (store_bid (remove_bid st coll tok s) b, res ++ prepare_bid_hook (remove_bid st coll tok s) b HCreate) = Ok (st', ms) ->
    effect m st' ms) as Hsave.
  { intros b -> Hask [= <- <-]. subst res. subst ba. exact (E_SaveBid m _ price Hm Hc Hask). }
  destruct (s_asks st !! (coll, tok)) as [a|] eqn:Ea.
  2: { eapply Hsave; [done| |exact H]. apply ensure_Ok in Ho. by destruct now. }
  assert (open_ask a) as Hopen.
  { apply bind_Ok in Ho as (?&Hx&Ho). apply bind_Ok in Ho as (?&Hy&Ho). apply ensure_Ok in Hy. apply ensure_Ok, live_Ok in Hx.
    split; [done|done|]. intros r Hr. rewrite Hr in Ho. by apply ensure_Ok, bool_decide_eq_true in Ho. }
  destruct (k_type a) eqn:Ety.
  - destruct (price ?= k_price a) eqn:Ecmp; [|eapply Hsave; [done|split; [done|]; by apply N.compare_lt_iff|exact H]|done].
    apply N.compare_eq_iff in Ecmp.
    destruct (q_owner v (k_coll a) (tok_str (k_tok a))) as [o|] eqn:Eo; [|done].
    apply bind_Ok in H as (?&Hs&H). apply ensure_Ok, bool_decide_eq_true in Hs. subst o.
    apply bind_Ok in H as (ms'&Hf&H). injection H as <- <-. apply finalize_sale_Ok in Hf as (ci&Hci&Hfit&->).
    subst res. rewrite <-Ecmp. subst ba.
    exact (E_BuyAsk m _ price a ci Hm Hc Ea Hopen Ety (eq_sym Ecmp) Eo Hci Hfit).
  - destruct (price ?= k_price a) eqn:Ecmp; [|done|].
    + eapply Hsave; [done|split; [done|]|exact H]. apply N.compare_eq_iff in Ecmp. lia.
    + eapply Hsave; [done|split; [done|]|exact H]. apply N.compare_gt_iff in Ecmp. lia.
Qed.

Lemma accept_bid_effect coll tok bidder finder st' ms :
  execute_accept_bid x v e s f st coll tok bidder finder = Ok (st', ms) -> effect (AcceptBid coll tok bidder finder) st' ms.
Proof.
  unfold execute_accept_bid. intros H.
  apply bind_Ok in H as (?&H1&H). apply bind_Ok in H as (?&H2&H). apply bind_Ok in H as (?&H3&H).
  apply bind_Ok in H as (b&H4&H). apply bind_Ok in H as (?&H5&H). apply nonpayable_Ok in H1. apply only_owner_Ok in H2.
  apply only_tradable_Ok in H3. apply load_Ok in H4. apply ensure_Ok, live_Ok in H5. cbv zeta in H.
  assert (match s_asks st !! (coll, tok) with Some _ => remove_ask st coll tok | None => st end = remove_ask st coll tok) as E.
  { destruct (s_asks st !! (coll, tok)) eqn:E; [done|]. by rewrite remove_ask_none. }
  rewrite E in H. apply bind_Ok in H as (ms'&Hf&H). injection H as <- <-. apply finalize_sale_Ok in Hf as (ci&Hci&Hfit&->).
  by apply (E_AcceptBid coll tok bidder finder b ci).
Qed.
Lemma accept_cbid_effect coll tok bidder finder st' ms :
  execute_accept_collection_bid x v e s f st coll tok bidder finder = Ok (st', ms) ->
  effect (AcceptCollectionBid coll tok bidder finder) st' ms.
Proof.
  unfold execute_accept_collection_bid. intros H.
  apply bind_Ok in H as (?&H1&H). apply bind_Ok in H as (?&H2&H). apply bind_Ok in H as (?&H3&H).
  apply bind_Ok in H as (b&H4&H). apply bind_Ok in H as (?&H5&H). apply nonpayable_Ok in H1. apply only_owner_Ok in H2.
  apply only_tradable_Ok in H3. apply load_Ok in H4. apply ensure_Ok, live_Ok in H5. cbv zeta in H.
  assert (match s_asks (remove_cbid st coll bidder) !! (coll, tok) with
      | Some _ => remove_ask (remove_cbid st coll bidder) coll tok | None => remove_cbid st coll bidder end
      = remove_ask (remove_cbid st coll bidder) coll tok) as E.
  { cbn [s_asks remove_cbid set_cbids]. destruct (s_asks st !! (coll, tok)) eqn:E; [done|].
    unfold remove_ask, set_asks. cbn [s_asks remove_cbid set_cbids]. by rewrite delete_notin by done. }
  rewrite E in H. apply bind_Ok in H as (ms'&Hf&H). injection H as <- <-. apply finalize_sale_Ok in Hf as (ci&Hci&Hfit&->).
  by apply (E_AcceptCollectionBid coll tok bidder finder b ci).
Qed.

Lemma execute_effect m st' ms : execute_sub p x v e s f st m = Ok (st', ms) -> effect m st' ms.
Proof.
  destruct m as [ty coll tok price recipient reserve bps expires|coll tok|coll tok price|coll tok expires finder bps
    |coll tok expires finder bps|coll tok expires finder bps to|coll tok|coll tok bidder finder|coll tok bidder
    |coll expires bps|coll|coll tok bidder finder|coll tok|coll tok|coll tok bidder|coll bidder]; cbn [execute_sub]; intros H;
    apply bind_Ok in H as (c&Hc&H); apply addr_validate_Ok in Hc as [-> Hv].
  - apply bind_Ok in H as (?&H1&H). apply bind_Ok in H as (?&H2&H). apply maybe_addr_Ok in H1 as [-> _], H2 as [-> _].
    by apply set_ask_effect.
  - unfold execute_remove_ask in H. apply bind_Ok in H as (?&H1&H). apply bind_Ok in H as (?&H2&H). apply bind_Ok in H as (a&H3&H).
    injection H as <- <-. apply nonpayable_Ok in H1. apply only_owner_Ok in H2. apply load_Ok in H3. by apply E_RemoveAsk.
  - unfold execute_update_ask_price in H. apply bind_Ok in H as (?&H1&H). apply bind_Ok in H as (?&H2&H).
    apply bind_Ok in H as (?&H3&H). apply bind_Ok in H as (a&H4&H). apply bind_Ok in H as (?&H5&H). apply bind_Ok in H as (?&H6&H).
    injection H as <- <-. apply nonpayable_Ok in H1. apply only_owner_Ok in H2. apply price_Ok in H3 as (?&?&?).
    apply load_Ok in H4. apply ensure_Ok in H5. apply ensure_Ok, live_Ok in H6. by apply (E_UpdateAskPrice coll tok price a).
  - apply bind_Ok in H as (?&H1&H). apply maybe_addr_Ok in H1 as [-> _]. exact (set_bid_effect (SetBid coll tok expires finder bps) (BidArgs coll tok expires finder bps None false) _ st' ms eq_refl eq_refl Hv H).
  - apply bind_Ok in H as (?&H1&H). apply maybe_addr_Ok in H1 as [-> _]. exact (set_bid_effect (BuyNow coll tok expires finder bps) (BidArgs coll tok expires finder bps None true) _ st' ms eq_refl eq_refl Hv H).
  - apply bind_Ok in H as (?&H1&H). apply maybe_addr_Ok in H1 as [-> _]. apply bind_Ok in H as (?&H1&H).
    apply addr_validate_Ok in H1 as [-> _]. exact (set_bid_effect (BuyFor coll tok expires finder bps to) (BidArgs coll tok expires finder bps (Some to) true) _ st' ms eq_refl eq_refl Hv H).
  - unfold execute_remove_bid in H. apply bind_Ok in H as (?&H1&H). apply bind_Ok in H as (b&H2&H). injection H as <- <-.
    apply nonpayable_Ok in H1. apply load_Ok in H2. by apply E_RemoveBid.
  - apply bind_Ok in H as (?&H1&H). apply addr_validate_Ok in H1 as [-> _]. apply bind_Ok in H as (?&H1&H).
    apply maybe_addr_Ok in H1 as [-> _]. by apply accept_bid_effect.
  - apply bind_Ok in H as (?&H1&H). apply addr_validate_Ok in H1 as [-> _].
    unfold execute_reject_bid in H. apply bind_Ok in H as (?&H1&H). apply bind_Ok in H as (?&H2&H). apply bind_Ok in H as (b&H3&H).
    injection H as <- <-. apply nonpayable_Ok in H1. apply only_owner_Ok in H2. apply load_Ok in H3. by apply E_RejectBid.
  - unfold execute_set_collection_bid in H. apply bind_Ok in H as (price&H1&H). apply bind_Ok in H as (?&H2&H).
    apply bind_Ok in H as (?&H3&H). apply bind_Ok in H as (?&H4&H). apply must_pay_Ok in H1 as [H1 ?]. apply ensure_Ok in H2.
    apply expiry_Ok in H3. apply finders_Ok in H4.
    replace (match s_cbids st !! (coll, s) with
      | Some old => (remove_cbid st coll s, [send (cb_bidder old) (cb_price old)]) | None => (st, []) end)
      with (remove_cbid st coll s,
            plain_msgs (match s_cbids st !! (coll, s) with Some o => [pay (cb_bidder o) (cb_price o)] | None => [] end)) in H.
    2: { destruct (s_cbids st !! (coll, s)) eqn:E; [done|]. by rewrite remove_cbid_none. }
    cbv zeta in H. injection H as <- <-. apply E_SetCollectionBid; try done. lia.
  - unfold execute_remove_collection_bid in H. apply bind_Ok in H as (?&H1&H). apply bind_Ok in H as (b&H2&H). injection H as <- <-.
    apply nonpayable_Ok in H1. apply load_Ok in H2. by apply E_RemoveCollectionBid.
  - apply bind_Ok in H as (?&H1&H). apply addr_validate_Ok in H1 as [-> _]. apply bind_Ok in H as (?&H1&H).
    apply maybe_addr_Ok in H1 as [-> _]. by apply accept_cbid_effect.
  - unfold execute_sync_ask in H. apply bind_Ok in H as (?&H1&H). apply bind_Ok in H as (?&H2&H). apply bind_Ok in H as (a&H3&H).
    cbv zeta in H. apply bind_Ok in H as (?&H4&H). injection H as <- <-. apply nonpayable_Ok in H1. apply only_operator_Ok in H2.
    apply load_Ok in H3. apply ensure_Ok in H4. apply (E_SyncAsk coll tok a); try done. unfold tok_str in *.
    by destruct (q_approval v coll (pretty tok) (p_self p)), (k_active a).
  - unfold execute_remove_stale_ask in H. apply bind_Ok in H as (?&H1&H). apply bind_Ok in H as (?&H2&H).
    apply bind_Ok in H as (a&H3&H). cbv zeta in H. apply bind_Ok in H as (?&H4&H). injection H as <- <-.
    apply nonpayable_Ok in H1. apply only_operator_Ok in H2. apply load_Ok in H3. apply ensure_Ok in H4.
    apply E_RemoveStaleAsk; try done. unfold tok_str, is_expired, live in *. case_bool_decide as Ho.
    + destruct (q_approval v coll (pretty tok) (p_self p)); [right; right; lia|right; by left].
    + left. destruct (q_owner v coll (pretty tok)); [|done]. by destruct Ho.
  - apply bind_Ok in H as (?&H1&H). apply addr_validate_Ok in H1 as [-> _].
    unfold execute_remove_stale_bid in H. apply bind_Ok in H as (?&H1&H). apply bind_Ok in H as (?&H2&H). apply bind_Ok in H as (b&H3&H).
    apply bind_Ok in H as (?&H4&H). apply bind_Ok in H as (rw&H5&H). apply bind_Ok in H as (rest&H6&H). injection H as <- <-.
    apply nonpayable_Ok in H1. apply only_operator_Ok in H2. apply load_Ok in H3. apply stale_Ok in H4. apply reward_Ok in H5 as ->.
    apply sub128_Ok in H6 as [-> ?]. by apply (E_RemoveStaleBid coll tok bidder b).
  - apply bind_Ok in H as (?&H1&H). apply addr_validate_Ok in H1 as [-> _].
    unfold execute_remove_stale_collection_bid in H. apply bind_Ok in H as (?&H1&H). apply bind_Ok in H as (?&H2&H). apply bind_Ok in H as (b&H3&H).
    apply bind_Ok in H as (?&H4&H). apply bind_Ok in H as (rw&H5&H). apply bind_Ok in H as (rest&H6&H). injection H as <- <-.
    apply nonpayable_Ok in H1. apply only_operator_Ok in H2. apply load_Ok in H3. apply stale_Ok in H4. apply reward_Ok in H5 as ->.
    apply sub128_Ok in H6 as [-> ?]. by apply (E_RemoveStaleCollectionBid coll bidder b).
Qed.
End Effect.
