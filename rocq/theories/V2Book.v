(** Marketplace v2: matching, prices, authorisation, delivery and charging, derived from [sale_result]. *)
From stdpp Require Import relations.
From Verif Require Import Base Common Chain BaseFacts ChainFacts IndexRange IndexFacts SaleFacts
  V2Model V2Spec V2Facts V2Match V2Inv V2Sale V2Trade V2Reach.

Local Arguments be8 : simpl never.
Local Opaque be8 U64_MAX.

Section Book.
Context (p : params).

Lemma sale_settles v e sender funds st m st' msgs a mb f pre post :
  sale_result p v e sender funds st m st' msgs a mb f pre post ->
  settles p v (s_config st) sender funds m msgs a mb f.
Proof. intros []. by exists pre, post. Qed.

Lemma settles_nft v cfg sender funds m msgs a mb f :
  settles p v cfg sender funds m msgs a mb f -> MNft (a_coll a) (a_tok a) (nft_to mb) ∈ msgs.
Proof. intros (pre&post&->&_). rewrite !elem_of_app, elem_of_cons. auto. Qed.

Lemma total_app l1 l2 : total_dues (l1 ++ l2) = total_dues l1 + total_dues l2.
Proof. apply total_dues_app. Qed.

Lemma sale_payments_total v cfg a mb f :
  total_dues (sale_dues p v cfg a mb f) <= c_amount (trade_price a mb f) ->
  total_dues (sale_payments p v cfg a mb f) = c_amount (trade_price a mb f).
Proof.
  intros H. unfold sale_payments. rewrite total_dues_filter, total_app. unfold total_dues at 2. cbn -[total_dues sale_dues]. lia.
Qed.
Lemma sale_payments_pos v cfg a mb f : Forall (fun x => 0 < snd x) (sale_payments p v cfg a mb f).
Proof.
  unfold sale_payments. apply Forall_forall. intros x. rewrite elem_of_list_In, filter_In. lia.
Qed.

(** Every sale, in specification terms. *)
Lemma sells_settles v e sender funds st m st' msgs c t to :
  wf p st -> execute p v e sender funds st m = Ok (st', msgs) -> sells st m st' msgs c t to ->
  exists a mb f, trade sender st m a mb f /\ settles p v (s_config st) sender funds m msgs a mb f /\
    c = a_coll a /\ t = a_tok a /\ to = nft_to mb.
Proof.
  intros Hwf H Hs. destruct (sells_result p _ _ _ _ _ _ _ _ _ _ _ Hwf H Hs) as (a&mb&f&pre&post&Hr&?&?&?).
  exists a, mb, f. split_and!; try done; [by apply Hr|by eapply sale_settles].
Qed.

Lemma royalty_part_le cfg price share : royalty_part cfg price share <= ceil_div (price * cf_max_royalty_bps cfg) 10000.
Proof.
  unfold royalty_part. set (cap := cf_max_royalty_bps cfg).
  assert (ceil_div (price * (cap * 100000000000000)) 1000000000000000000 = ceil_div (price * cap) 10000) as <-.
  { replace (price * (cap * 100000000000000)) with (price * cap * 100000000000000) by lia.
    change 1000000000000000000 with (10000 * 100000000000000). apply ceil_div_scale; lia. }
  unfold ceil_div. apply N.div_le_mono; [lia|]. apply N.add_le_mono_r, N.mul_le_mono_l, N.le_min_r.
Qed.

(** * Matching of asks *)
Lemma ask_call_cause v e sender funds st m st' msgs coll tok price :
  wf p st -> effect p v e sender funds st m st' msgs -> ask_call st m coll tok price ->
  p_valid p coll = true /\
  exists a, a_coll a = coll /\ a_tok a = tok /\ d_price (a_det a) = price /\
    ((exists mb pre post, match_with_bid st a = Some mb /\ sale_result p v e sender funds st m st' msgs a mb false pre post) \/
     (match_with_bid st a = None /\ (forall c t to, ~ sells st m st' msgs c t to))).
Proof.
  intros Hwf H Hc. pose proof H as H'. apply effect_sale_or_not in H' as [(Hrc&_&Hn)|(a&mb&f&pre&post&Hr)]; [| |done].
  - assert (forall c t to, ~ sells st m st' msgs c t to) as Hns.
    { intros c t to (Hin&Hrm&Hnew). destruct Hn as [Hn|[[id ->]|(c'&t'&d'&->&i&Hi&Hi2)]].
      - by apply Hn in Hin.
      - inversion Hc.
      - apply Hnew in Hi as [? ?]. congruence. }
    destruct Hc as [coll tok d|coll tok d|id d a Ha].
    + split.
      * inversion H; subst; try done; destruct_or?; by simplify_eq.
      * eexists. split_and!; [| | |right; split; [exact Hrc|done]]; done.
    + done.
    + destruct Hrc as (a0&Ha0&_&Hrc). simplify_eq. split; [by destruct (wf_ask _ _ Hwf _ _ Ha) as (_&_&_&?&_)|].
      eexists. split_and!; [| | |right; split; [exact Hrc|done]]; done.
  - pose proof (sr_cause _ _ _ _ _ _ _ _ _ _ _ _ _ _ Hr) as Hca.
    pose proof (sr_trade _ _ _ _ _ _ _ _ _ _ _ _ _ _ Hr) as Ht.
    assert (f = false) as ->. { destruct Hc; inversion Ht; subst; try done; destruct_or?; by simplify_eq. }
    destruct Hc as [coll tok d|coll tok d|id d a0 Ha]; cbn in Hca.
    + destruct Hca as (->&Hm&Hv&_). split; [done|]. eexists. split_and!; [..|left; eauto]; done.
    + destruct Hca as (->&Hm&Hv&_). split; [done|]. eexists. split_and!; [..|left; eauto]; done.
    + destruct Hca as (a1&Ha1&_&->&Hm). simplify_eq.
      split; [by destruct (wf_ask _ _ Hwf _ _ Ha) as (_&_&_&?&_)|].
      eexists. split_and!; [..|left; eauto]; done.
Qed.

Lemma no_slash_has s : no_slash s = negb (has_slash s).
Proof. induction s as [|x s IH]; cbn; [done|]. rewrite IH. by destruct (Ascii.eqb x "/"). Qed.

Lemma bid_on_resting st coll tok dn b :
  wf p st -> slash_free p -> p_valid p coll = true ->
  (bid_on st coll tok dn b <-> resting st (MBid b) /\ wants (MBid b) coll tok dn).
Proof.
  intros Hwf Hsl Hv. unfold bid_on, resting, wants; cbn. split.
  - intros ((i&Hi)&Ht&Hd). destruct (wf_bid _ _ Hwf _ _ Hi) as (Hid&_&Hvb&_). rewrite Hid. split; [done|]. split; [done|].
    apply token_index_str_inj in Ht; [done|..]; rewrite no_slash_has, Hsl; done.
  - intros (Hi&Hd&->&->). split; [by eexists|]. done.
Qed.
Lemma cbid_on_resting st coll tok dn cb :
  wf p st -> (cbid_on st coll dn cb <-> resting st (MCBid cb) /\ wants (MCBid cb) coll tok dn).
Proof.
  intros Hwf. unfold cbid_on, resting, wants; cbn. split.
  - intros ((i&Hi)&Ht&Hd). destruct (wf_cbid _ _ Hwf _ _ Hi) as (Hid&_). by rewrite Hid.
  - intros (Hi&Hd&Hc). split; [by eexists|done].
Qed.

Lemma match_best st a mb :
  wf p st -> slash_free p -> p_valid p (a_coll a) = true -> match_with_bid st a = Some mb ->
  best_bid st (a_coll a) (a_tok a) (d_price (a_det a)) mb.
Proof.
  intros Hwf Hsl Hv H. apply match_with_bid_some in H. cbv zeta in H. destruct mb as [b|cb].
  - destruct H as (Hon&Hle&Hb&Hcb). apply bid_on_resting in Hon as [Hr Hw]; [|done..].
    split; [split_and!; done|]. intros mb' (Hr'&Hw'&Hle'). destruct mb' as [b'|cb'].
    + assert (b_amt b' <= b_amt b) as Hx by (apply Hb, bid_on_resting; done).
      unfold b_amt in Hx. cbn [price_of]. destruct (N.lt_trichotomy (c_amount (d_price (b_det b'))) (c_amount (d_price (b_det b)))) as [?|[?|?]]; [by left|by right|lia].
    + assert (cb_amt cb' <= b_amt b) as Hx by (eapply Hcb, cbid_on_resting; done).
      unfold b_amt, cb_amt in Hx. cbn [price_of]. destruct (N.lt_trichotomy (c_amount (d_price (cb_det cb'))) (c_amount (d_price (b_det b)))) as [?|[?|?]]; [by left|by right|lia].
  - destruct H as (Hon&Hle&Hb&Hcb). apply (cbid_on_resting _ _ (a_tok a)) in Hon as [Hr Hw]; [|done..].
    split; [split_and!; done|]. intros mb' (Hr'&Hw'&Hle'). destruct mb' as [b'|cb'].
    + assert (b_amt b' < cb_amt cb) as Hx by (apply Hb, bid_on_resting; done). left. exact Hx.
    + assert (cb_amt cb' <= cb_amt cb) as Hx by (eapply Hcb, cbid_on_resting; done).
      unfold cb_amt in Hx. cbn [price_of]. destruct (N.lt_trichotomy (c_amount (d_price (cb_det cb'))) (c_amount (d_price (cb_det cb)))) as [?|[?|?]]; [by left|by right|lia].
Qed.
Lemma match_none_fits st a mb :
  wf p st -> slash_free p -> p_valid p (a_coll a) = true -> match_with_bid st a = None ->
  ~ fits st (a_coll a) (a_tok a) (d_price (a_det a)) mb.
Proof.
  intros Hwf Hsl Hv H (Hr&Hw&Hle). apply match_with_bid_none in H as [Hb Hcb]. destruct mb as [b|cb].
  - assert (b_amt b < a_amt a) by (by apply Hb, bid_on_resting). unfold b_amt, a_amt in *. cbn in Hle. lia.
  - assert (cb_amt cb < a_amt a) by (by eapply Hcb, cbid_on_resting). unfold cb_amt, a_amt in *. cbn in Hle. lia.
Qed.

Lemma sold_bid_gone v e sender funds st m st' msgs a mb f pre post :
  sale_result p v e sender funds st m st' msgs a mb f pre post -> ~ resting st' mb.
Proof.
  intros Hr. pose proof (sr_bids _ _ _ _ _ _ _ _ _ _ _ _ _ _ Hr) as E1. pose proof (sr_cbids _ _ _ _ _ _ _ _ _ _ _ _ _ _ Hr) as E2.
  destruct mb; cbn in *; rewrite ?E1, ?E2, lookup_delete; done.
Qed.

Lemma ask_filled_best v e sender funds st m st' msgs coll tok price :
  wf p st -> slash_free p -> execute p v e sender funds st m = Ok (st', msgs) -> ask_call st m coll tok price ->
  (exists a mb, a_coll a = coll /\ a_tok a = tok /\ best_bid st coll tok price mb /\
     trade sender st m a mb false /\ settles p v (s_config st) sender funds m msgs a mb false /\ ~ resting st' mb /\
     s_asks st' !! a_id a = None) \/
  ((forall mb, ~ fits st coll tok price mb) /\ (forall c t to, ~ sells st m st' msgs c t to)).
Proof.
  intros Hwf Hsl H%execute_effect Hc. destruct (ask_call_cause _ _ _ _ _ _ _ _ _ _ _ Hwf H Hc) as (Hv&a&<-&<-&<-&Hor).
  destruct Hor as [(mb&pre&post&Hm&Hr)|[Hm Hn]]; [left|right].
  - exists a, mb. split_and!; try done.
    + by apply match_best.
    + by apply Hr.
    + by eapply sale_settles.
    + by eapply sold_bid_gone.
    + rewrite (sr_asks _ _ _ _ _ _ _ _ _ _ _ _ _ _ Hr). apply lookup_delete.
  - split; [|done]. intros mb. by apply match_none_fits.
Qed.

(** * Matching of bids *)
Lemma bid_match_offered st b a :
  wf p st -> collision_free p -> prefix_free p -> p_valid p (b_coll b) = true ->
  bid_match_with_ask p st b = Some a -> cheapest st (b_coll b) (Some (b_tok b)) (d_price (b_det b)) a.
Proof.
  intros Hwf Hcf Hpf Hv H. apply bid_match_some in H as (Ha&Hd&Hle).
  destruct (wf_ask _ _ Hwf _ _ Ha) as (Hid&Hg&_&Hva&_). rewrite <-Hid in Hg, Ha.
  destruct (ask_id_inj p (b_coll b) (b_tok b) (a_coll a) (a_tok a)) as [E1 E2]; try done; [congruence|].
  split.
  - split_and!; try done. by intros ? [= <-].
  - intros a' (Ha'&Hc'&Ht'&_). specialize (Ht' _ eq_refl).
    destruct (wf_ask _ _ Hwf _ _ Ha') as (_&Hg'&_). assert (a_id a' = a_id a) as E by congruence. rewrite E in Ha'.
    simplify_eq. lia.
Qed.
Lemma bid_match_none_offered st b a :
  wf p st -> bid_match_with_ask p st b = None -> ~ offered st (b_coll b) (Some (b_tok b)) (d_price (b_det b)) a.
Proof.
  intros Hwf H (Ha&Hc&Ht&Hd&Hle). specialize (Ht _ eq_refl).
  destruct (wf_ask _ _ Hwf _ _ Ha) as (_&Hg&_).
  assert (b_amt b < a_amt a); [|unfold b_amt, a_amt in *; lia].
  eapply bid_match_none; [done| |done]. by rewrite <-Hc, <-Ht, <-Hg.
Qed.
Lemma ask_on_offered st coll price a :
  wf p st -> (ask_on st coll (c_denom price) a /\ a_amt a <= c_amount price <-> offered st coll None price a).
Proof.
  intros Hwf. unfold ask_on, offered, a_dn, a_amt. split.
  - intros (((i&Hi)&Hc&Hd)&Hle). destruct (wf_ask _ _ Hwf _ _ Hi) as (Hid&_). rewrite Hid. split_and!; done.
  - intros (Hi&Hc&_&Hd&Hle). split_and!; try done. by eexists.
Qed.
Lemma cbid_match_cheapest st cb a :
  wf p st -> cbid_match_with_ask st cb = Ok (Some a) -> cheapest st (cb_coll cb) None (d_price (cb_det cb)) a.
Proof.
  intros Hwf H. apply cbid_match_some in H as (Hon&Hle&Hmin). split.
  - by apply ask_on_offered.
  - intros a' Ho. apply ask_on_offered in Ho as [Ho _]; [|done]. by apply Hmin.
Qed.
Lemma cbid_match_none_offered st cb a :
  wf p st -> cbid_match_with_ask st cb = Ok None -> ~ offered st (cb_coll cb) None (d_price (cb_det cb)) a.
Proof.
  intros Hwf H Ho. apply ask_on_offered in Ho as [Ho Hle]; [|done].
  pose proof (cbid_match_none _ _ _ H Ho). unfold cb_amt in *. lia.
Qed.

Lemma bid_filled_cheapest v e sender funds st m st' msgs coll tok price :
  wf p st -> collision_free p -> prefix_free p ->
  execute p v e sender funds st m = Ok (st', msgs) -> bid_call st m coll tok price ->
  (exists a mb, cheapest st coll tok price a /\ price_of mb = price /\
     trade sender st m a mb true /\ settles p v (s_config st) sender funds m msgs a mb true /\
     s_asks st' !! a_id a = None) \/
  ((forall a, ~ offered st coll tok price a) /\ (forall c t to, ~ sells st m st' msgs c t to)).
Proof.
  intros Hwf Hcf Hpf H%execute_effect Hc. pose proof H as H'.
  apply effect_sale_or_not in H' as [(Hrc&_&Hn)|(a&mb&f&pre&post&Hr)]; [right|left|done].
  - split.
    + intros a. destruct Hc as [coll tok d|coll tok d|id d b Hb|coll d|coll d|id d cb Hcb]; cbn in Hrc; try done.
      * by apply (bid_match_none_offered _ _ a Hwf) in Hrc.
      * destruct Hrc as (b0&Hb0&_&Hrc). simplify_eq. by apply (bid_match_none_offered _ _ a Hwf) in Hrc.
      * by apply (cbid_match_none_offered _ _ a Hwf) in Hrc.
      * destruct Hrc as (b0&Hb0&_&Hrc). simplify_eq. by apply (cbid_match_none_offered _ _ a Hwf) in Hrc.
    + intros c t to (Hin&Hrm&Hnew). destruct Hn as [Hn|[[id ->]|(c'&t'&d'&->&i&Hi&Hi2)]].
      * by apply Hn in Hin.
      * inversion Hc.
      * inversion Hc.
  - pose proof (sr_cause _ _ _ _ _ _ _ _ _ _ _ _ _ _ Hr) as Hca.
    pose proof (sr_trade _ _ _ _ _ _ _ _ _ _ _ _ _ _ Hr) as Ht.
    assert (f = true) as ->. { destruct Hc; inversion Ht; subst; try done; destruct_or?; by simplify_eq. }
    exists a, mb. split; [|split; [|split_and!; [done|by eapply sale_settles|]]].
    + destruct Hc as [coll tok d|coll tok d|id d b Hb|coll d|coll d|id d cb Hcb]; cbn in Hca.
      * destruct Hca as (->&Hm&Hv&_). by apply bid_match_offered in Hm.
      * destruct Hca as (->&Hm&Hv&_). by apply bid_match_offered in Hm.
      * destruct Hca as (b0&Hb0&_&->&Hm). simplify_eq. destruct (wf_bid _ _ Hwf _ _ Hb) as (_&_&?&_).
        by apply bid_match_offered in Hm.
      * destruct Hca as (->&Hm&Hv&_). by apply cbid_match_cheapest in Hm.
      * destruct Hca as (->&Hm&Hv&_). by apply cbid_match_cheapest in Hm.
      * destruct Hca as (b0&Hb0&_&->&Hm). simplify_eq. by apply cbid_match_cheapest in Hm.
    + destruct Hc; cbn in Hca; try (by destruct Hca as (->&_)); by destruct Hca as (?&_&_&->&_).
    + rewrite (sr_asks _ _ _ _ _ _ _ _ _ _ _ _ _ _ Hr). apply lookup_delete.
Qed.

(** * Limit prices *)
Lemma sale_limits v e sender funds st m st' msgs a mb f pre post :
  wf p st -> sale_result p v e sender funds st m st' msgs a mb f pre post ->
  c_denom (trade_price a mb f) = c_denom (price_of mb) /\ c_amount (trade_price a mb f) <= c_amount (price_of mb) /\
  c_denom (seller_min m a) = c_denom (trade_price a mb f) /\ c_amount (seller_min m a) <= c_amount (trade_price a mb f).
Proof.
  intros Hwf Hr. pose proof (sr_cause _ _ _ _ _ _ _ _ _ _ _ _ _ _ Hr) as Hca.
  pose proof (sr_trade _ _ _ _ _ _ _ _ _ _ _ _ _ _ Hr) as Ht.
  assert (forall st1 a1 mb1, match_with_bid st1 a1 = Some mb1 ->
    c_denom (d_price (a_det a1)) = c_denom (price_of mb1) /\ c_amount (d_price (a_det a1)) <= c_amount (price_of mb1)) as Hmatch.
  { intros st1 a1 mb1 Hm. pose proof (match_denom _ _ _ Hm) as E. apply match_with_bid_some in Hm. cbv zeta in Hm.
    split; [done|]. destruct mb1; destruct Hm as (_&?&_); done. }
  destruct Ht as [m id coll tok d mb Hm Hre|id d a mb Ha Hre|id d a bid_id Ha|m coll tok d a bid_id Hm Ha|id d b a Hb Ha|
    id d b a Hb Ha|m coll d a bid_id Hm Ha|id d cb a Hb Ha|id tok d cb a Hb Ha]; cbn [trade_price].
  - assert (match_with_bid st (Ask id sender coll tok d) = Some mb) as Hx.
    { destruct Hm; subst m; cbn in Hca; destruct Hca as (E&?&_); by rewrite E in *. }
    apply Hmatch in Hx as [? ?]. destruct Hm; subst m; cbn in *; split_and!; done.
  - cbn in Hca. destruct Hca as (a0&Ha0&_&E&Hm). rewrite E in *. apply Hmatch in Hm as [? ?]. cbn. split_and!; done.
  - cbn in Hca. destruct Hca as (_&_&Hc). apply has_coins_one in Hc as [E1 E2]. cbn. split_and!; done.
  - assert (c_denom (d_price (a_det a)) = c_denom (d_price d) /\ c_amount (d_price (a_det a)) <= c_amount (d_price d)) as [? ?].
    { destruct Hm; subst m; cbn in Hca; destruct Hca as (_&Hx&_); apply bid_match_some in Hx as (_&?&?); done. }
    destruct Hm; subst m; cbn; split_and!; done.
  - cbn in Hca. destruct Hca as (b0&Hb0&_&_&Hx). simplify_eq. apply bid_match_some in Hx as (_&?&?). cbn. split_and!; done.
  - cbn in Hca. destruct Hca as (b0&Hb0&_&Hc&_). simplify_eq. apply has_coins_one in Hc as [? ?]. cbn. split_and!; done.
  - assert (c_denom (d_price (a_det a)) = c_denom (d_price d) /\ c_amount (d_price (a_det a)) <= c_amount (d_price d)) as [? ?].
    { destruct Hm; subst m; cbn in Hca; destruct Hca as (_&Hx&_); apply cbid_match_some in Hx as ((_&_&?)&?&_); done. }
    destruct Hm; subst m; cbn; split_and!; done.
  - cbn in Hca. destruct Hca as (b0&Hb0&_&_&Hx). simplify_eq. apply cbid_match_some in Hx as ((_&_&?)&?&_). cbn. split_and!; done.
  - cbn in Hca. destruct Hca as (b0&Hb0&_&Hc&_). simplify_eq. apply has_coins_one in Hc as [? ?]. cbn. split_and!; done.
Qed.
Lemma sells_limits v e sender funds st m st' msgs c t to :
  wf p st -> execute p v e sender funds st m = Ok (st', msgs) -> sells st m st' msgs c t to ->
  exists a mb f, trade sender st m a mb f /\ settles p v (s_config st) sender funds m msgs a mb f /\
    c_denom (trade_price a mb f) = c_denom (price_of mb) /\ c_amount (trade_price a mb f) <= c_amount (price_of mb) /\
    c_denom (seller_min m a) = c_denom (trade_price a mb f) /\ c_amount (seller_min m a) <= c_amount (trade_price a mb f).
Proof.
  intros Hwf H Hs. destruct (sells_result p _ _ _ _ _ _ _ _ _ _ _ Hwf H Hs) as (a&mb&f&pre&post&Hr&?&?&?).
  exists a, mb, f. split; [by apply Hr|]. split; [by eapply sale_settles|]. by eapply sale_limits.
Qed.
End Book.
