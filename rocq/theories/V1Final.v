(** The rules of marketplace v1, in the form used by the property theorems. *)
From stdpp Require Import relations pretty.
From Verif Require Import Base Common Chain BaseFacts ChainFacts IndexRange IndexFacts SaleFacts Plain
  V1Model V1Spec V1Facts V1Inv V1Reach.

Ltac reduce_st := cbn [s_asks s_bids s_cbids s_params s_ask_hooks s_bid_hooks s_sale_hooks s_cbid_hooks remove_ask remove_bid remove_cbid
  store_ask store_bid store_cbid set_asks set_bids set_cbids] in *.

Section Final.
Context (p : params) (x : ext).

(** * Sales *)
Lemma effect_sale v e s f st m st' ms c t who : wf p st -> effect p x v e s f st m st' ms -> MNft c t who ∈ map erase ms ->
  exists d ci, closes v e s f st m d /\ c = d_coll d /\ t = pretty (d_tok d) /\ who = d_buyer_to d /\
    q_info v (d_coll d) = Some ci /\ split_fits (deal_split st ci d) (d_price d) /\ 0 < d_price d /\
    map erase ms = deal_msgs x st m s ci d ++ hook_msgs (s_sale_hooks st) /\
    s_asks st' !! (d_coll d, d_tok d) = None /\
    ms = plain_msgs (deal_msgs x st m s ci d) ++
         map (fun h => SHook h (HSale (d_coll d) (d_tok d) (native (d_price d)) (d_seller d) (d_buyer d))) (s_sale_hooks st).
Proof.
  intros Hw H Hin.
  assert (forall sp finder to coll tok who hs pre, map erase (plain_msgs pre ++ sold_smsgs x sp finder to coll tok who ++ hs) =
    (pre ++ split_msgs x sp finder to ++ [MNft coll (pretty tok) who]) ++ map erase hs) as Hsold.
  { intros. unfold sold_smsgs. change (map SPlain) with plain_msgs. rewrite !map_app, !erase_plain, <-!app_assoc. done. }
  destruct H; try (exfalso; rewrite ?map_app, ?erase_plain in Hin; rewrite ?elem_of_app in Hin;
    repeat match type of Hin with _ \/ _ => destruct Hin as [Hin|Hin] end;
    try (unfold ask_hooks, bid_hooks, cbid_hooks in Hin; rewrite erase_hooks in Hin; by apply hooks_no_nft in Hin);
    try (by apply refund_no_nft in Hin); try (by apply elem_of_list_singleton in Hin);
    try (apply elem_of_cons in Hin as [?|Hin]; [done|]; by apply elem_of_list_singleton in Hin);
    first [destruct (fee =? 0)|destruct (s_cbids st !! (coll, s))];
    first [by apply elem_of_nil in Hin|by apply elem_of_list_singleton in Hin]; fail).
  - destruct (wf_ask _ _ Hw _ _ H1) as (Hk&Hpos&_). injection Hk as E1 E2.
    destruct H0 as [_ Hf _ Hpaid _ _ _]. destruct H2 as [Hl Ha Hr]. subst price.
    pose (d := Deal (ba_coll ba) (ba_tok ba) (k_price a) (k_seller a) (default (k_seller a) (k_recipient a)) s (default s (ba_to ba))
      (ba_finder ba) (k_finders a)).
    rewrite Hsold in *. unfold sale_hooks in *. rewrite erase_hooks in *.
    assert (who = d_buyer_to d /\ c = k_coll a /\ t = pretty (k_tok a)) as (->&->&->).
    { rewrite !elem_of_app in Hin. destruct Hin as [[Hin|[Hin|Hin]]|Hin].
      - by apply refund_no_nft in Hin.
      - by apply split_no_nft in Hin.
      - apply elem_of_list_singleton in Hin. by injection Hin.
      - by apply hooks_no_nft in Hin. }
    exists d, ci. unfold d. cbn [d_coll d_tok d_buyer_to d_price d_seller d_buyer]. 
    rewrite <-E1, <-E2 in *. split_and!; try done.
    + by apply closes_ask.
    + unfold deal_msgs, refund_first, deal_split. rewrite H. done.
    + cbn [s_asks remove_ask set_asks]. apply lookup_delete.
    + unfold deal_msgs, refund_first, deal_split. rewrite H. cbn [d_finder d_bps d_price d_coll d_tok d_buyer_to d_seller_to].
      unfold plain_msgs, sold_smsgs. rewrite !map_app, <-!app_assoc. done.
  - destruct (wf_bid _ _ Hw _ _ H2) as (Hk&Hpos&_).
    pose proof (Hsold sp finder s coll tok bidder (sale_hooks st coll tok (b_price b) s bidder) []) as Hs. cbn [plain_msgs map app] in Hs.
    rewrite Hs in *. unfold sale_hooks in *. rewrite erase_hooks in *.
    assert (who = bidder /\ c = coll /\ t = pretty tok) as (->&->&->).
    { rewrite !elem_of_app in Hin. destruct Hin as [[Hin|Hin]|Hin].
      - by apply split_no_nft in Hin.
      - apply elem_of_list_singleton in Hin. by injection Hin.
      - by apply hooks_no_nft in Hin. }
    exists (Deal coll tok (b_price b) s s bidder bidder finder (b_finders b)), ci. cbn [d_coll d_tok d_buyer_to d_price d_seller d_buyer].
    split_and!; try done.
    + by apply closes_bid.
    + cbn [s_asks remove_bid set_bids remove_ask set_asks]. apply lookup_delete.
  - destruct (wf_cbid _ _ Hw _ _ H2) as (Hk&Hpos&_).
    pose proof (Hsold sp finder s coll tok bidder (sale_hooks st coll tok (cb_price b) s bidder) []) as Hs. cbn [plain_msgs map app] in Hs.
    rewrite Hs in *. unfold sale_hooks in *. rewrite erase_hooks in *.
    assert (who = bidder /\ c = coll /\ t = pretty tok) as (->&->&->).
    { rewrite !elem_of_app in Hin. destruct Hin as [[Hin|Hin]|Hin].
      - by apply split_no_nft in Hin.
      - apply elem_of_list_singleton in Hin. by injection Hin.
      - by apply hooks_no_nft in Hin. }
    exists (Deal coll tok (cb_price b) s s bidder bidder finder (cb_finders b)), ci. cbn [d_coll d_tok d_buyer_to d_price d_seller d_buyer].
    split_and!; try done.
    + by apply closes_cbid.
    + cbn [s_asks remove_bid set_bids remove_ask set_asks]. apply lookup_delete.
Qed.
Lemma sale_rule v e s f st m st' msgs c t who : v1_history p x st ->
  execute p x v e s f st m = Ok (st', msgs) -> MNft c t who ∈ msgs ->
  exists d ci, closes v e s f st m d /\ c = d_coll d /\ t = pretty (d_tok d) /\ who = d_buyer_to d /\
    q_info v (d_coll d) = Some ci /\ split_fits (deal_split st ci d) (d_price d) /\ 0 < d_price d /\
    msgs = deal_msgs x st m s ci d ++ hook_msgs (s_sale_hooks st) /\ s_asks st' !! (d_coll d, d_tok d) = None.
Proof.
  intros Hw%history_wf (ms&H&->)%execute_sub_of Hin. destruct (effect_sale _ _ _ _ _ _ _ _ _ _ _ Hw H Hin) as (d&ci&Hd).
  exists d, ci. naive_solver.
Qed.

(** * Bidding *)
Lemma bidding_rule v e s f st m st' msgs ba : v1_history p x st -> execute p x v e s f st m = Ok (st', msgs) -> bid_call m = Some ba ->
  exists price, bid_checks p e s f st ba price /\
    (forall a, s_asks st !! (ba_coll ba, ba_tok ba) = Some a -> open_ask e s a /\
       match k_type a with FixedPrice => price <= k_price a | Auction => k_price a <= price end) /\
    s_cbids st' = s_cbids st /\
    (forall k, k <> (ba_coll ba, ba_tok ba, s) -> s_bids st' !! k = s_bids st !! k) /\
    (forall k, k <> (ba_coll ba, ba_tok ba) -> s_asks st' !! k = s_asks st !! k) /\
    ((* the bid buys *)
     (exists a ci, s_asks st !! (ba_coll ba, ba_tok ba) = Some a /\ k_type a = FixedPrice /\ k_price a = price /\
        owns v (k_seller a) (ba_coll ba) (ba_tok ba) /\ q_info v (ba_coll ba) = Some ci /\
        s_asks st' !! (ba_coll ba, ba_tok ba) = None /\ s_bids st' !! (ba_coll ba, ba_tok ba, s) = None /\
        let sp := split_of (sp_trading_fee (s_params st)) price (ba_finder ba) (k_finders a) (ci_royalty ci) in
        split_fits sp price /\
        msgs = refund_of st (ba_coll ba) (ba_tok ba) s ++ split_msgs x sp (ba_finder ba) (default (k_seller a) (k_recipient a)) ++
          [MNft (ba_coll ba) (pretty (ba_tok ba)) (default s (ba_to ba))] ++ hook_msgs (s_sale_hooks st)) \/
     (* the bid rests *)
     ((forall a, s_asks st !! (ba_coll ba, ba_tok ba) = Some a -> k_type a = FixedPrice -> price < k_price a) /\
      (ba_now ba = true -> s_asks st !! (ba_coll ba, ba_tok ba) <> None) /\ s_asks st' = s_asks st /\
      s_bids st' !! (ba_coll ba, ba_tok ba, s) = Some (Bid (ba_coll ba) (ba_tok ba) s price (ba_bps ba) (ba_expires ba)) /\
      msgs = refund_of st (ba_coll ba) (ba_tok ba) s ++ hook_msgs (s_bid_hooks st))).
Proof.
  intros Hw%history_wf (ms&H&->)%execute_sub_of Hba.
  destruct H; cbn [bid_call] in Hba; try discriminate.
  - rewrite Hba in H. injection H as <-. exists price. split; [done|]. split.
    { intros a Ha. rewrite Ha in H1. destruct H1 as [? H1]. split; [done|]. destruct (k_type a); lia. }
    reduce_st. split_and!; try done.
    { intros k Hk. unfold b. cbn [b_coll b_tok b_bidder]. by rewrite lookup_insert_ne, lookup_delete_ne by done. }
    right. split_and!; try done.
    + intros a Ha Hty. rewrite Ha, Hty in H1. by destruct H1.
    + intros Hn E. rewrite E in H1. congruence.
    + unfold b. cbn [b_coll b_tok b_bidder]. by rewrite lookup_insert.
    + rewrite map_app, erase_plain. unfold bid_hooks. by rewrite erase_hooks.
  - rewrite Hba in H. injection H as <-. exists price. split; [done|].
    destruct (wf_ask _ _ Hw _ _ H1) as (Hk&_). injection Hk as E1 E2. rewrite <-E1, <-E2 in *. split.
    { intros a' Ha. assert (a' = a) as -> by congruence. split; [done|]. rewrite H3. lia. }
    reduce_st. split_and!; try done.
    { intros k Hk. by rewrite lookup_delete_ne by done. }
    { intros k Hk. by rewrite lookup_delete_ne by done. }
    left. exists a, ci. split_and!; try done; try apply lookup_delete.
    unfold sold_smsgs, sale_hooks. change (map SPlain) with plain_msgs. rewrite !map_app, !erase_plain, erase_hooks, <-!app_assoc. done.
Qed.

(** * Fates *)
Lemma bid_life v e s f st m st' msgs k b : v1_history p x st -> execute p x v e s f st m = Ok (st', msgs) -> s_bids st !! k = Some b ->
  k = (b_coll b, b_tok b, b_bidder b) /\ bid_fate x v e s st m b msgs (s_bids st' !! k).
Proof. intros Hw%history_wf (ms&H&->)%execute_sub_of Hb. by eapply effect_bid. Qed.
Lemma cbid_life v e s f st m st' msgs k b : v1_history p x st -> execute p x v e s f st m = Ok (st', msgs) -> s_cbids st !! k = Some b ->
  k = (cb_coll b, cb_bidder b) /\ cbid_fate x v e s st m b msgs (s_cbids st' !! k).
Proof. intros Hw%history_wf (ms&H&->)%execute_sub_of Hb. by eapply effect_cbid. Qed.
Lemma ask_life v e s f st m st' msgs k a : v1_history p x st -> execute p x v e s f st m = Ok (st', msgs) -> s_asks st !! k = Some a ->
  k = (k_coll a, k_tok a) /\ ask_fate v e s f st m a (s_asks st' !! k).
Proof. intros Hw%history_wf (ms&H&->)%execute_sub_of Hb. by eapply effect_ask. Qed.

(** * Authority *)
Lemma authority v e s f st m st' msgs : execute p x v e s f st m = Ok (st', msgs) -> authorised v s st m.
Proof.
  intros (ms&H&->)%execute_sub_of. destruct H; cbn [authorised]; eauto; by destruct m.
Qed.

(** * Origins *)
Lemma history_trans st st' : v1_history p x st -> rtc (v1_call p x) st st' -> v1_history p x st'.
Proof. intros (m&st0&Hi&H) H'. exists m, st0. split; [done|]. by etrans. Qed.
Lemma empty_start m st : instantiate p m = Ok st -> s_asks st = ∅ /\ s_bids st = ∅ /\ s_cbids st = ∅.
Proof. unfold instantiate. intros Hi. do 8 apply bind_Ok in Hi as (?&_&Hi). by injection Hi as <-. Qed.
Lemma bid_origin_step st st' b : bid_origin p x st b -> v1_call p x st st' -> bid_origin p x st' b.
Proof.
  intros (st0&st1&v&e&m&msgs&ba&H1&H2&H3&H4&H5&H6) H. exists st0, st1, v, e, m, msgs, ba. split_and!; try naive_solver. by eapply rtc_r.
Qed.
Lemma cbid_origin_step st st' b : cbid_origin p x st b -> v1_call p x st st' -> cbid_origin p x st' b.
Proof.
  intros (st0&st1&v&e&msgs&H1&H2&H3&H4&H5) H. exists st0, st1, v, e, msgs. split_and!; try naive_solver. by eapply rtc_r.
Qed.
Lemma bids_have_origin st k b : v1_history p x st -> s_bids st !! k = Some b -> bid_origin p x st b.
Proof.
  intros (m0&st0&Hi&H). revert k b. revert st H. refine (rtc_ind_r _ _ _ _); [|intros st1 st2 Hr Hc IH]; intros k b Hb.
  - destruct (empty_start _ _ Hi) as (_&E&_). by rewrite E, lookup_empty in Hb.
  - assert (v1_history p x st1) as Hh by (by exists m0, st0). inversion Hc as [v e s f m msgs Hs He|v e m msgs He].
    + pose proof He as (ms&Hef&->)%execute_sub_of. pose proof (history_wf _ _ _ Hh) as Hw.
      destruct (effect_new_bid _ _ _ _ _ _ _ _ _ _ _ _ Hw Hef Hb) as [Hold|(ba&price&Hba&->&->&[])].
      * eapply bid_origin_step; [by eapply IH|done].
      * subst f. exists st1, st2, v, e, m, (map erase ms), ba. split_and!; try done.
    + destruct (sudo_orders _ _ _ _ _ _ _ He) as (_&E&_). rewrite E in Hb. eapply bid_origin_step; [by eapply IH|done].
Qed.
Lemma cbids_have_origin st k b : v1_history p x st -> s_cbids st !! k = Some b -> cbid_origin p x st b.
Proof.
  intros (m0&st0&Hi&H). revert k b. revert st H. refine (rtc_ind_r _ _ _ _); [|intros st1 st2 Hr Hc IH]; intros k b Hb.
  - destruct (empty_start _ _ Hi) as (_&_&E). by rewrite E, lookup_empty in Hb.
  - assert (v1_history p x st1) as Hh by (by exists m0, st0). inversion Hc as [v e s f m msgs Hs He|v e m msgs He].
    + pose proof He as (ms&Hef&->)%execute_sub_of. pose proof (history_wf _ _ _ Hh) as Hw.
      destruct (effect_new_cbid _ _ _ _ _ _ _ _ _ _ _ _ Hw Hef Hb) as [Hold|(coll&ex&bps&price&->&->&->&->&?&?&?&?)].
      * eapply cbid_origin_step; [by eapply IH|done].
      * exists st1, st2, v, e, (map erase ms). split_and!; try done.
    + destruct (sudo_orders _ _ _ _ _ _ _ He) as (_&_&E&_). rewrite E in Hb. eapply cbid_origin_step; [by eapply IH|done].
Qed.
Lemma ask_origin_step st st' a a' : ask_origin p x st a -> v1_call p x st st' ->
  k_expires a' = k_expires a -> k_finders a' = k_finders a -> k_seller a' = k_seller a -> k_type a' = k_type a ->
  k_recipient a' = k_recipient a -> k_reserve a' = k_reserve a -> k_coll a' = k_coll a -> k_tok a' = k_tok a -> ask_origin p x st' a'.
Proof.
  intros (st0&st1&v&e&f&c&msgs&H1&H2&H3&H4) H E1 E2 E3 E4 E5 E6 E7 E8. exists st0, st1, v, e, f, c, msgs.
  rewrite E1, E2, E3, E4, E5, E6, E7, E8. split_and!; try naive_solver. by eapply rtc_r.
Qed.
Lemma price_origin_step st st' a a' : price_origin p x st a -> v1_call p x st st' ->
  k_price a' = k_price a -> k_coll a' = k_coll a -> k_tok a' = k_tok a -> price_origin p x st' a'.
Proof.
  intros (st0&st1&v&e&s&f&m&msgs&H1&H2&H3&H4) H E1 E2 E3. exists st0, st1, v, e, s, f, m, msgs.
  rewrite E1, E2, E3. split_and!; try naive_solver. by eapply rtc_r.
Qed.
Lemma asks_have_origin st k a : v1_history p x st -> s_asks st !! k = Some a -> ask_origin p x st a /\ price_origin p x st a.
Proof.
  intros (m0&st0&Hi&H). revert k a. revert st H. refine (rtc_ind_r _ _ _ _); [|intros st1 st2 Hr Hc IH]; intros k a Ha.
  - destruct (empty_start _ _ Hi) as (E&_&_). by rewrite E, lookup_empty in Ha.
  - assert (v1_history p x st1) as Hh by (by exists m0, st0). inversion Hc as [v e s f m msgs Hs He|v e m msgs He].
    + pose proof He as (ms&Hef&->)%execute_sub_of. pose proof (history_wf _ _ _ Hh) as Hw.
      assert (k = (k_coll a, k_tok a)) as Hk.
      { eapply (wf_ask p st2); [|done]. by eapply wf_execute. }
      destruct (effect_new_ask _ _ _ _ _ _ _ _ _ _ _ _ Hw Hef Ha) as
        [(a0&Ha0&E1&E2&E3&E4&E5&E6&Hp)|(c&->&Hpr&_&<-&_&Ho&Hap&Htr&Hmin&Hwin&Hfin&_)].
      * destruct (wf_ask _ _ Hw _ _ Ha0) as (Hk0&_). assert (k_coll a = k_coll a0 /\ k_tok a = k_tok a0) as [Ec Et] by (split; congruence).
        destruct (IH _ _ Ha0) as [I1 I2]. split; [by eapply ask_origin_step|].
        destruct Hp as [Hp|[(c&Hm&Hp) Hmin]]; [by eapply price_origin_step|].
        exists st1, st2, v, e, s, f, m, (map erase ms). rewrite Hk in Hm. cbn [fst snd] in Hm.
        assert (owns v s (k_coll a) (k_tok a)) as Ho by (apply authority in He; by rewrite Hm in He).
        split_and!; try done. right. by exists c.
      * split.
        -- exists st1, st2, v, e, f, c, (map erase ms). rewrite <-Hpr. split_and!; naive_solver.
        -- eexists st1, st2, v, e, (k_seller a), f, _, (map erase ms). split_and!; try done; [lia|]. left. eexists c, _, _, _, _, _. split_and!; [done|done|lia].
    + destruct (sudo_orders _ _ _ _ _ _ _ He) as (E&_). rewrite E in Ha. destruct (IH _ _ Ha) as [I1 I2].
      split; [by eapply ask_origin_step|by eapply price_origin_step].
Qed.
End Final.
