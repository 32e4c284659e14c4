(** The books of marketplace v1 balance. *)
From stdpp Require Import relations pretty.
From Verif Require Import Base BaseFacts Common Chain ChainFacts IndexRange SaleFacts LedgerSpec Ledger V1Model V1Spec V1Facts V1Inv V1Reach
  V1Final V1LedgerSpec.

Section V1Ledger.
Context (p : params) (x : ext).

Lemma no_nft_sells s f m st st' ms : (forall c t w, MNft c t w ∉ ms) -> sells (User s f m st st' ms) = false.
Proof.
  intros H. unfold sells. cbn [e_msgs]. apply not_true_iff_false. intros (y&Hy&E)%existsb_exists.
  destruct y; try done. apply elem_of_list_In in Hy. by eapply H.
Qed.
Lemma nft_sells s f m st st' ms c t w : MNft c t w ∈ ms -> sells (User s f m st st' ms) = true.
Proof. intros H. unfold sells. cbn [e_msgs]. apply existsb_exists. exists (MNft c t w). split; [by apply elem_of_list_In|done]. Qed.
Lemma stars_native d n : coins_of d [native n] = stars d n.
Proof. unfold coins_of, stars, native. cbn [sum_over]. lia. Qed.
Lemma leaving_hooks d hooks : leaving d (hook_msgs hooks) = 0.
Proof. by rewrite leaving_out, out_hooks. Qed.
Lemma pay_sent u d w n : sent_to u d [pay w n] = if decide (w = u) then stars d n else 0.
Proof. unfold sent_to, pay. cbn [sum_over]. rewrite stars_native. case_decide; lia. Qed.
Lemma pay_leaving d w n : leaving d [pay w n] = stars d n.
Proof. unfold leaving, pay. cbn [sum_over]. rewrite stars_native. lia. Qed.
Lemma stars_sub d n r : r <= n -> stars d (n - r) + stars d r = stars d n.
Proof. intros H. unfold stars, of_denom. cbn [c_denom c_amount]. case_decide; lia. Qed.

Lemma bw_amt u d c b : bid_worth u d c b = if decide (b_bidder b = u) then stars d (b_price b) else 0.
Proof. done. Qed.
Lemma cw_amt u d c b : cbid_worth u d c b = if decide (cb_bidder b = u) then stars d (cb_price b) else 0.
Proof. done. Qed.

Ltac reduce_st := cbn [s_asks s_bids s_cbids s_params s_ask_hooks s_bid_hooks s_sale_hooks s_cbid_hooks remove_ask remove_bid remove_cbid
  store_ask store_bid store_cbid set_asks set_bids set_cbids] in *.

Lemma bidding_buyers m ba : bid_call m = Some ba -> buyers m = true.
Proof. by destruct m. Qed.
Lemma bidding_returns u s f m st st' ms ba : bid_call m = Some ba ->
  returns u (User s f m st st' ms) = bool_decide (s = u) && bool_decide (is_Some (s_bids st !! (ba_coll ba, ba_tok ba, u))).
Proof. destruct m; try done; intros [= <-]; done. Qed.
Lemma bidding_reward u d s f m st st' ms ba : bid_call m = Some ba -> rewarded u d (User s f m st st' ms) = 0.
Proof. by destruct m. Qed.
(** A bid of the caller that is returned or replaced first. *)
Lemma refund_books u d st c t s rest : wf p st ->
  (if bool_decide (s = u) && bool_decide (is_Some (s_bids st !! (c, t, u))) then sent_to u d (take 1 (refund_of st c t s ++ rest)) else 0)
  + total (bid_worth u d) (delete (c, t, s) (s_bids st)) = total (bid_worth u d) (s_bids st).
Proof.
  intros Hw. unfold refund_of. destruct (s_bids st !! (c, t, s)) as [b|] eqn:E.
  - rewrite (total_delete (bid_worth u d) _ _ _ E). destruct (wf_bid _ _ Hw _ _ E) as (Hk&_). injection Hk as _ _ Hk.
    rewrite bw_amt, <- Hk. cbn [app take]. rewrite pay_sent. case_bool_decide as H1; cbn [andb].
    + subst u. rewrite E. rewrite bool_decide_eq_true_2 by eauto. case_decide; [lia|done].
    + case_decide; [done|lia].
  - rewrite delete_notin by done. case_bool_decide as H1; [subst u|done]. rewrite E.
    rewrite bool_decide_eq_false_2; [done|]. by intros [? ?].
Qed.
Lemma crefund_books u d st c s rest : wf p st ->
  (if bool_decide (s = u) && bool_decide (is_Some (s_cbids st !! (c, u)))
   then sent_to u d (take 1 (match s_cbids st !! (c, s) with Some o => [pay (cb_bidder o) (cb_price o)] | None => [] end ++ rest)) else 0)
  + total (cbid_worth u d) (delete (c, s) (s_cbids st)) = total (cbid_worth u d) (s_cbids st).
Proof.
  intros Hw. destruct (s_cbids st !! (c, s)) as [b|] eqn:E.
  - rewrite (total_delete (cbid_worth u d) _ _ _ E). destruct (wf_cbid _ _ Hw _ _ E) as (Hk&_). injection Hk as _ Hk.
    rewrite cw_amt, <- Hk. cbn [app take]. rewrite pay_sent. case_bool_decide as H1; cbn [andb].
    + subst u. rewrite E. rewrite bool_decide_eq_true_2 by eauto. case_decide; [lia|done].
    + case_decide; [done|lia].
  - rewrite delete_notin by done. case_bool_decide as H1; [subst u|done]. rewrite E.
    rewrite bool_decide_eq_false_2; [done|]. by intros [? ?].
Qed.

Lemma refund_no st c t s : forall c1 t1 w, MNft c1 t1 w ∉ refund_of st c t s.
Proof. intros. apply refund_no_nft. Qed.
Ltac no_nft :=
  let H := fresh in
  intros ? ? ? H; rewrite ?elem_of_app, ?elem_of_cons, ?elem_of_nil in H; destruct_or?;
  first [done | by eapply hooks_no_nft | by eapply refund_no_nft | idtac].

Lemma effect_books u d v e s f st m st' ms : wf p st -> effect p x v e s f st m st' ms ->
  let h := User s f m st st' (map erase ms) in
  paid_in u d h + in_escrow u d st = paid_back u d h + spent u d h + rewarded u d h + in_escrow u d st'.
Proof.
  intros Hw H. cbv zeta. unfold paid_in, paid_back, spent, own, in_escrow. cbn [e_msgs e_before e_after].
  destruct H; rewrite ?map_app, ?erase_plain; unfold ask_hooks, bid_hooks, cbid_hooks, sale_hooks; rewrite ?erase_hooks; reduce_st.
  - (* SetAsk *)
    cbn [buyers returns rewarded]. rewrite andb_false_r, no_nft_sells; [lia|]. destruct (fee =? 0); no_nft.
  - cbn [buyers returns rewarded]. rewrite andb_false_r, no_nft_sells; [lia|]. no_nft.
  - cbn [buyers returns rewarded]. rewrite andb_false_r, no_nft_sells; [lia|]. no_nft.
  - (* a resting bid *)
    rewrite (bidding_buyers _ _ H), andb_true_r, (bidding_returns _ _ _ _ _ _ _ _ H), (bidding_reward _ _ _ _ _ _ _ _ _ H), gone_same.
    pose proof (refund_books u d st (ba_coll ba) (ba_tok ba) s (hook_msgs (s_bid_hooks st)) Hw) as Hr.
    destruct H0 as [_ _ _ -> _ _ _]. rewrite stars_native.
    rewrite total_insert_new by (cbn; apply lookup_delete). rewrite bw_amt. unfold b. cbn [b_bidder b_price b_coll b_tok].
    rewrite <- Hr. rewrite !gone_same. rewrite no_nft_sells by no_nft. case_bool_decide; case_decide; subst; try done; lia.
  - (* a purchase *)
    rewrite (bidding_buyers _ _ H), andb_true_r, (bidding_returns _ _ _ _ _ _ _ _ H), (bidding_reward _ _ _ _ _ _ _ _ _ H).
    match goal with |- context [take 1 (refund_of _ _ _ _ ++ ?r)] =>
      pose proof (refund_books u d st (ba_coll ba) (ba_tok ba) s r Hw) as Hr end.
    destruct H0 as [_ _ _ -> _ _ _]. rewrite stars_native, (gone_delete (ask_worth d) _ _ _ H1). unfold ask_worth. rewrite H4.
    erewrite nft_sells by (rewrite !elem_of_app; right; left; unfold sold_smsgs; change (map SPlain) with plain_msgs; rewrite erase_plain;
      apply elem_of_app; right; left).
    rewrite <- Hr. case_bool_decide as Hu; cbn [andb]; [lia|].
    rewrite gone_same.
    destruct (s_bids st !! (ba_coll ba, ba_tok ba, s)) as [b|] eqn:E.
    + rewrite (gone_delete (bid_worth u d) _ _ _ E), bw_amt. destruct (wf_bid _ _ Hw _ _ E) as (Hk&_). injection Hk as _ _ Hk.
      rewrite <- Hk. case_decide; [done|lia].
    + rewrite delete_notin, gone_same by done. lia.
  - (* RemoveBid *)
    subst f. cbn [buyers returns rewarded]. rewrite andb_true_r. destruct (wf_bid _ _ Hw _ _ H0) as (Hk&_). injection Hk as _ _ Hk.
    rewrite gone_same, no_nft_sells by no_nft. rewrite (total_delete (bid_worth u d) _ _ _ H0), bw_amt, <- Hk.
    cbn [app take]. rewrite pay_sent. case_bool_decide; case_decide; subst; try done; cbn [coins_of sum_over]; lia.
  - (* AcceptBid *)
    subst f. cbn [buyers returns rewarded]. rewrite andb_false_r.
    erewrite nft_sells by (rewrite !elem_of_app; left; unfold sold_smsgs; change (map SPlain) with plain_msgs; rewrite erase_plain;
      apply elem_of_app; right; left).
    rewrite (gone_delete (bid_worth u d) _ _ _ H2), gone_same, (total_delete (bid_worth u d) _ _ _ H2). lia.
  - (* RejectBid *)
    subst f. cbn [buyers returns rewarded]. rewrite andb_false_r. destruct (wf_bid _ _ Hw _ _ H1) as (Hk&_). injection Hk as _ _ Hk.
    rewrite no_nft_sells by no_nft. rewrite (total_delete (bid_worth u d) _ _ _ H1), bw_amt, <- Hk.
    cbn [app take]. rewrite pay_sent. case_bool_decide; case_decide; subst; try done; lia.
  - (* SetCollectionBid *)
    subst f. cbn [buyers returns rewarded]. rewrite andb_true_r, gone_same.
    pose proof (crefund_books u d st coll s (hook_msgs (s_cbid_hooks st)) Hw) as Hr.
    rewrite stars_native, total_insert_new by (cbn; apply lookup_delete). rewrite cw_amt. unfold b. cbn [cb_bidder cb_price cb_coll].
    rewrite <- Hr. rewrite no_nft_sells by (destruct (s_cbids st !! (coll, s)); no_nft). case_bool_decide; case_decide; subst; try done; lia.
  - (* RemoveCollectionBid *)
    subst f. cbn [buyers returns rewarded]. rewrite andb_true_r. destruct (wf_cbid _ _ Hw _ _ H0) as (Hk&_). injection Hk as _ Hk.
    rewrite gone_same, no_nft_sells by no_nft. rewrite (total_delete (cbid_worth u d) _ _ _ H0), cw_amt, <- Hk.
    cbn [app take]. rewrite pay_sent. case_bool_decide; case_decide; subst; try done; cbn [coins_of sum_over]; lia.
  - (* AcceptCollectionBid *)
    subst f. cbn [buyers returns rewarded]. rewrite andb_false_r.
    erewrite nft_sells by (rewrite !elem_of_app; left; unfold sold_smsgs; change (map SPlain) with plain_msgs; rewrite erase_plain;
      apply elem_of_app; right; left).
    rewrite (gone_delete (cbid_worth u d) _ _ _ H2), gone_same, (total_delete (cbid_worth u d) _ _ _ H2). lia.
  - cbn [buyers returns rewarded]. rewrite andb_false_r, no_nft_sells; [lia|]. no_nft.
  - cbn [buyers returns rewarded]. rewrite andb_false_r, no_nft_sells; [lia|]. no_nft.
  - (* RemoveStaleBid *)
    subst f. cbn [buyers returns rewarded]. rewrite andb_false_r. destruct (wf_bid _ _ Hw _ _ H1) as (Hk&_). injection Hk as _ _ Hk.
    rewrite no_nft_sells by no_nft. rewrite (total_delete (bid_worth u d) _ _ _ H1), bw_amt, <- Hk.
    cbn [app take drop]. rewrite ?take_0, ?drop_0, pay_sent.
    match goal with |- context [leaving d (pay s reward :: ?r)] => change (pay s reward :: r) with ([pay s reward] ++ r) end.
    rewrite leaving_app, leaving_hooks, pay_leaving. pose proof (stars_sub d (b_price b) reward H3).
    case_bool_decide; repeat case_decide; subst; try done; lia.
  - (* RemoveStaleCollectionBid *)
    subst f. cbn [buyers returns rewarded]. rewrite andb_false_r. destruct (wf_cbid _ _ Hw _ _ H1) as (Hk&_). injection Hk as _ Hk.
    rewrite no_nft_sells by no_nft. rewrite (total_delete (cbid_worth u d) _ _ _ H1), cw_amt, <- Hk.
    cbn [app take drop]. rewrite ?take_0, ?drop_0, pay_sent.
    match goal with |- context [leaving d (pay s reward :: ?r)] => change (pay s reward :: r) with ([pay s reward] ++ r) end.
    rewrite leaving_app, leaving_hooks, pay_leaving. pose proof (stars_sub d (cb_price b) reward H3).
    case_bool_decide; repeat case_decide; subst; try done; lia.
Qed.

(** ** Histories *)
Lemma recorded_call st st' h : recorded p x st st' h -> v1_call p x st st'.
Proof. destruct 1; [by eapply call_execute|by eapply call_sudo]. Qed.
Lemma trace_history st l : trace p x st l -> v1_history p x st.
Proof.
  induction 1 as [c st H|st l h st' _ (c&st0&Hi&Hr) H]; [by exists c, st|].
  exists c, st0. split; [done|]. eapply rtc_r; [done|]. by eapply recorded_call.
Qed.
Lemma history_trace st : v1_history p x st -> exists l, trace p x st l.
Proof.
  intros (c&st0&Hi&Hr). assert (trace p x st0 []) as H0 by (by eapply tr_start). clear Hi. revert H0. generalize (@nil entry).
  induction Hr as [st|st st1 st2 H _ IH]; intros l Hl; [by exists l|].
  destruct H as [v e s f m ms Hs H|v e m ms H].
  - eapply IH, tr_next; [exact Hl|]. by eapply rec_user.
  - eapply IH, tr_next; [exact Hl|]. by eapply rec_chain.
Qed.
Lemma trace_entry st l h : trace p x st l -> h ∈ l ->
  exists l0, trace p x (e_before h) l0 /\ recorded p x (e_before h) (e_after h) h.
Proof.
  induction 1 as [c st H|st l h0 st' Ht IH H]; [by intros ?%elem_of_nil|].
  intros [Hh| ->%elem_of_list_singleton]%elem_of_app; [by apply IH|].
  exists l. destruct H as [v e s f m ms Hs H|v e m ms H]; cbn [e_before e_after]; (split; [done|]).
  - by eapply rec_user.
  - by eapply rec_chain.
Qed.
Lemma step_books u d st st' h : v1_history p x st -> recorded p x st st' h ->
  paid_in u d h + in_escrow u d st = paid_back u d h + spent u d h + rewarded u d h + in_escrow u d st'.
Proof.
  intros Hh [v e s f m ms Hs (ms'&H&->)%execute_sub_of|v e m ms (_&E1&E2&->)%sudo_orders].
  - eapply effect_books; [by eapply history_wf|exact H].
  - unfold paid_in, paid_back, spent, own, rewarded, returns, sells, in_escrow. cbn [e_msgs existsb]. rewrite E1, E2. lia.
Qed.
Lemma books u d st l : trace p x st l ->
  sum_over (paid_in u d) l =
  sum_over (paid_back u d) l + sum_over (spent u d) l + sum_over (rewarded u d) l + in_escrow u d st.
Proof.
  induction 1 as [c st H|st l h st' Ht IH H].
  - destruct (empty_start p c st H) as (_&E1&E2). unfold in_escrow. by rewrite E1, E2, !total_empty.
  - rewrite !sum_over_app. cbn [sum_over]. pose proof (step_books u d st st' h (trace_history _ _ Ht) H). lia.
Qed.

(** ** The whole contract *)
Lemma esc_total {K A} `{Countable K} (c : A -> coin) (m : gmap K A) d : esc c m d = total (fun _ b => of_denom d (c b)) m.
Proof.
  induction m as [|k b m Hk IH] using map_ind; [by rewrite esc_empty, total_empty|].
  rewrite esc_insert_new, total_insert_new, IH by done. rewrite <- coins_amt. unfold coins_of. cbn [sum_over]. lia.
Qed.
Lemma all_bids_liab d st : all_bids d st = liab st d.
Proof. unfold all_bids, liab. by rewrite !esc_total. Qed.
Ltac sale Hn := exfalso; eapply Hn; rewrite !elem_of_app; first [left; unfold sold_smsgs; change (map SPlain) with plain_msgs;
    rewrite erase_plain; apply elem_of_app; right; left | right; left; unfold sold_smsgs; change (map SPlain) with plain_msgs;
    rewrite erase_plain; apply elem_of_app; right; left].
Lemma effect_exact v e s f st m st' ms d : wf p st -> effect p x v e s f st m st' ms ->
  (forall c t w, MNft c t w ∉ map erase ms) -> liab st' d + out (map erase ms) d = liab st d + amt f d.
Proof.
  intros Hw H Hn. destruct H; rewrite ?map_app, ?out_app, ?erase_plain in *.
  - unfold ask_hooks. rewrite erase_hooks, out_hooks. change (liab (store_ask st a) d) with (liab st d).
    destruct H8 as [[-> ->]| ->]; [cbn; lia|]. destruct (fee =? 0) eqn:E.
    + apply N.eqb_eq in E. rewrite E. rewrite amt_native. cbn [out]. case_bool_decide; lia.
    + cbn [out out_one]. lia.
  - unfold ask_hooks. rewrite erase_hooks, out_hooks. subst f. change (liab (remove_ask st coll tok) d) with (liab st d). cbn; lia.
  - unfold ask_hooks. rewrite erase_hooks, out_hooks. subst f. cbn. unfold liab. cbn. lia.
  - unfold bid_hooks. rewrite erase_hooks, out_hooks. rewrite (liab_refund st (ba_coll ba) (ba_tok ba) s d).
    destruct H0 as [_ _ _ -> _ _ _]. rewrite liab_store_bid by (cbn; apply lookup_delete). cbn [b b_price]. lia.
  - sale Hn.
  - unfold bid_hooks. rewrite erase_hooks, out_hooks. subst f. rewrite (liab_remove_bid _ _ _ _ _ d H0). cbn [out out_one pay amt]. lia.
  - sale Hn.
  - unfold bid_hooks. rewrite erase_hooks, out_hooks. subst f. rewrite (liab_remove_bid _ _ _ _ _ d H1). cbn [out out_one pay amt]. lia.
  - unfold cbid_hooks. rewrite erase_hooks, out_hooks. subst f.
    rewrite liab_store_cbid by (cbn; apply lookup_delete). cbn [b cb_price].
    destruct (s_cbids st !! (coll, s)) as [o|] eqn:E.
    + rewrite (liab_remove_cbid _ _ _ _ d E). cbn [out out_one pay]. lia.
    + rewrite remove_cbid_none by done. cbn [out]. lia.
  - unfold cbid_hooks. rewrite erase_hooks, out_hooks. subst f. rewrite (liab_remove_cbid _ _ _ _ d H0). cbn [out out_one pay amt]. lia.
  - sale Hn.
  - unfold ask_hooks. rewrite erase_hooks, out_hooks. subst f. cbn. unfold liab. cbn. lia.
  - unfold ask_hooks. rewrite erase_hooks, out_hooks. subst f. change (liab (remove_ask st coll tok) d) with (liab st d). cbn; lia.
  - unfold bid_hooks. rewrite erase_hooks, out_hooks. subst f. rewrite (liab_remove_bid _ _ _ _ _ d H1). unfold pay.
    cbn [out out_one]. rewrite !amt_native. cbn [amt]. case_bool_decide; lia.
  - unfold cbid_hooks. rewrite erase_hooks, out_hooks. subst f. rewrite (liab_remove_cbid _ _ _ _ d H1). unfold pay.
    cbn [out out_one]. rewrite !amt_native. cbn [amt]. case_bool_decide; lia.
Qed.
Lemma step_contract d st st' h : v1_history p x st -> recorded p x st st' h ->
  exists dust, dust <= sale_count h /\ comes_in d h + all_bids d st = goes_out d h + all_bids d st' + dust.
Proof.
  intros Hh [v e s f m ms Hs (ms'&H&->)%execute_sub_of|v e m ms (_&E1&E2&->)%sudo_orders].
  - pose proof (history_wf _ _ _ Hh) as Hw. unfold comes_in, goes_out, sale_count. cbn [e_msgs]. rewrite !all_bids_liab, coins_amt, leaving_out.
    destruct (sells (User s f m st st' (map erase ms'))) eqn:E.
    + destruct (effect_balanced p x v e s f st m st' ms' d Hw H) as [Hb|[_ Hb]]; [exists 0|exists 1]; split; lia.
    + exists 0. split; [lia|]. rewrite N.add_0_r. rewrite (N.add_comm (amt f d)), <- (effect_exact v e s f st m st' ms' d Hw H); [lia|].
      intros c t w Hin. by rewrite (nft_sells s f m st st' _ c t w Hin) in E.
  - exists 0. unfold comes_in, goes_out, sale_count, sells, all_bids. cbn [e_msgs existsb]. rewrite E1, E2. split; [lia|]. cbn. lia.
Qed.
Lemma contract_books d st l : trace p x st l ->
  exists dust, dust <= sum_over sale_count l /\ sum_over (comes_in d) l = sum_over (goes_out d) l + all_bids d st + dust.
Proof.
  induction 1 as [c st H|st l h st' Ht (n&Hn&IH) H].
  - destruct (empty_start p c st H) as (_&E1&E2). exists 0. unfold all_bids. by rewrite E1, E2, !total_empty.
  - destruct (step_contract d st st' h (trace_history _ _ Ht) H) as (k&Hk&Hs). exists (n + k).
    rewrite !sum_over_app. cbn [sum_over]. lia.
Qed.

(** ** What the coins are spent on *)
Lemma own_purchase st l h u : trace p x st l -> h ∈ l -> own u h = true ->
  (sells h = false /\ forall d, spent u d h = 0) \/ exists a, purchase u h a /\ forall d, spent u d h = stars d (k_price a).
Proof.
  intros Ht Hin Ho. destruct (trace_entry _ _ _ Ht Hin) as (l0&Ht0&Hr). clear Ht Hin.
  destruct h as [s f m st0 st1 ms|]; [|done]. cbn [e_before e_after] in *. inversion Hr as [v e ? ? ? ? Hs He|]. subst. clear Hr.
  pose proof (history_wf _ _ _ (trace_history _ _ Ht0)) as Hw. apply execute_sub_of in He as (ms'&H&->).
  unfold spent. rewrite Ho. unfold own in Ho. apply andb_prop in Ho as [Hu%bool_decide_eq_true Hm]. subst s.
  cbn [e_before e_after]. unfold purchase.
  destruct H; try discriminate Hm; rewrite ?map_app, ?erase_plain; unfold ask_hooks, bid_hooks, cbid_hooks, sale_hooks; rewrite ?erase_hooks; reduce_st.
  - left. split; [apply no_nft_sells; no_nft|]. intros d. apply gone_same.
  - right. exists a. destruct (wf_ask _ _ Hw _ _ H1) as (Hk&_). rewrite <- Hk. split.
    + split; [done|]. split; [done|]. split; [done|]. destruct H0 as [_ _ _ -> _ _ _]. split; [by rewrite H4|].
      rewrite !elem_of_app. right; left. unfold sold_smsgs. change (map SPlain) with plain_msgs. rewrite erase_plain.
      apply elem_of_app. right. apply elem_of_list_singleton. unfold tok_str. f_equal.
      destruct m; try done; injection H as <-; done.
    + intros d. by rewrite (gone_delete (ask_worth d) _ _ _ H1).
  - left. split; [apply no_nft_sells; no_nft|]. intros d. apply gone_same.
  - left. split; [|intros d; apply gone_same]. apply no_nft_sells. destruct (s_cbids st0 !! (coll, u)); no_nft.
  - left. split; [apply no_nft_sells; no_nft|]. intros d. apply gone_same.
Qed.
Lemma sale_of_leaves v st coll tok price sto bto finder bps ms : sale_of x v st coll tok price sto bto finder bps ms ->
  MNft coll (tok_str tok) bto ∈ ms /\
  exists dust, dust <= 1 /\ forall d, leaving d ms + stars d dust = stars d price.
Proof.
  intros (ci&_&Hf&->). split; [rewrite !elem_of_app; right; left; apply elem_of_list_singleton; done|].
  set (sp := split_of (sp_trading_fee (s_params st)) price finder bps (ci_royalty ci)) in *.
  assert (forall d, leaving d (split_msgs x sp finder sto ++ [MNft coll (pretty tok) bto] ++ hook_msgs (s_sale_hooks st)) =
    stars d (split_sum sp)) as E.
  { intros d. rewrite !leaving_app, leaving_hooks, leaving_out, out_split by (intros ->; apply split_none).
    unfold stars, of_denom, leaving. cbn [c_denom c_amount sum_over]. case_bool_decide; case_decide; try done; lia. }
  destruct (fits_sum _ _ Hf) as [E1|E1]; [exists 0|exists 1]; (split; [lia|]); intros d; rewrite E, <- E1;
    unfold stars, of_denom; cbn [c_denom c_amount]; case_decide; lia.
Qed.
Lemma hooks_sells s f m st st' y hooks : (forall c t w, y <> MNft c t w) -> sells (User s f m st st' (y :: hook_msgs hooks)) = false.
Proof. intros Hy. apply no_nft_sells. intros c t w [<-|Hin]%elem_of_cons; [by eapply Hy|by eapply hooks_no_nft]. Qed.
(** How a bid leaves the book in a call that is not one of its bidder's own. *)
Lemma bid_left st l h k b : trace p x st l -> h ∈ l -> own (b_bidder b) h = false ->
  s_bids (e_before h) !! k = Some b -> s_bids (e_after h) !! k = None ->
  if sells h
  then MNft (b_coll b) (tok_str (b_tok b)) (b_bidder b) ∈ e_msgs h /\
       exists dust, dust <= 1 /\ forall d, leaving d (e_msgs h) + stars d dust = stars d (b_price b)
  else exists reward, (reward = 0 \/ reward = b_price b * sp_reward (s_params (e_before h)) / 10 ^ 20) /\ reward <= b_price b /\
       forall d, paid_back (b_bidder b) d h = stars d (b_price b - reward) /\ rewarded (b_bidder b) d h = stars d reward.
Proof.
  intros Ht Hin Ho Hb Hg. destruct (trace_entry _ _ _ Ht Hin) as (l0&Ht0&Hr). clear Ht Hin.
  pose proof (history_wf _ _ _ (trace_history _ _ Ht0)) as Hw.
  destruct h as [s f m st0 st1 ms|m st0 st1 ms]; cbn [e_before e_after e_msgs] in *.
  2:{ inversion Hr as [|v e ? ? Hs]. subst. apply sudo_orders in Hs as (_&E&_). by rewrite E, Hb in Hg. }
  inversion Hr as [v e ? ? ? ? Hs He|]. subst. clear Hr. apply execute_sub_of in He as (ms'&H&->).
  destruct (effect_bid p x v e s f st0 m st1 ms' k b Hw H Hb) as [_ Hf]. rewrite Hg in Hf.
  unfold own in Ho. inversion Hf as [E|ba b' Hm H1 H2 Hs' _ _ E|Hm Hs' _|Hm _ E|fd Hm _ _ Hsale|rw Hm _ _ Erw Hle E].
  - subst s. rewrite bool_decide_eq_true_2 in Ho by done. by rewrite (bidding_buyers _ _ Hm) in Ho.
  - subst s m. by rewrite bool_decide_eq_true_2 in Ho by done.
  - rewrite E, hooks_sells by done. exists 0. split; [by left|]. split; [lia|]. intros d.
    unfold paid_back, rewarded. subst m. cbn [returns e_msgs]. rewrite bool_decide_eq_true_2 by done. cbn [take]. rewrite ?take_0, pay_sent.
    rewrite decide_True by done. rewrite N.sub_0_r. split; [done|]. unfold stars, of_denom. by destruct (decide _).
  - destruct (sale_of_leaves _ _ _ _ _ _ _ _ _ _ Hsale) as [Hn Hl]. by rewrite (nft_sells _ _ _ _ _ _ _ _ _ Hn).
  - rewrite no_nft_sells by (rewrite E; no_nft). rewrite E. exists rw. split; [by right|]. split; [done|]. intros d.
    unfold paid_back, rewarded. subst m. cbn [returns e_msgs app take drop]. rewrite bool_decide_eq_true_2 by done.
    rewrite ?take_0, ?drop_0, pay_sent. rewrite !decide_True by done. split; [done|].
    change (pay s rw :: ?r) with ([pay s rw] ++ r). rewrite leaving_app, leaving_hooks, pay_leaving. lia.
Qed.
Lemma cbid_left st l h k b : trace p x st l -> h ∈ l -> own (cb_bidder b) h = false ->
  s_cbids (e_before h) !! k = Some b -> s_cbids (e_after h) !! k = None ->
  if sells h
  then (exists t, MNft (cb_coll b) (tok_str t) (cb_bidder b) ∈ e_msgs h) /\
       exists dust, dust <= 1 /\ forall d, leaving d (e_msgs h) + stars d dust = stars d (cb_price b)
  else exists reward, (reward = 0 \/ reward = cb_price b * sp_reward (s_params (e_before h)) / 10 ^ 20) /\ reward <= cb_price b /\
       forall d, paid_back (cb_bidder b) d h = stars d (cb_price b - reward) /\ rewarded (cb_bidder b) d h = stars d reward.
Proof.
  intros Ht Hin Ho Hb Hg. destruct (trace_entry _ _ _ Ht Hin) as (l0&Ht0&Hr). clear Ht Hin.
  pose proof (history_wf _ _ _ (trace_history _ _ Ht0)) as Hw.
  destruct h as [s f m st0 st1 ms|m st0 st1 ms]; cbn [e_before e_after e_msgs] in *.
  2:{ inversion Hr as [|v e ? ? Hs]. subst. apply sudo_orders in Hs as (_&_&E&_). by rewrite E, Hb in Hg. }
  inversion Hr as [v e ? ? ? ? Hs He|]. subst. clear Hr. apply execute_sub_of in He as (ms'&H&->).
  destruct (effect_cbid p x v e s f st0 m st1 ms' k b Hw H Hb) as [_ Hf]. rewrite Hg in Hf.
  unfold own in Ho. inversion Hf as [E|? ? ? ? ? ? E|Hm Hs' _|t fd Hm _ _ Hsale|rw Hm _ _ Erw Hle E].
  - subst s m. by rewrite bool_decide_eq_true_2 in Ho by done.
  - destruct (sale_of_leaves _ _ _ _ _ _ _ _ _ _ Hsale) as [Hn Hl]. rewrite (nft_sells _ _ _ _ _ _ _ _ _ Hn). split; [by exists t|done].
  - rewrite no_nft_sells by (rewrite E; no_nft). rewrite E. exists rw. split; [by right|]. split; [done|]. intros d.
    unfold paid_back, rewarded. subst m. cbn [returns e_msgs app take drop]. rewrite bool_decide_eq_true_2 by done.
    rewrite ?take_0, ?drop_0, pay_sent. rewrite !decide_True by done. split; [done|]. by rewrite pay_leaving.
Qed.
End V1Ledger.
