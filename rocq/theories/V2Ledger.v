(** The books of marketplace v2 balance over every history. *)
From stdpp Require Import relations.
From Verif Require Import Base BaseFacts Common Chain ChainFacts SaleFacts LedgerSpec Ledger V2Model V2Spec V2Facts V2Match V2Inv V2Reach
  V2Sale V2Trade V2Book V2Auth V2LedgerSpec.

Section V2Ledger.
Context (p : params).

Lemma of_denom_amt d c : of_denom d c = amt [c] d.
Proof. unfold of_denom. cbn [amt]. case_decide; case_bool_decide; try done; lia. Qed.

(** ** Parts of a response *)
Lemma reg_no_nft v cfg a mb f reg ps : sale_msgs p v cfg a mb f reg ps ->
  Forall (fun m => is_nft m = false) (reg ++ (pay_msg <$> ps)).
Proof.
  intros H. apply Forall_app. split.
  - destruct (sale_msgs_reg _ _ _ _ _ _ _ _ H) as [-> | ->]; repeat constructor.
  - apply Forall_fmap, Forall_forall. intros x _. done.
Qed.
Lemma refund_no_nft s fs : Forall (fun m => is_nft m = false) (refund s fs).
Proof. unfold refund. destruct (nb_is_empty fs); repeat constructor. Qed.
Lemma refund_sent u d s fs : sent_to u d (refund s fs) = if decide (s = u) then amt fs d else 0.
Proof.
  unfold refund. destruct (nb_is_empty fs) eqn:E.
  - rewrite (nb_is_empty_amt _ d E). by case_decide.
  - unfold sent_to. cbn [sum_over]. rewrite coins_amt. case_decide; lia.
Qed.
Lemma refund_after u d s fs : sent_to u d (after_nft (refund s fs)) = if decide (s = u) then amt fs d else 0.
Proof. rewrite after_nft_none by apply refund_no_nft. apply refund_sent. Qed.
Lemma refund_upto d s fs : leaving d (upto_nft (refund s fs)) = 0.
Proof. by rewrite upto_nft_none by apply refund_no_nft. Qed.
Lemma sale_after u d reg (ps : list payment) c t to s fs :
  sent_to u d (after_nft (reg ++ (pay_msg <$> ps) ++ MNft c t to :: refund s fs)) = if decide (s = u) then amt fs d else 0.
Proof. rewrite app_assoc, after_nft_app by apply refund_no_nft. apply refund_sent. Qed.
Lemma sale_upto v cfg a mb f d reg ps c t to s fs : sale_msgs p v cfg a mb f reg ps ->
  leaving d (upto_nft (reg ++ (pay_msg <$> ps) ++ MNft c t to :: refund s fs)) = amt [sale_price a mb f] d.
Proof.
  intros H. rewrite app_assoc, upto_nft_app by apply refund_no_nft. rewrite leaving_app, !leaving_out.
  rewrite (sale_msgs_amt p _ _ _ _ _ _ _ d H). cbn [out out_one]. lia.
Qed.

(** ** One call for one buyer *)
Section Step.
Context (u : addr) (d : denom).
Notation bw := (bid_worth u d).
Notation cw := (cbid_worth u d).
Lemma bw_amt i b : bw i b = if decide (b_creator b = u) then amt [d_price (b_det b)] d else 0.
Proof. unfold bid_worth. by rewrite of_denom_amt. Qed.
Lemma cw_amt i b : cw i b = if decide (cb_creator b = u) then amt [d_price (cb_det b)] d else 0.
Proof. unfold cbid_worth. by rewrite of_denom_amt. Qed.

Ltac entry_simpl := unfold paid_in, paid_back, spent, own, in_escrow; cbn [en_by en_funds en_msg en_before en_after en_msgs].
Ltac by_owner := destruct (decide (_ = u)) as [?|?];
  [rewrite bool_decide_eq_true_2 by done|rewrite bool_decide_eq_false_2 by done]; cbn [andb].

(** A resting bid is sold into by somebody else. *)
Lemma taken_books sender funds m st a mb msgs : bid_side m = false ->
  match mb with MBid b => s_bids st !! b_id b = Some b | MCBid cb => s_cbids st !! cb_id cb = Some cb end ->
  let h := Entry sender funds m st (sale_state st a mb) msgs in
  paid_in u d h + in_escrow u d st = paid_back u d h + spent u d h + in_escrow u d (sale_state st a mb).
Proof.
  intros Hm Hr h. subst h. entry_simpl. rewrite Hm, andb_false_r. destruct mb as [b|b]; cbn [sale_state s_bids s_cbids].
  - rewrite (gone_delete bw _ _ _ Hr), gone_same, (total_delete bw _ _ _ Hr). lia.
  - rewrite (gone_delete cw _ _ _ Hr), gone_same, (total_delete cw _ _ _ Hr). lia.
Qed.
Lemma quiet_books sender funds m st st' msgs : bid_side m = false -> s_bids st' = s_bids st -> s_cbids st' = s_cbids st ->
  let h := Entry sender funds m st st' msgs in
  paid_in u d h + in_escrow u d st = paid_back u d h + spent u d h + in_escrow u d st'.
Proof.
  intros Hm E1 E2 h. subst h. entry_simpl. rewrite Hm, andb_false_r, E1, E2, !gone_same. lia.
Qed.

Lemma effect_books v e sender funds st m st' msgs :
  wf p st -> fresh_ids p e st m -> effect p v e sender funds st m st' msgs ->
  let h := Entry sender funds m st st' msgs in
  paid_in u d h + in_escrow u d st = paid_back u d h + spent u d h + in_escrow u d st'.
Proof.
  intros Hwf Hfresh H. destruct H; intros h; subst h.
  - apply quiet_books; [by destruct m|done..].
  - by apply quiet_books.
  - apply taken_books; [by destruct H; subst|by eapply match_with_bid_stored].
  - by apply quiet_books.
  - apply taken_books; [done|by eapply match_with_bid_stored].
  - by apply quiet_books.
  - (* accept ask *)
    apply nb_normalize_amt with (d := d) in H2. apply nb_sub_amt with (d := d) in H3.
    pose proof (sale_upto _ _ _ _ _ d _ _ (a_coll a) (a_tok a) (bid_recipient b) sender fs H4) as Hu. unfold sale_price in Hu.
    assert (s_bids st !! b_id b = None) as Hf by (apply Hfresh; cbn; by rewrite H0).
    entry_simpl. cbn [bid_side sale_state s_bids s_cbids set_nonce]. rewrite (delete_notin _ _ Hf), !gone_same, Hu, sale_after, coins_amt.
    by_owner; lia.
  - apply nb_normalize_amt with (d := d) in H4. apply nb_sub_amt with (d := d) in H6.
    pose proof (sale_upto _ _ _ _ _ d _ _ (a_coll a) (a_tok a) (bid_recipient b) sender fs H7) as Hu. unfold sale_price in Hu.
    assert (s_bids st !! b_id b = None) as Hf by (apply Hfresh; by destruct H; subst).
    assert (bid_side m = true) as Hm by (by destruct H; subst).
    entry_simpl. rewrite Hm. cbn [sale_state s_bids s_cbids set_nonce]. rewrite (delete_notin _ _ Hf), !gone_same, Hu, sale_after, coins_amt.
    by_owner; lia.
  - apply nb_normalize_amt with (d := d) in H3. apply nb_sub_amt with (d := d) in H5.
    entry_simpl. cbn [bid_side set_bids set_nonce s_bids s_cbids].
    rewrite gone_insert, gone_same, refund_after, refund_upto, coins_amt, total_insert_new by done.
    rewrite bw_amt. cbn [b_creator b_det]. subst b. unfold bid_new. cbn [b_creator b_det]. by_owner; lia.
  - apply nb_normalize_amt with (d := d) in H3. apply nb_add_amt with (d := d) in H4. apply nb_sub_amt with (d := d) in H6.
    pose proof (sale_upto _ _ _ _ _ d _ _ (a_coll a) (a_tok a) (bid_recipient b) sender fs H7) as Hu. unfold sale_price in Hu.
    destruct (wf_bid _ _ Hwf _ _ H0) as (Hid&_). subst b. cbn [b_id] in *. rewrite Hid.
    entry_simpl. cbn [bid_side sale_state s_bids s_cbids b_id]. rewrite (gone_delete bw _ _ _ H0), gone_same.
    rewrite Hid in Hu. rewrite Hu, sale_after, coins_amt, (total_delete bw _ _ _ H0), bw_amt. rewrite <- H1. by_owner; lia.
  - apply nb_normalize_amt with (d := d) in H3. apply nb_add_amt with (d := d) in H4. apply nb_sub_amt with (d := d) in H6.
    destruct (wf_bid _ _ Hwf _ _ H0) as (Hid&_). subst b. cbn [b_id] in *. rewrite Hid.
    entry_simpl. cbn [bid_side set_bids s_bids s_cbids].
    rewrite gone_insert, gone_same, refund_after, refund_upto, coins_amt.
    pose proof (total_put bw _ id b0 (Bid id (b_creator b0) (b_coll b0) (b_tok b0) d0) H0) as Ht. rewrite !bw_amt in Ht.
    cbn [b_creator b_det] in Ht. rewrite <- H1 in Ht |- *. revert Ht. by_owner; intros Ht; lia.
  - subst funds. destruct (wf_bid _ _ Hwf _ _ H0) as (Hid&_). rewrite Hid.
    entry_simpl. cbn [bid_side set_bids s_bids s_cbids]. rewrite (gone_delete bw _ _ _ H0), gone_same, (total_delete bw _ _ _ H0), bw_amt.
    rewrite after_nft_none, upto_nft_none by (repeat constructor). unfold sent_to, leaving. cbn [sum_over]. rewrite !coins_amt.
    rewrite <- H1. by_owner; cbn [amt]; lia.
  - destruct (wf_bid _ _ Hwf _ _ H0) as (Hid&_). apply taken_books; [done|]. by rewrite Hid.
  - apply nb_normalize_amt with (d := d) in H4. apply nb_sub_amt with (d := d) in H6.
    pose proof (sale_upto _ _ _ _ _ d _ _ (a_coll a) (a_tok a) (cbid_recipient cb) sender fs H7) as Hu. unfold sale_price in Hu.
    assert (s_cbids st !! cb_id cb = None) as Hf by (apply Hfresh; by destruct H; subst).
    assert (bid_side m = true) as Hm by (by destruct H; subst).
    entry_simpl. rewrite Hm. cbn [sale_state s_bids s_cbids set_nonce]. rewrite (delete_notin _ _ Hf), !gone_same, Hu, sale_after, coins_amt.
    by_owner; lia.
  - apply nb_normalize_amt with (d := d) in H3. apply nb_sub_amt with (d := d) in H5.
    entry_simpl. cbn [bid_side set_cbids set_nonce s_bids s_cbids].
    rewrite gone_insert, gone_same, refund_after, refund_upto, coins_amt, (total_insert_new cw) by done.
    rewrite cw_amt. subst cb. unfold cbid_new. cbn [cb_creator cb_det]. by_owner; lia.
  - apply nb_normalize_amt with (d := d) in H3. apply nb_add_amt with (d := d) in H4. apply nb_sub_amt with (d := d) in H6.
    pose proof (sale_upto _ _ _ _ _ d _ _ (a_coll a) (a_tok a) (cbid_recipient cb) sender fs H7) as Hu. unfold sale_price in Hu.
    destruct (wf_cbid _ _ Hwf _ _ H0) as (Hid&_). subst cb. cbn [cb_id] in *. rewrite Hid.
    entry_simpl. cbn [bid_side sale_state s_bids s_cbids cb_id]. rewrite (gone_delete cw _ _ _ H0), gone_same.
    rewrite Hid in Hu. rewrite Hu, sale_after, coins_amt, (total_delete cw _ _ _ H0), cw_amt. rewrite <- H1. by_owner; lia.
  - apply nb_normalize_amt with (d := d) in H3. apply nb_add_amt with (d := d) in H4. apply nb_sub_amt with (d := d) in H6.
    destruct (wf_cbid _ _ Hwf _ _ H0) as (Hid&_). subst cb. cbn [cb_id] in *. rewrite Hid.
    entry_simpl. cbn [bid_side set_cbids s_bids s_cbids].
    rewrite gone_insert, gone_same, refund_after, refund_upto, coins_amt.
    pose proof (total_put cw _ id cb0 (CBid id (cb_creator cb0) (cb_coll cb0) d0) H0) as Ht. rewrite !cw_amt in Ht.
    cbn [cb_creator cb_det] in Ht. rewrite <- H1 in Ht |- *. revert Ht. by_owner; intros Ht; lia.
  - subst funds. destruct (wf_cbid _ _ Hwf _ _ H0) as (Hid&_). rewrite Hid.
    entry_simpl. cbn [bid_side set_cbids s_bids s_cbids]. rewrite (gone_delete cw _ _ _ H0), gone_same, (total_delete cw _ _ _ H0), cw_amt.
    rewrite after_nft_none, upto_nft_none by (repeat constructor). unfold sent_to, leaving. cbn [sum_over]. rewrite !coins_amt.
    rewrite <- H1. by_owner; cbn [amt]; lia.
  - destruct (wf_cbid _ _ Hwf _ _ H0) as (Hid&_). apply taken_books; [done|]. by rewrite Hid.
Qed.
End Step.

(** ** Histories *)
Lemma trace_history st l : trace p st l -> v2_history p (length l) st.
Proof.
  induction 1 as [c st H|st l v e s f m st' ms _ (c&st0&Hi&Hn) Hs H].
  - exists c, st. split; [done|constructor].
  - exists c, st0. split; [done|]. rewrite app_length, Nat.add_comm. cbn [length Nat.add].
    eapply nsteps_r; [exact Hn|]. by exists v, e, s, f, m, ms.
Qed.
Lemma history_trace n st : v2_history p n st -> exists l, trace p st l /\ length l = n.
Proof.
  intros (c&st0&Hi&Hn). assert (trace p st0 []) as Ht by (by eapply tr_start). clear Hi.
  enough (forall l, trace p st0 l -> exists l', trace p st l' /\ length l' = (length l + n)%nat) as Hg by (by apply (Hg [])).
  clear Ht. induction Hn as [st|n st st1 st2 (v&e&s&f&m&ms&Hs&H) _ IH]; intros l Hl.
  - exists l. by rewrite Nat.add_0_r.
  - destruct (IH (l ++ [Entry s f m st st1 ms])) as (l'&Hl'&E); [by eapply tr_next|].
    exists l'. split; [done|]. rewrite app_length in E. cbn [length] in E. lia.
Qed.
Lemma step_books u d st l v e s f m st' ms :
  collision_free p -> N.of_nat (length l) < U64_MAX -> trace p st l -> execute p v e s f st m = Ok (st', ms) ->
  let h := Entry s f m st st' ms in
  paid_in u d h + in_escrow u d st = paid_back u d h + spent u d h + in_escrow u d st'.
Proof.
  intros Hc Hn Ht H. apply trace_history in Ht. eapply effect_books; [by eapply history_wf|by eapply history_fresh|by apply execute_effect].
Qed.
Lemma empty_orders c st : instantiate p c = Ok st -> s_bids st = ∅ /\ s_cbids st = ∅.
Proof.
  unfold instantiate. intros H. repeat (apply bind_Ok in H as (?&_&H)). injection H as <-. done.
Qed.
Lemma books u d st l : collision_free p -> N.of_nat (length l) < U64_MAX -> trace p st l ->
  sum_over (paid_in u d) l = sum_over (paid_back u d) l + sum_over (spent u d) l + in_escrow u d st.
Proof.
  intros Hc Hn Ht. induction Ht as [c st H|st l v e s f m st' ms Ht IH Hs H].
  - destruct (empty_orders _ _ H) as [E1 E2]. unfold in_escrow. by rewrite E1, E2, !total_empty.
  - rewrite app_length in Hn. cbn [length] in Hn. rewrite !sum_over_app. cbn [sum_over].
    pose proof (step_books u d st l v e s f m st' ms Hc ltac:(lia) Ht H) as Hb. cbv zeta in Hb. specialize (IH ltac:(lia)). lia.
Qed.

(** ** The whole contract *)
Lemma in_denom_of d c : in_denom d c = of_denom d c.
Proof. done. Qed.
Lemma all_bids_escrow d st : all_bids d st = escrow st d.
Proof. done. Qed.
Lemma contract_books d st l : collision_free p -> N.of_nat (length l) < U64_MAX -> trace p st l ->
  sum_over (comes_in d) l = sum_over (goes_out d) l + all_bids d st + sum_over (stray d) l.
Proof.
  intros Hc Hn Ht. induction Ht as [c st H|st l v e s f m st' ms Ht IH Hs H].
  - destruct (empty_orders _ _ H) as [E1 E2]. unfold all_bids. by rewrite E1, E2, !total_empty.
  - rewrite app_length in Hn. cbn [length] in Hn. rewrite !sum_over_app. cbn [sum_over]. specialize (IH ltac:(lia)).
    pose proof (history_conservation p (length l) st v e s f m st' ms d Hc ltac:(lia) (trace_history _ _ Ht) H) as Hb.
    rewrite paid_out_out, coins_in_amt, <- (all_bids_escrow d st), <- (all_bids_escrow d st'), <- leaving_out, <- coins_amt in Hb.
    unfold comes_in, goes_out, stray in IH |- *. cbn [en_funds en_msgs en_msg]. destruct m; cbn [no_coin_call] in Hb; cbv iota; lia.
Qed.

(** ** What is bought *)
Lemma entry_call st l h : trace p st l -> h ∈ l ->
  exists l0 v e, trace p (en_before h) l0 /\ (length l0 < length l)%nat /\ en_by h <> p_self p /\
    execute p v e (en_by h) (en_funds h) (en_before h) (en_msg h) = Ok (en_after h, en_msgs h).
Proof.
  induction 1 as [c st H|st l v e s f m st' ms Ht IH Hs H]; [by intros ?%elem_of_nil|].
  intros [Hh|Hh%elem_of_list_singleton]%elem_of_app.
  - destruct (IH Hh) as (l0&v0&e0&H1&H2&H3). exists l0, v0, e0. split; [done|]. split; [rewrite app_length; cbn [length]; lia|done].
  - subst h. exists l, v, e. cbn. split; [done|]. split; [rewrite app_length; cbn [length]; lia|done].
Qed.
Lemma leaving_sends d dn ps : leaving d (send_one dn <$> ps) = if decide (dn = d) then total_dues ps else 0.
Proof.
  unfold leaving. induction ps as [|x ps IH]; [by case_decide|]. cbn [fmap list_fmap sum_over]. rewrite IH.
  unfold send_one at 1, coins_of. cbn [sum_over]. unfold of_denom. cbn [c_denom c_amount]. unfold total_dues. cbn [map fold_right].
  case_decide; lia.
Qed.
Lemma sends_price d v cfg a mb f : total_dues (sale_dues p v cfg a mb f) <= c_amount (trade_price a mb f) ->
  leaving d (send_one (c_denom (trade_price a mb f)) <$> sale_payments p v cfg a mb f) = of_denom d (trade_price a mb f).
Proof. intros H. rewrite leaving_sends, (sale_payments_total p _ _ _ _ _ H). done. Qed.
Lemma forwards_no_nft cfg funds m coll pre : forwards cfg funds m coll pre -> Forall (fun m => is_nft m = false) pre.
Proof.
  intros (fee&reg&->&Hf&Hr). apply Forall_app. split.
  - destruct Hf as [[_ ->]|[_ ->]]; repeat constructor.
  - destruct Hr as [-> | ->]; repeat constructor.
Qed.
Lemma change_no_nft s back : change_to s back -> Forall (fun m => is_nft m = false) back.
Proof. intros [->|(cs&->&_)]; repeat constructor. Qed.
Lemma own_purchase st l h u : trace p st l -> h ∈ l -> own u h = true ->
  upto_nft (en_msgs h) = [] \/ exists a, purchase u h a.
Proof.
  intros Ht Hh Ho. destruct (entry_call _ _ _ Ht Hh) as (l0&v&e&Ht0&_&_&He).
  destruct h as [s f m st0 st1 ms]. unfold own in Ho. cbn [en_by en_funds en_msg en_before en_after en_msgs] in *.
  apply andb_prop in Ho as [Hu%bool_decide_eq_true Hm]. subst s. clear Hh Ht.
  pose proof (history_wf _ _ _ (trace_history _ _ Ht0)) as Hwf. apply execute_effect in He.
  apply effect_sale_or_not in He as [(_&_&Hn)|(a&mb&fl&pre&post&Hr)]; [| |done].
  - left. apply upto_nft_none, Forall_forall. intros x Hx. destruct Hn as [Hn|[(i&->)|(c&t&d&->&_)]]; [|done|done].
    destruct x; try done. by apply Hn in Hx.
  - right. exists a. destruct Hr as [Htr Hms Hpre Hpost Hpos Hdues Hasks _ _ _ _ _ _].
    assert (fl = true /\ s_asks st0 !! a_id a = Some a /\ exists dt, named m = Some dt /\ nft_to mb = to_whom u dt) as (->&Ha&dt&Hdt&Hto).
    { destruct Htr; destruct_or?; subst; try done; (split; [done|]; split; [|by eexists]); try done.
      by destruct (wf_ask _ _ Hwf _ _ H) as (->&_). }
    unfold purchase. cbn [en_msg en_before en_after en_msgs]. rewrite Hasks, lookup_delete.
    split; [done|]. split; [done|].
    assert (upto_nft ms = (pre ++ (send_one (c_denom (trade_price a mb true)) <$> sale_payments p v (s_config st0) a mb true))
                          ++ [MNft (a_coll a) (a_tok a) (nft_to mb)]) as Hup.
    { rewrite Hms, app_assoc. apply upto_nft_app. by eapply change_no_nft. }
    split.
    + intros d. rewrite Hup, !leaving_app, (sends_price d _ _ _ _ _ Hdues). unfold trade_price.
      assert (leaving d pre = 0) as ->.
      { destruct Hpre as (fee&reg&->&Hf&Hrg). rewrite leaving_app.
        destruct Hf as [[(c&t&dd&[->| ->]) _]|[_ ->]]; [done|done|]. by destruct Hrg as [-> | ->]. }
      unfold leaving. cbn [sum_over]. lia.
    + exists dt. split; [done|]. by rewrite Hup, last_snoc, Hto.
Qed.

(** ** What is sold into *)
Lemma listing_paid_rule v e s f st m st' ms d : wf p st -> effect p v e s f st m st' ms -> bid_side m = false ->
  (if no_coin_call m then 0 else coins_in f d) = listing_paid d (Entry s f m st st' ms) .
Proof.
  intros Hwf H Hm. unfold listing_paid. cbn [en_msg en_funds].
  assert (coins_in f d = coins_of d f) as -> by (by rewrite coins_in_amt, coins_amt).
  destruct H; destruct_or?; subst; try done; try (by destruct m).
Qed.
Lemma other_effect v e s f st m st' ms : effect p v e s f st m st' ms -> bid_side m = false ->
  (s_bids st' = s_bids st /\ s_cbids st' = s_cbids st) \/
  ((exists c t to, MNft c t to ∈ ms) /\ (forall id, m <> RemoveAsk id) /\ exists i, s_asks st' = delete i (s_asks st)).
Proof.
  intros H Hm. destruct H; destruct_or?; subst; try done; try (by left); right; (split; [|split; [done|by eexists]]);
    do 3 eexists; try apply elem_of_list_further; apply elem_of_app; right; apply elem_of_app; right; apply elem_of_list_here.
Qed.

Lemma taken_amounts n v e s f st m st' ms b d : collision_free p -> N.of_nat n < U64_MAX -> v2_history p n st ->
  execute p v e s f st m = Ok (st', ms) -> bid_side m = false -> resting st b ->
  s_bids st' = drop_bid st b -> s_cbids st' = drop_cbid st b ->
  leaving d ms = of_denom d (price_of b) + listing_paid d (Entry s f m st st' ms).
Proof.
  intros Hc Hn Hh H Hm Hb E1 E2.
  pose proof (history_conservation p n st v e s f m st' ms d Hc Hn Hh H) as Hcons.
  rewrite (listing_paid_rule v e s f st m st' ms d) in Hcons; [|by eapply history_wf|by apply execute_effect|done].
  rewrite paid_out_out, <- leaving_out, <- (all_bids_escrow d st), <- (all_bids_escrow d st') in Hcons.
  unfold all_bids in Hcons. rewrite E1, E2 in Hcons. destruct b as [b|b]; cbn [drop_bid drop_cbid resting price_of] in *.
  - rewrite (total_delete _ (s_bids st) _ _ Hb) in Hcons. lia.
  - rewrite (total_delete _ (s_cbids st) _ _ Hb) in Hcons. lia.
Qed.
Lemma other_sale v e s f st m st' ms : wf p st -> effect p v e s f st m st' ms -> bid_side m = false ->
  (s_bids st' = s_bids st /\ s_cbids st' = s_cbids st) \/
  exists a mb pre post, sale_result p v e s f st m st' ms a mb false pre post.
Proof.
  intros Hwf H Hm. destruct (other_effect _ _ _ _ _ _ _ _ H Hm) as [?|((c&t&to&Hin)&Hr&i&Hi)]; [by left|right].
  apply effect_sale_or_not in H as [(_&_&Hn)|(a&mb&fl&pre&post&Hs)]; [| |done].
  - destruct Hn as [Hn|[(j&->)|(c1&t1&d1&->&j&[x Hx]&Hj)]].
    + by apply Hn in Hin.
    + by destruct (Hr j).
    + rewrite Hi, lookup_delete_Some, Hj in Hx. by destruct Hx.
  - exists a, mb, pre, post. destruct (sr_trade _ _ _ _ _ _ _ _ _ _ _ _ _ _ Hs); destruct_or?; subst; done.
Qed.
Lemma elem_msgs (pre : list cmsg) (q : list cmsg) x post : x ∈ pre ++ q ++ x :: post.
Proof. apply elem_of_app; right; apply elem_of_app; right; apply elem_of_list_here. Qed.
Lemma bid_taken st l h i b : collision_free p -> prefix_free p -> slash_free p -> N.of_nat (length l) < U64_MAX ->
  trace p st l -> h ∈ l -> own (b_creator b) h = false ->
  s_bids (en_before h) !! i = Some b -> s_bids (en_after h) !! i = None ->
  MNft (b_coll b) (b_tok b) (to_whom (b_creator b) (b_det b)) ∈ en_msgs h /\
  forall d, leaving d (en_msgs h) = of_denom d (d_price (b_det b)) + listing_paid d h.
Proof.
  intros Hcf Hpf Hsl Hn Ht Hh Ho Hb Hg. destruct (entry_call _ _ _ Ht Hh) as (l0&v&e&Ht0&Hl&_&He).
  destruct h as [s f m st0 st1 ms]. unfold own in Ho. cbn [en_by en_funds en_msg en_before en_after en_msgs] in *.
  pose proof (trace_history _ _ Ht0) as Hh0. pose proof (history_wf _ _ _ Hh0) as Hwf.
  assert (bid_side m = false) as Hm.
  { destruct (bid_side m) eqn:E; [|done]. rewrite andb_true_r in Ho. apply bool_decide_eq_false in Ho.
    destruct (bid_changes p (length l0) v e s f st0 m st1 ms i b Hcf Hpf Hsl ltac:(lia) Hh0 He Hb) as (_&a&Htr&_); [by rewrite Hg|done|].
    inversion Htr; destruct_or?; subst; done. }
  destruct (other_sale _ _ _ _ _ _ _ _ Hwf (execute_effect _ _ _ _ _ _ _ _ _ He) Hm) as [[E _]|(a&mb&pre&post&Hs)].
  { rewrite E, Hb in Hg. done. }
  pose proof (sr_bids _ _ _ _ _ _ _ _ _ _ _ _ _ _ Hs) as E1. pose proof (sr_cbids _ _ _ _ _ _ _ _ _ _ _ _ _ _ Hs) as E2.
  destruct mb as [b1|b1]; cbn [drop_bid] in E1; [|by rewrite E1, Hb in Hg].
  destruct (wf_bid _ _ Hwf _ _ Hb) as (Hid&_).
  destruct (decide (b_id b1 = i)) as [Hi|Hi]; [|rewrite E1, lookup_delete_ne, Hb in Hg; done].
  destruct (sale_bid_origin p (length l0) v e s f st0 m st1 ms a b1 false pre post i b Hcf ltac:(lia) Hh0 Hs Hb Hi) as [(->&_)|(?&_&_&?&_)]; [|done].
  destruct (sale_wants p v e s f st0 m st1 ms a (MBid b) false pre post Hwf Hcf Hpf Hsl Hs) as (<-&<-).
  split.
  - rewrite (sr_msgs _ _ _ _ _ _ _ _ _ _ _ _ _ _ Hs). apply elem_msgs.
  - intros d. eapply (taken_amounts (length l0) v e s f st0 m st1 ms (MBid b) d Hcf _ Hh0 He Hm); [|done|done].
    cbn. by rewrite Hi.
  Unshelve. lia.
Qed.
Lemma cbid_taken st l h i b : collision_free p -> prefix_free p -> slash_free p -> N.of_nat (length l) < U64_MAX ->
  trace p st l -> h ∈ l -> own (cb_creator b) h = false ->
  s_cbids (en_before h) !! i = Some b -> s_cbids (en_after h) !! i = None ->
  exists t, MNft (cb_coll b) t (to_whom (cb_creator b) (cb_det b)) ∈ en_msgs h /\
  forall d, leaving d (en_msgs h) = of_denom d (d_price (cb_det b)) + listing_paid d h.
Proof.
  intros Hcf Hpf Hsl Hn Ht Hh Ho Hb Hg. destruct (entry_call _ _ _ Ht Hh) as (l0&v&e&Ht0&Hl&_&He).
  destruct h as [s f m st0 st1 ms]. unfold own in Ho. cbn [en_by en_funds en_msg en_before en_after en_msgs] in *.
  pose proof (trace_history _ _ Ht0) as Hh0. pose proof (history_wf _ _ _ Hh0) as Hwf.
  assert (bid_side m = false) as Hm.
  { destruct (bid_side m) eqn:E; [|done]. rewrite andb_true_r in Ho. apply bool_decide_eq_false in Ho.
    destruct (cbid_changes p (length l0) v e s f st0 m st1 ms i b Hcf Hpf Hsl ltac:(lia) Hh0 He Hb) as (_&a&Htr&_); [by rewrite Hg|done|].
    inversion Htr; destruct_or?; subst; done. }
  destruct (other_sale _ _ _ _ _ _ _ _ Hwf (execute_effect _ _ _ _ _ _ _ _ _ He) Hm) as [[_ E]|(a&mb&pre&post&Hs)].
  { rewrite E, Hb in Hg. done. }
  pose proof (sr_bids _ _ _ _ _ _ _ _ _ _ _ _ _ _ Hs) as E1. pose proof (sr_cbids _ _ _ _ _ _ _ _ _ _ _ _ _ _ Hs) as E2.
  destruct mb as [b1|b1]; cbn [drop_cbid] in E2; [by rewrite E2, Hb in Hg|].
  destruct (wf_cbid _ _ Hwf _ _ Hb) as (Hid&_).
  destruct (decide (cb_id b1 = i)) as [Hi|Hi]; [|rewrite E2, lookup_delete_ne, Hb in Hg; done].
  destruct (sale_cbid_origin p (length l0) v e s f st0 m st1 ms a b1 false pre post i b Hcf ltac:(lia) Hh0 Hs Hb Hi) as [(->&_)|(?&_&_&?&_)]; [|done].
  pose proof (sale_wants p v e s f st0 m st1 ms a (MCBid b) false pre post Hwf Hcf Hpf Hsl Hs) as Hc. cbn in Hc. rewrite <- Hc.
  exists (a_tok a). split.
  - rewrite (sr_msgs _ _ _ _ _ _ _ _ _ _ _ _ _ _ Hs). apply elem_msgs.
  - intros d. eapply (taken_amounts (length l0) v e s f st0 m st1 ms (MCBid b) d Hcf _ Hh0 He Hm); [|done|done].
    cbn. by rewrite Hi.
  Unshelve. lia.
Qed.
End V2Ledger.
