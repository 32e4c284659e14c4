(** A group of accounts gains coins only from sales to outsiders (v1). *)
From stdpp Require Import relations.
From Verif Require Import Base BaseFacts Common Chain ChainFacts IndexRange SaleFacts LedgerSpec Ledger V1Model V1Spec V1Facts V1Inv V1Reach
  V1Final V1LedgerSpec V1Ledger V1WealthSpec.

Section Wealth.
Context (p : params) (x : ext) (G : addr -> bool) (d : denom).
Definition gm (ms : list cmsg) : N :=
  sum_over (fun m => match m with MSend to cs => if G to then coins_of d cs else 0 | _ => 0 end) ms.
Lemma gm_app l l' : gm (l ++ l') = gm l + gm l'.
Proof. apply sum_over_app. Qed.
Lemma gm_le l : gm l <= leaving d l.
Proof. induction l as [|m l IH]; [done|]. unfold gm, leaving in *. cbn [sum_over]. destruct m; try lia. destruct (G to); lia. Qed.
Lemma gm_hooks hooks : gm (hook_msgs hooks) = 0.
Proof. pose proof (gm_le (hook_msgs hooks)) as H. rewrite leaving_hooks in H. lia. Qed.
Lemma gm_pay w n l : gm (pay w n :: l) = (if G w then stars d n else 0) + gm l.
Proof. unfold gm, pay. cbn [sum_over]. by rewrite stars_native. Qed.
Lemma bo W k b : bids_of d W k b = if W (b_bidder b) then stars d (b_price b) else 0.
Proof. done. Qed.
Lemma cbo W k b : cbids_of d W k b = if W (cb_bidder b) then stars d (cb_price b) else 0.
Proof. done. Qed.
Lemma gm_nil : gm [] = 0.
Proof. done. Qed.
Lemma gm_refund st c t s : wf p st ->
  gm (refund_of st c t s) + total (bids_of d G) (delete (c, t, s) (s_bids st)) = total (bids_of d G) (s_bids st).
Proof.
  intros Hw. unfold refund_of. destruct (s_bids st !! (c, t, s)) as [b|] eqn:E.
  - destruct (wf_bid _ _ Hw _ _ E) as (Hk&_). injection Hk as _ _ Hk.
    rewrite (total_delete (bids_of d G) _ _ _ E), gm_pay. rewrite ?gm_nil, bo, <- Hk. lia.
  - by rewrite delete_notin.
Qed.
Lemma gm_crefund st c s :
  gm (match s_cbids st !! (c, s) with Some o => [pay (cb_bidder o) (cb_price o)] | None => [] end)
  + total (cbids_of d G) (delete (c, s) (s_cbids st)) = total (cbids_of d G) (s_cbids st).
Proof.
  destruct (s_cbids st !! (c, s)) as [b|] eqn:E.
  - rewrite (total_delete (cbids_of d G) _ _ _ E), gm_pay. rewrite ?gm_nil, cbo. lia.
  - by rewrite delete_notin.
Qed.
(** Members get at most the price of a sale. *)
Lemma gm_sold sp finder to coll tok who price : (finder = None -> x_finder sp = 0) -> split_fits sp price ->
  gm (map erase (sold_smsgs x sp finder to coll tok who)) <= stars d price.
Proof.
  intros Hn Hf. etrans; [apply gm_le|]. rewrite leaving_out, out_sold by done. apply fits_sum in Hf.
  unfold stars, of_denom. cbn [c_denom c_amount]. case_bool_decide; case_decide; try done; destruct Hf; lia.
Qed.

Lemma effect_gain v e s f st m st' ms : wf p st -> effect p x v e s f st m st' ms ->
  let h := User s f m st st' (map erase ms) in
  got G d h + escrowed G d st' <= put G d h + escrowed G d st + sales G d h + kept G d h.
Proof.
  intros Hw H. cbv zeta. unfold got, put, escrowed. cbn [e_msgs].
  match goal with |- context [sum_over ?g (map erase ms)] => change (sum_over g (map erase ms)) with (gm (map erase ms)) end.
  destruct H; rewrite ?map_app, ?erase_plain; unfold ask_hooks, bid_hooks, cbid_hooks, sale_hooks; rewrite ?erase_hooks; reduce_st;
    rewrite ?gm_app, ?gm_hooks.
  - destruct (fee =? 0); unfold gm; cbn [sum_over]; lia.
  - lia.
  - lia.
  - (* a resting bid *)
    pose proof (gm_refund st (ba_coll ba) (ba_tok ba) s Hw) as Hr.
    destruct H0 as [_ _ _ -> _ _ _]. rewrite stars_native.
    rewrite total_insert_new by (cbn; apply lookup_delete). rewrite bo. unfold b. cbn [b_bidder b_price b_coll b_tok].
    destruct (G s); lia.
  - (* a purchase *)
    pose proof (gm_refund st (ba_coll ba) (ba_tok ba) s Hw) as Hr.
    destruct H0 as [_ _ _ -> _ _ _]. rewrite stars_native.
    assert (gm (map erase (sold_smsgs x sp (ba_finder ba) (default (k_seller a) (k_recipient a)) (k_coll a) (k_tok a) (default s (ba_to ba)))) <=
      stars d price) as Hg by (apply gm_sold; [intros Hn; unfold sp; rewrite Hn; apply split_none|done]).
    unfold sales. erewrite nft_sells by (rewrite !elem_of_app; right; left; unfold sold_smsgs; change (map SPlain) with plain_msgs; rewrite erase_plain;
      apply elem_of_app; right; left).
    rewrite (bidding_buyers _ _ H). cbn [s_asks remove_ask remove_bid set_asks set_bids]. rewrite (gone_delete (ask_worth d) _ _ _ H1).
    unfold ask_worth. rewrite H4. destruct (G s); lia.
  - (* RemoveBid *)
    rewrite (total_delete (bids_of d G) _ _ _ H0), gm_pay. rewrite ?gm_nil, bo. lia.
  - (* AcceptBid *)
    assert (gm (map erase (sold_smsgs x sp finder s coll tok bidder)) <= stars d (b_price b)) as Hg
      by (apply gm_sold; [intros Hn; unfold sp; rewrite Hn; apply split_none|done]).
    unfold sales. erewrite nft_sells by (rewrite !elem_of_app; left; unfold sold_smsgs; change (map SPlain) with plain_msgs; rewrite erase_plain;
      apply elem_of_app; right; left).
    cbn [buyers s_bids s_cbids remove_ask remove_bid set_asks set_bids].
    rewrite (gone_delete (bids_of d (outsider G)) _ _ _ H2), gone_same, (total_delete (bids_of d G) _ _ _ H2).
    rewrite !bo. unfold outsider. destruct (G (b_bidder b)); cbn [negb]; lia.
  - (* RejectBid *)
    destruct (wf_bid _ _ Hw _ _ H1) as (Hk&_). injection Hk as _ _ Hk.
    rewrite (total_delete (bids_of d G) _ _ _ H1), gm_pay. rewrite ?gm_nil, bo. rewrite <- Hk. lia.
  - (* SetCollectionBid *)
    subst f. pose proof (gm_crefund st coll s) as Hr.
    rewrite stars_native, total_insert_new by (cbn; apply lookup_delete). rewrite cbo. unfold b. cbn [cb_bidder cb_price cb_coll].
    destruct (G s); lia.
  - rewrite (total_delete (cbids_of d G) _ _ _ H0), gm_pay. rewrite ?gm_nil, cbo. lia.
  - (* AcceptCollectionBid *)
    assert (gm (map erase (sold_smsgs x sp finder s coll tok bidder)) <= stars d (cb_price b)) as Hg
      by (apply gm_sold; [intros Hn; unfold sp; rewrite Hn; apply split_none|done]).
    unfold sales. erewrite nft_sells by (rewrite !elem_of_app; left; unfold sold_smsgs; change (map SPlain) with plain_msgs; rewrite erase_plain;
      apply elem_of_app; right; left).
    cbn [buyers s_bids s_cbids remove_ask remove_cbid set_asks set_cbids].
    rewrite (gone_delete (cbids_of d (outsider G)) _ _ _ H2), gone_same, (total_delete (cbids_of d G) _ _ _ H2).
    rewrite !cbo. unfold outsider. destruct (G (cb_bidder b)); cbn [negb]; lia.
  - lia.
  - lia.
  - (* RemoveStaleBid *)
    destruct (wf_bid _ _ Hw _ _ H1) as (Hk&_). injection Hk as _ _ Hk.
    rewrite (total_delete (bids_of d G) _ _ _ H1), !gm_pay. rewrite ?gm_nil, bo. unfold kept. cbn [app drop]. rewrite ?drop_0.
    match goal with |- context [leaving d (pay s reward :: ?r)] => change (pay s reward :: r) with ([pay s reward] ++ r) end.
    rewrite leaving_app, leaving_hooks, pay_leaving, <- Hk. pose proof (stars_sub d (b_price b) reward H3). destruct (G bidder), (G s); lia.
  - (* RemoveStaleCollectionBid *)
    destruct (wf_cbid _ _ Hw _ _ H1) as (Hk&_). injection Hk as _ Hk.
    rewrite (total_delete (cbids_of d G) _ _ _ H1), !gm_pay. rewrite ?gm_nil, cbo. unfold kept. cbn [app drop]. rewrite ?drop_0.
    match goal with |- context [leaving d (pay s reward :: ?r)] => change (pay s reward :: r) with ([pay s reward] ++ r) end.
    rewrite leaving_app, leaving_hooks, pay_leaving, <- Hk. pose proof (stars_sub d (cb_price b) reward H3). destruct (G bidder), (G s); lia.
Qed.
Lemma step_gain st st' h : v1_history p x st -> recorded p x st st' h ->
  got G d h + escrowed G d st' <= put G d h + escrowed G d st + sales G d h + kept G d h.
Proof.
  intros Hh [v e s f m ms Hs (ms'&H&->)%execute_sub_of|v e m ms (_&E1&E2&->)%sudo_orders].
  - eapply effect_gain; [by eapply history_wf|exact H].
  - unfold got, escrowed. cbn [e_msgs sum_over]. rewrite E1, E2. lia.
Qed.
Lemma history_gain st l : trace p x st l ->
  sum_over (got G d) l + escrowed G d st <= sum_over (put G d) l + sum_over (sales G d) l + sum_over (kept G d) l.
Proof.
  induction 1 as [c st H|st l h st' Ht IH H].
  - destruct (empty_start p c st H) as (_&E1&E2). unfold escrowed. rewrite E1, E2, !total_empty. cbn [sum_over]. lia.
  - rewrite !sum_over_app. cbn [sum_over]. pose proof (step_gain st st' h (trace_history _ _ _ _ Ht) H). lia.
Qed.
Lemma entry_gain st l h : trace p x st l -> h ∈ l ->
  got G d h + escrowed G d (e_after h) <= put G d h + escrowed G d (e_before h) + sales G d h + kept G d h.
Proof. intros Ht Hh. destruct (trace_entry _ _ _ _ _ Ht Hh) as (l0&Ht0&H). apply step_gain; [by eapply trace_history|done]. Qed.
End Wealth.
