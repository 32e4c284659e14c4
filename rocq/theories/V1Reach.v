(** Reachable worlds and histories of marketplace v1. *)
From stdpp Require Import relations pretty.
From Verif Require Import Base Common Chain BaseFacts ChainFacts IndexRange IndexFacts SaleFacts Plain
  V1Model V1Spec V1Facts V1Inv.

(** * Dispatch in two parts *)
Section Dispatch.
Context {S M : Type} (p : params) (handler : view -> env -> addr -> list coin -> S -> M -> result (S * list cmsg)).
Lemma dispatch_split w ms1 ms2 w' : dispatch p handler w (ms1 ++ ms2) w' ->
  exists w1, dispatch p handler w ms1 w1 /\ dispatch p handler w1 ms2 w'.
Proof.
  revert w. induction ms1 as [|m ms1 IH]; intros w H; [exists w; split; [constructor|done]|].
  cbn [app] in H. inversion H; subst;
    match goal with H : dispatch _ _ _ (ms1 ++ ms2) _ |- _ => apply IH in H as (w2&Hd1&Hd2) end; exists w2; (split; [|done]).
  - by apply DSend.
  - by apply DNft.
  - by eapply DNftRogue.
  - by eapply DReg.
  - by eapply DRegRe.
  - by apply DBurn.
  - by eapply DHook.
Qed.
Lemma dispatch_join w ms1 ms2 w1 w' : dispatch p handler w ms1 w1 -> dispatch p handler w1 ms2 w' ->
  dispatch p handler w (ms1 ++ ms2) w'.
Proof.
  revert w. induction ms1 as [|m ms1 IH]; intros w H1 H2; inversion H1; subst; [done|..]; cbn [app].
  - by apply DSend; auto.
  - by apply DNft; auto.
  - by eapply DNftRogue; eauto.
  - by eapply DReg; eauto.
  - by eapply DRegRe; eauto.
  - by apply DBurn; auto.
  - by eapply DHook; eauto.
Qed.
End Dispatch.

Section Reach.
Context (p : params) (x : ext).

Lemma hstep_call st st' : hstep p (execute p x) st st' -> v1_call p x st st'.
Proof. intros (v&e&s&f&m&ms&Hs&H). by eapply call_execute. Qed.
Lemma call_wf st st' : v1_call p x st st' -> wf p st -> wf p st'.
Proof. intros [v e s f m ms Hs H|v e m ms H] Hwf; [by eapply wf_execute|by eapply wf_sudo]. Qed.
Lemma calls_wf st st' : rtc (v1_call p x) st st' -> wf p st -> wf p st'.
Proof. induction 1; eauto using call_wf. Qed.
Lemma history_wf st : v1_history p x st -> wf p st.
Proof. intros (m&st0&Hi&H). eapply calls_wf; [done|]. by eapply wf_instantiate. Qed.
Lemma hsteps_calls st st' : rtc (hstep p (execute p x)) st st' -> rtc (v1_call p x) st st'.
Proof. induction 1; [done|]. eapply rtc_l; [by apply hstep_call|done]. Qed.
Lemma step_calls w w' : v1_step p x w w' -> rtc (v1_call p x) (w_st w) (w_st w').
Proof.
  destruct 1 as [s f m w w' H|w w' H|w h t|m w st' msgs w' Hs H].
  - apply hsteps_calls. by apply exec_hsteps in H.
  - apply env_step_st in H. by rewrite H.
  - done.
  - eapply rtc_l; [by eapply call_sudo|]. apply exec_hsteps in H. by apply hsteps_calls in H.
Qed.
Lemma reachable_history w : v1_reachable p x w -> v1_history p x (w_st w).
Proof.
  intros (w0&[(m&Hi) _]&H). exists m, (w_st w0). split; [done|]. clear Hi.
  induction H as [|w0 w1 w Hs _ IH]; [done|]. etrans; [by apply step_calls|done].
Qed.
Lemma reachable_wf w : v1_reachable p x w -> wf p (w_st w).
Proof. intros H. by apply history_wf, reachable_history. Qed.

(** * Solvency *)
Lemma v1_exec_solvent :
  (forall s f m w w', texec p (execute p x) s f m w w' -> forall pend, solvent p liab (wf p) pend w -> solvent p liab (wf p) pend w') /\
  (forall w ms w', dispatch p (execute p x) w ms w' ->
     forall pend, solvent p liab (wf p) (fun d => pend d + out ms d) w -> solvent p liab (wf p) pend w') /\
  (forall w w', adv p (execute p x) w w' -> forall pend, solvent p liab (wf p) pend w -> solvent p liab (wf p) pend w').
Proof.
  apply exec_solvent.
  - intros. by eapply wf_execute.
  - intros. by eapply execute_liab.
Qed.
Lemma step_solvent w w' : v1_step p x w w' ->
  solvent p liab (wf p) (fun _ => 0) w -> solvent p liab (wf p) (fun _ => 0) w'.
Proof.
  destruct v1_exec_solvent as (H1&H2&H3).
  destruct 1 as [s f m w w' H|w w' H|w h t|m w st' msgs w' Hs H]; intros Hsol.
  - by eapply H1.
  - destruct Hsol as [Hi Hb]. split; [by rewrite (env_step_st _ _ _ H)|]. intros d.
    rewrite (env_step_st _ _ _ H). etrans; [apply Hb|]. by apply env_step_bank.
  - done.
  - eapply H2; [done|]. destruct Hsol as [Hi Hb]. split; [by eapply wf_sudo|]. intros d. cbn.
    destruct (sudo_orders _ _ _ _ _ _ _ Hs) as (_&Eb&Ec&->). specialize (Hb d). unfold liab in *. rewrite Eb, Ec. cbn. lia.
Qed.
Lemma reachable_solvent w : v1_reachable p x w -> solvent p liab (wf p) (fun _ => 0) w.
Proof.
  intros (w0&[(m&Hi) _]&H).
  assert (solvent p liab (wf p) (fun _ => 0) w0) as H0.
  { split; [by eapply wf_instantiate|]. intros d. unfold instantiate in Hi.
    do 8 apply bind_Ok in Hi as (?&_&Hi). injection Hi as <-. unfold liab. cbn. rewrite !esc_empty. lia. }
  clear Hi. induction H as [|w0 w1 w Hs _ IH]; [done|]. apply IH. by eapply step_solvent.
Qed.
Lemma reachable_funded w : v1_reachable p x w ->
  bids_total (w_st w) + cbids_total (w_st w) <= w_bank w (p_self p) "ustars".
Proof. intros [_ H]%reachable_solvent. rewrite bids_total_esc, cbids_total_esc. specialize (H "ustars"). unfold liab in H. lia. Qed.

(** Even while foreign code runs, everything but the pending payments of the running calls is covered. *)
Lemma liab_total st : liab st "ustars" = bids_total st + cbids_total st.
Proof. unfold liab. by rewrite bids_total_esc, cbids_total_esc. Qed.

(** * Shape of responses *)
Ltac split_plain := repeat match goal with
  | |- Forall _ (_ ++ _) => apply Forall_app_2
  | |- Forall _ [] => apply List.Forall_nil
  | |- Forall _ [_] => apply List.Forall_cons; [exact I|apply List.Forall_nil]
  | |- Forall _ [_; _] => apply List.Forall_cons; [exact I|]
  end.
Lemma effect_shape v e s f st m st' ms : effect p x v e s f st m st' ms ->
  exists pl hs, map erase ms = pl ++ hook_msgs hs /\ Forall (fun m => match m with MHook _ | MRegInit _ _ => False | _ => True end) pl /\
    exists hk, ms = plain_msgs pl ++ hk /\ Forall (fun m => match m with SHook _ _ => True | SPlain _ => False end) hk /\
      (hs = s_ask_hooks st \/ hs = s_bid_hooks st \/ hs = s_sale_hooks st \/ hs = s_cbid_hooks st).
Proof.
  assert (forall hooks c, Forall (fun m => match m with SHook _ _ => True | SPlain _ => False end) (map (fun h : addr => SHook h c) hooks)) as Hh.
  { intros hooks c. apply Forall_forall. intros y (h&->&_)%elem_of_list_fmap. done. }
  assert (forall sp finder to, Forall (fun m => match m with MHook _ | MRegInit _ _ => False | _ => True end) (split_msgs x sp finder to)) as Hsp.
  { intros sp finder to. unfold split_msgs. split_plain.
    - destruct (_ && _); [constructor|by repeat constructor].
    - destruct finder; [|constructor]. destruct (_ =? _); [constructor|by repeat constructor].
    - destruct (x_royalty sp) as [[? ?]|]; by repeat constructor. }
  assert (forall st coll tok who, Forall (fun m => match m with MHook _ | MRegInit _ _ => False | _ => True end) (refund_of st coll tok who)) as Hr.
  { intros. unfold refund_of. destruct (s_bids _ !! _); by repeat constructor. }
  destruct 1; rewrite ?map_app, ?erase_plain.
  - eexists _, _. unfold ask_hooks at 1. rewrite erase_hooks. split_and!; [done|by destruct (fee =? 0); repeat constructor|].
    eexists. split_and!; [done|apply Hh|tauto].
  - exists [], (s_ask_hooks st). unfold ask_hooks at 1. rewrite erase_hooks. split_and!; [done|constructor|].
    eexists. split_and!; [done|apply Hh|tauto].
  - exists [], (s_ask_hooks st). unfold ask_hooks at 1. rewrite erase_hooks. split_and!; [done|constructor|].
    eexists. split_and!; [done|apply Hh|tauto].
  - eexists _, _. unfold bid_hooks at 1. rewrite erase_hooks. split_and!; [done|apply Hr|].
    eexists. split_and!; [done|apply Hh|tauto].
  - eexists (refund_of st (ba_coll ba) (ba_tok ba) s ++ split_msgs x sp _ _ ++ [_]), _.
    unfold sale_hooks at 1. rewrite erase_hooks. unfold sold_smsgs. change (map SPlain) with plain_msgs. rewrite erase_plain.
    split_and!; [by rewrite <-!app_assoc|split_plain; (by apply Hr || by apply Hsp)|].
    eexists. split_and!; [unfold plain_msgs; rewrite !map_app, <-!app_assoc; done|apply Hh|tauto].
  - eexists _, _. unfold bid_hooks at 1. rewrite erase_hooks. split_and!; [done|by repeat constructor|].
    eexists. split_and!; [done|apply Hh|tauto].
  - eexists (split_msgs x sp _ _ ++ [_]), _. unfold sale_hooks at 1. rewrite erase_hooks. unfold sold_smsgs.
    change (map SPlain) with plain_msgs. rewrite erase_plain.
    split_and!; [done|split_plain; (by apply Hr || by apply Hsp)|].
    eexists. split_and!; [done|apply Hh|tauto].
  - eexists _, _. unfold bid_hooks at 1. rewrite erase_hooks. split_and!; [done|by repeat constructor|].
    eexists. split_and!; [done|apply Hh|tauto].
  - eexists _, _. unfold cbid_hooks at 1. rewrite erase_hooks. split_and!; [done|by destruct (s_cbids st !! _); repeat constructor|].
    eexists. split_and!; [done|apply Hh|tauto].
  - eexists _, _. unfold cbid_hooks at 1. rewrite erase_hooks. split_and!; [done|by repeat constructor|].
    eexists. split_and!; [done|apply Hh|tauto].
  - eexists (split_msgs x sp _ _ ++ [_]), _. unfold sale_hooks at 1. rewrite erase_hooks. unfold sold_smsgs.
    change (map SPlain) with plain_msgs. rewrite erase_plain.
    split_and!; [done|split_plain; (by apply Hr || by apply Hsp)|].
    eexists. split_and!; [done|apply Hh|tauto].
  - exists [], (s_ask_hooks st). unfold ask_hooks at 1. rewrite erase_hooks. split_and!; [done|constructor|].
    eexists. split_and!; [done|apply Hh|tauto].
  - exists [], (s_ask_hooks st). unfold ask_hooks at 1. rewrite erase_hooks. split_and!; [done|constructor|].
    eexists. split_and!; [done|apply Hh|tauto].
  - eexists _, _. unfold bid_hooks at 1. rewrite erase_hooks. split_and!; [done|by repeat constructor|].
    eexists. split_and!; [done|apply Hh|tauto].
  - eexists _, _. unfold cbid_hooks at 1. rewrite erase_hooks. split_and!; [done|by repeat constructor|].
    eexists. split_and!; [done|apply Hh|tauto].
Qed.

(** * The fate of one order in one call *)
Ltac reduce_st := cbn [s_asks s_bids s_cbids s_params s_ask_hooks s_bid_hooks s_sale_hooks s_cbid_hooks remove_ask remove_bid remove_cbid
  store_ask store_bid store_cbid set_asks set_bids set_cbids] in *.

Lemma effect_bid v e s f st m st' ms k b : wf p st -> effect p x v e s f st m st' ms -> s_bids st !! k = Some b ->
  k = (b_coll b, b_tok b, b_bidder b) /\ bid_fate x v e s st m b (map erase ms) (s_bids st' !! k).
Proof.
  intros Hw H Hb. destruct (wf_bid _ _ Hw _ _ Hb) as (Hk&_&_&_). split; [done|]. subst k.
  destruct H; reduce_st; try (rewrite Hb; apply bid_kept); rewrite ?map_app, ?erase_plain.
  - (* save *)
    assert (s_bids st !! (ba_coll ba, ba_tok ba, s) = Some b \/ (ba_coll ba, ba_tok ba, s) <> (b_coll b, b_tok b, b_bidder b)) as Hc.
    { destruct (decide ((ba_coll ba, ba_tok ba, s) = (b_coll b, b_tok b, b_bidder b))) as [E|]; [left; congruence|by right]. }
    destruct Hc as [Hc|Hne].
    + destruct (wf_bid _ _ Hw _ _ Hc) as (Hk&_&_&_). injection Hk as Hk1 Hk2 Hk3. eapply (bid_replaced _ _ _ _ _ _ _ _ ba); try done.
      * unfold refund_of. rewrite Hc. cbn. by rewrite Hk3.
      * right. exists price. unfold b0. cbn [b_coll b_tok b_bidder]. rewrite Hk1, Hk2, Hk3. apply lookup_insert.
    + unfold b0; cbn [b_coll b_tok b_bidder]. rewrite lookup_insert_ne by done. rewrite lookup_delete_ne by done. rewrite Hb. apply bid_kept.
  - (* buy *)
    destruct (decide ((ba_coll ba, ba_tok ba, s) = (b_coll b, b_tok b, b_bidder b))) as [E|Hne].
    + injection E as E1 E2 E3. eapply (bid_replaced _ _ _ _ _ _ _ _ ba); try done.
      * unfold refund_of. rewrite E1, E2, E3, Hb. done.
      * left. rewrite E1, E2, E3. by rewrite lookup_delete.
    + rewrite lookup_delete_ne by done. rewrite Hb. apply bid_kept.
  - destruct (decide ((coll, tok, s) = (b_coll b, b_tok b, b_bidder b))) as [E|Hne].
    + rewrite E, lookup_delete. injection E as -> -> ->. assert (b0 = b) as -> by congruence. apply bid_removed; try done.
      unfold bid_hooks. by rewrite erase_hooks.
    + rewrite lookup_delete_ne by done. rewrite Hb. apply bid_kept.
  - destruct (decide ((coll, tok, bidder) = (b_coll b, b_tok b, b_bidder b))) as [E|Hne].
    + rewrite E, lookup_delete. injection E as -> -> ->. assert (b0 = b) as -> by congruence.
      eapply (bid_accepted _ _ _ _ _ _ _ _ finder); try done. exists ci. split; [done|]. cbv zeta. split; [done|].
      unfold sale_hooks, sold_smsgs. rewrite erase_hooks. change (map SPlain) with plain_msgs. rewrite erase_plain. by rewrite <-app_assoc.
    + rewrite lookup_delete_ne by done. rewrite Hb. apply bid_kept.
  - destruct (decide ((coll, tok, bidder) = (b_coll b, b_tok b, b_bidder b))) as [E|Hne].
    + rewrite E, lookup_delete. injection E as -> -> ->. assert (b0 = b) as -> by congruence. apply bid_rejected; try done.
      unfold bid_hooks. by rewrite erase_hooks.
    + rewrite lookup_delete_ne by done. rewrite Hb. apply bid_kept.
  - destruct (decide ((coll, tok, bidder) = (b_coll b, b_tok b, b_bidder b))) as [E|Hne].
    + rewrite E, lookup_delete. injection E as -> -> ->. assert (b0 = b) as -> by congruence.
      eapply (bid_cleaned _ _ _ _ _ _ _ _ reward); try done. unfold bid_hooks. by rewrite erase_hooks.
    + rewrite lookup_delete_ne by done. rewrite Hb. apply bid_kept.
Qed.
Lemma effect_cbid v e s f st m st' ms k b : wf p st -> effect p x v e s f st m st' ms -> s_cbids st !! k = Some b ->
  k = (cb_coll b, cb_bidder b) /\ cbid_fate x v e s st m b (map erase ms) (s_cbids st' !! k).
Proof.
  intros Hw H Hb. destruct (wf_cbid _ _ Hw _ _ Hb) as (Hk&_&_&_). split; [done|]. subst k.
  destruct (wf_hooks _ _ Hw) as (_&_&_&Hnone).
  destruct H; reduce_st; try (rewrite Hb; apply cbid_kept); rewrite ?map_app, ?erase_plain.
  - destruct (decide ((coll, s) = (cb_coll b, cb_bidder b))) as [E|Hne].
    + injection E as -> ->. unfold b0; cbn [cb_coll cb_bidder]. rewrite lookup_insert. eapply cbid_replaced; try done. rewrite Hb. done.
    + unfold b0; cbn [cb_coll cb_bidder]. rewrite lookup_insert_ne by done. rewrite lookup_delete_ne by done. rewrite Hb. apply cbid_kept.
  - destruct (decide ((coll, s) = (cb_coll b, cb_bidder b))) as [E|Hne].
    + rewrite E, lookup_delete. injection E as -> ->. assert (b0 = b) as -> by congruence. apply cbid_removed; try done.
      unfold cbid_hooks. by rewrite erase_hooks, Hnone.
    + rewrite lookup_delete_ne by done. rewrite Hb. apply cbid_kept.
  - destruct (decide ((coll, bidder) = (cb_coll b, cb_bidder b))) as [E|Hne].
    + rewrite E, lookup_delete. injection E as -> ->. assert (b0 = b) as -> by congruence.
      eapply (cbid_accepted _ _ _ _ _ _ _ _ tok finder); try done. exists ci. split; [done|]. cbv zeta. split; [done|].
      unfold sale_hooks, sold_smsgs. rewrite erase_hooks. change (map SPlain) with plain_msgs. rewrite erase_plain. by rewrite <-app_assoc.
    + rewrite lookup_delete_ne by done. rewrite Hb. apply cbid_kept.
  - destruct (decide ((coll, bidder) = (cb_coll b, cb_bidder b))) as [E|Hne].
    + rewrite E, lookup_delete. injection E as -> ->. assert (b0 = b) as -> by congruence.
      eapply (cbid_cleaned _ _ _ _ _ _ _ _ reward); try done. unfold cbid_hooks. by rewrite erase_hooks, Hnone.
    + rewrite lookup_delete_ne by done. rewrite Hb. apply cbid_kept.
Qed.
Lemma effect_ask v e s f st m st' ms k a : wf p st -> effect p x v e s f st m st' ms -> s_asks st !! k = Some a ->
  k = (k_coll a, k_tok a) /\ ask_fate v e s f st m a (s_asks st' !! k).
Proof.
  intros Hw H Ha. destruct (wf_ask _ _ Hw _ _ Ha) as (Hk&_). split; [done|]. subst k.
  destruct H; reduce_st; try (rewrite Ha; apply ask_kept).
  - unfold a0; cbn [k_coll k_tok]. destruct (decide ((coll, tok) = (k_coll a, k_tok a))) as [E|Hne].
    + rewrite E, lookup_insert. injection E as -> ->. eapply ask_relisted; try done. by eexists _, _, _, _, _, _.
    + rewrite lookup_insert_ne by done. rewrite Ha. apply ask_kept.
  - destruct (decide ((coll, tok) = (k_coll a, k_tok a))) as [E|Hne].
    + rewrite E, lookup_delete. injection E as -> ->. by apply ask_removed.
    + rewrite lookup_delete_ne by done. rewrite Ha. apply ask_kept.
  - destruct (decide ((coll, tok) = (k_coll a, k_tok a))) as [E|Hne].
    + rewrite E, lookup_insert. injection E as -> ->. assert (a0 = a) as -> by congruence. subst a'. rewrite H5. by apply ask_repriced.
    + rewrite lookup_insert_ne by done. rewrite Ha. apply ask_kept.
  - destruct (decide ((ba_coll ba, ba_tok ba) = (k_coll a, k_tok a))) as [E|Hne].
    + rewrite E, lookup_delete. injection E as E1 E2. rewrite E1, E2 in H1. assert (a0 = a) as -> by congruence.
      destruct H2. destruct H0. apply (ask_bought _ _ _ _ _ _ _ ba); try done. by rewrite H4.
    + rewrite lookup_delete_ne by done. rewrite Ha. apply ask_kept.
  - destruct (decide ((coll, tok) = (k_coll a, k_tok a))) as [E|Hne].
    + rewrite E, lookup_delete. injection E as -> ->. apply ask_overtaken; [|done]. exists bidder, finder. by left.
    + rewrite lookup_delete_ne by done. rewrite Ha. apply ask_kept.
  - destruct (decide ((coll, tok) = (k_coll a, k_tok a))) as [E|Hne].
    + rewrite E, lookup_delete. injection E as -> ->. apply ask_overtaken; [|done]. exists bidder, finder. by right.
    + rewrite lookup_delete_ne by done. rewrite Ha. apply ask_kept.
  - destruct (decide ((coll, tok) = (k_coll a, k_tok a))) as [E|Hne].
    + rewrite E, lookup_insert. injection E as -> ->. assert (a0 = a) as -> by congruence. by apply ask_synced.
    + rewrite lookup_insert_ne by done. rewrite Ha. apply ask_kept.
  - destruct (decide ((coll, tok) = (k_coll a, k_tok a))) as [E|Hne].
    + rewrite E, lookup_delete. injection E as -> ->. by apply ask_cleaned.
    + rewrite lookup_delete_ne by done. rewrite Ha. apply ask_kept.
Qed.

(** * New orders *)
Lemma effect_new_bid v e s f st m st' ms k b : wf p st -> effect p x v e s f st m st' ms ->
  s_bids st' !! k = Some b -> s_bids st !! k = Some b \/
  exists ba price, bid_call m = Some ba /\ k = (ba_coll ba, ba_tok ba, s) /\
    b = Bid (ba_coll ba) (ba_tok ba) s price (ba_bps ba) (ba_expires ba) /\ bid_checks p e s f st ba price.
Proof.
  intros Hw H Hb. destruct H; reduce_st; try (by left); try (apply lookup_delete_Some in Hb as [_ Hb]; by left).
  apply lookup_insert_Some in Hb as [[<- <-]|[_ Hb]].
  - right. by exists ba, price.
  - apply lookup_delete_Some in Hb as [_ Hb]. by left.
Qed.
Lemma effect_new_cbid v e s f st m st' ms k b : wf p st -> effect p x v e s f st m st' ms ->
  s_cbids st' !! k = Some b -> s_cbids st !! k = Some b \/
  exists coll expires bps price, m = SetCollectionBid coll expires bps /\ k = (coll, s) /\ b = CBid coll s price bps expires /\
    f = [native price] /\ 0 < price /\ sp_min_price (s_params st) <= price /\
    in_window (sp_bid_expiry (s_params st)) (e_time e) expires /\ finder_allowed st bps.
Proof.
  intros Hw H Hb. destruct H; reduce_st; try (by left); try (apply lookup_delete_Some in Hb as [_ Hb]; by left).
  apply lookup_insert_Some in Hb as [[<- <-]|[_ Hb]].
  - right. by exists coll, expires, bps, price.
  - apply lookup_delete_Some in Hb as [_ Hb]. by left.
Qed.
Lemma effect_new_ask v e s f st m st' ms k a : wf p st -> effect p x v e s f st m st' ms ->
  s_asks st' !! k = Some a ->
  (exists a0, s_asks st !! k = Some a0 /\ k_expires a = k_expires a0 /\ k_finders a = k_finders a0 /\ k_seller a = k_seller a0 /\
     k_type a = k_type a0 /\ k_recipient a = k_recipient a0 /\ k_reserve a = k_reserve a0 /\
     (k_price a = k_price a0 \/ (exists c, m = UpdateAskPrice (fst k) (snd k) c /\ k_price a = c_amount c) /\ sp_min_price (s_params st) <= k_price a)) \/
  exists c, m = SetAsk (k_type a) (k_coll a) (k_tok a) c (k_recipient a) (k_reserve a) (k_finders a) (k_expires a) /\
    k_price a = c_amount c /\ k = (k_coll a, k_tok a) /\ k_seller a = s /\ k_active a = true /\ owns v s (k_coll a) (k_tok a) /\
    q_approval v (k_coll a) (pretty (k_tok a)) (p_self p) = true /\ tradable v e (k_coll a) /\
    sp_min_price (s_params st) <= k_price a <= 100000000000000 /\
    in_window (sp_ask_expiry (s_params st)) (e_time e) (k_expires a) /\ finder_allowed st (k_finders a) /\
    ((f = [] /\ sp_listing_fee (s_params st) = 0) \/ f = [native (sp_listing_fee (s_params st))]).
Proof.
  assert (forall a0, a0 = a -> k_expires a = k_expires a0 /\ k_finders a = k_finders a0 /\ k_seller a = k_seller a0 /\
     k_type a = k_type a0 /\ k_recipient a = k_recipient a0 /\ k_reserve a = k_reserve a0 /\
     (k_price a = k_price a0 \/ (exists c, m = UpdateAskPrice (fst k) (snd k) c /\ k_price a = c_amount c) /\ sp_min_price (s_params st) <= k_price a)) as Hsame.
  { intros a0 ->. split_and!; try done. by left. }
  intros Hw H Hb. destruct H; reduce_st; try (left; exists a; split; [done|by apply Hsame]);
    try (apply lookup_delete_Some in Hb as [_ Hb]; left; exists a; split; [done|by apply Hsame]).
  - apply lookup_insert_Some in Hb as [[<- <-]|[_ Hb]].
    + right. by exists price.
    + left. exists a. split; [done|by apply Hsame].
  - apply lookup_insert_Some in Hb as [[<- <-]|[_ Hb]].
    + left. exists a0. split_and!; try done. right. split; [|done]. by exists price.
    + left. exists a. split; [done|by apply Hsame].
  - apply lookup_insert_Some in Hb as [[<- <-]|[_ Hb]].
    + left. exists a0. split_and!; try done. by left.
    + left. exists a. split; [done|by apply Hsame].
Qed.

(** * NFT moves *)
Lemma split_no_nft sp finder to c t who : MNft c t who ∉ split_msgs x sp finder to.
Proof.
  unfold split_msgs. rewrite !elem_of_app. intros [H|[H|[H|H]]].
  - destruct (_ && _); [by apply elem_of_nil in H|]. by apply elem_of_list_singleton in H.
  - destruct finder; [|by apply elem_of_nil in H]. destruct (_ =? _); [by apply elem_of_nil in H|]. by apply elem_of_list_singleton in H.
  - destruct (x_royalty sp) as [[? ?]|]; [by apply elem_of_list_singleton in H|by apply elem_of_nil in H].
  - by apply elem_of_list_singleton in H.
Qed.
Lemma hooks_no_nft hooks c t who : MNft c t who ∉ hook_msgs hooks.
Proof. unfold hook_msgs. by intros (h&?&_)%elem_of_list_fmap. Qed.
Lemma refund_no_nft st coll tok w c t who : MNft c t who ∉ refund_of st coll tok w.
Proof. unfold refund_of. destruct (s_bids _ !! _); [by intros ?%elem_of_list_singleton|by intros ?%elem_of_nil]. Qed.

Lemma effect_mandate v e s f st m st' ms c t who : wf p st -> effect p x v e s f st m st' ms -> MNft c t who ∈ map erase ms ->
  exists tok, t = pretty tok /\ mandate v e s f st m c tok who.
Proof.
  intros Hw H Hin.
  destruct H; rewrite ?map_app, ?erase_plain in Hin; rewrite ?elem_of_app in Hin;
    repeat match type of Hin with _ \/ _ => destruct Hin as [Hin|Hin] end;
    try (unfold ask_hooks, bid_hooks, cbid_hooks, sale_hooks in Hin; rewrite erase_hooks in Hin; by apply hooks_no_nft in Hin);
    try (unfold sold_smsgs in Hin; change (map SPlain) with plain_msgs in Hin; rewrite erase_plain in Hin; apply elem_of_app in Hin as [Hin|Hin];
         [by apply split_no_nft in Hin|apply elem_of_list_singleton in Hin; injection Hin as -> -> ->]).
  - destruct (fee =? 0); [by apply elem_of_nil in Hin|]. by apply elem_of_list_singleton in Hin.
  - by apply refund_no_nft in Hin.
  - by apply refund_no_nft in Hin.
  - exists (k_tok a). split; [done|]. destruct (wf_ask _ _ Hw _ _ H1) as (Hk&_). injection Hk as E1 E2.
    destruct H2, H0. eapply (by_ask _ _ _ _ _ _ _ _ _ ba a); try done.
    + by rewrite <-E1, <-E2.
    + by rewrite H4.
  - by apply elem_of_list_singleton in Hin.
  - exists tok. split; [done|]. by eapply by_owner_bid.
  - by apply elem_of_list_singleton in Hin.
  - destruct (s_cbids st !! (coll, s)); [by apply elem_of_list_singleton in Hin|by apply elem_of_nil in Hin].
  - by apply elem_of_list_singleton in Hin.
  - exists tok. split; [done|]. by eapply by_owner_cbid.
  - apply elem_of_cons in Hin as [?|Hin]; [done|]. by apply elem_of_list_singleton in Hin.
  - apply elem_of_cons in Hin as [?|Hin]; [done|]. by apply elem_of_list_singleton in Hin.
Qed.
End Reach.
