(** Marketplace v1 on the chain: exact sales, and calls that always succeed. *)
From stdpp Require Import relations pretty.
From Verif Require Import Base Common Chain BaseFacts ChainFacts IndexRange IndexFacts SaleFacts Plain
  V1Model V1Spec V1Facts V1Inv V1Reach V1Final V1Hooks.

Local Opaque U128_MAX U64_MAX.

Ltac cases := repeat match goal with
  | |- context [bool_decide ?P] => destruct (bool_decide P)
  | |- context [decide ?P] => destruct (decide P) end; try done; try lia.

Section Live.
Context (p : params) (x : ext).
Implicit Types w : world state.

(** * A transaction: plain messages first, then hooks *)
Lemma tx_phases w s f m w' : texec p (execute p x) s f m w w' ->
  exists st' pl hs w1, s <> p_self p /\ covers (w_bank w) s f = true /\
    execute p x (view_of p (pay_in p w s f)) (env_of w) s f (w_st w) m = Ok (st', pl ++ hook_msgs hs) /\
    Forall (fun m => match m with MHook _ | MRegInit _ _ => False | _ => True end) pl /\
    dispatch p (execute p x) (set_st (pay_in p w s f) st') pl w1 /\ dispatch p (execute p x) w1 (hook_msgs hs) w'.
Proof.
  intros H. inversion H as [s0 f0 m0 w0 st' msgs w2 Hs Hc He Hd]; subst. pose proof He as (ms&Hef&->)%execute_sub_of.
  destruct (effect_shape _ _ _ _ _ _ _ _ _ _ Hef) as (pl&hs&E&Hpl&_). rewrite E in *.
  apply dispatch_split in Hd as (w1&Hd1&Hd2). by exists st', pl, hs, w1.
Qed.

(** * The deal of a call *)
Lemma closes_sells v e s f st m st' msgs d : v1_history p x st -> execute p x v e s f st m = Ok (st', msgs) -> closes v e s f st m d ->
  exists ci, q_info v (d_coll d) = Some ci /\ split_fits (deal_split st ci d) (d_price d) /\
    msgs = deal_msgs x st m s ci d ++ hook_msgs (s_sale_hooks st) /\ s_asks st' !! (d_coll d, d_tok d) = None.
Proof.
  intros Hst H Hc. pose proof (history_wf _ _ _ Hst) as Hw. destruct Hc as [coll tok bidder finder b -> Hf Ho Ht Hb Hl
    |coll tok bidder finder b -> Hf Ho Ht Hb Hl|ba a Hba Ha Hty Hact Hl Hr Hf Ho Hfi].
  - apply execute_sub_of in H as (ms&H&->). inversion H as [| | | | | |c t bd fi b' ci sp _ _ _ Hb' _ Hci Hfit| | | | | | | |]; subst; try done.
    assert (b' = b) as -> by congruence. exists ci. cbn [d_coll d_tok d_price].
    split_and!; try done.
    + unfold sold_smsgs, sale_hooks. change (map SPlain) with plain_msgs. rewrite map_app, erase_plain, erase_hooks. done.
    + cbn [s_asks remove_bid set_bids remove_ask set_asks]. apply lookup_delete.
  - apply execute_sub_of in H as (ms&H&->). inversion H as [| | | | | | | | | |c t bd fi b' ci sp _ _ _ Hb' _ Hci Hfit| | | |]; subst; try done.
    assert (b' = b) as -> by congruence. exists ci. cbn [d_coll d_tok d_price].
    split_and!; try done.
    + unfold sold_smsgs, sale_hooks. change (map SPlain) with plain_msgs. rewrite map_app, erase_plain, erase_hooks. done.
    + cbn [s_asks remove_bid set_bids remove_ask set_asks]. apply lookup_delete.
  - destruct (bidding_rule _ _ _ _ _ _ _ _ _ _ _ Hst H Hba) as (price&Hc&Hask&_&_&_&[(a'&ci&Ha'&_&Hp&_&Hci&Hn&_&Hfit&->)|(Hlt&_)]).
    + assert (a' = a) as -> by congruence. exists ci. cbn [d_coll d_tok d_price]. unfold deal_split, deal_msgs, refund_first. rewrite Hba, Hp.
      split_and!; try done. cbn [d_finder d_bps d_price d_coll d_tok d_seller_to d_buyer_to]. unfold deal_split. cbn [d_finder d_bps d_price].
      by rewrite <-!app_assoc.
    + destruct Hc as [_ _ _ Hpaid _ _ _]. specialize (Hlt a Ha Hty). rewrite Hf in Hpaid. injection Hpaid as Hp. lia.
Qed.

Lemma credit_split sp finder to a dn :
  credit (split_msgs x sp finder to) a dn = if bool_decide ("ustars" = dn) then paid_to sp finder to a else 0.
Proof.
  unfold split_msgs, paid_to. rewrite !credit_app.
  assert (credit (if (x_fee sp =? 0) && x_zero_burn x then [] else [MFairBurn (native (x_fee sp))]) a dn = 0) as -> by (by destruct (_ && _)).
  assert (credit (match finder with Some f => if x_finder sp =? 0 then [] else [pay f (x_finder sp)] | None => [] end) a dn =
    if bool_decide ("ustars" = dn) then match finder with Some g => if decide (g = a) then x_finder sp else 0 | None => 0 end else 0) as ->.
  { destruct finder as [g|]; [|by case_bool_decide]. destruct (x_finder sp =? 0) eqn:E.
    - apply N.eqb_eq in E. rewrite E. cbn [credit]. cases.
    - unfold pay. cbn [credit]. rewrite amt_native. cases. }
  assert (credit (match x_royalty sp with Some (to0, n) => [pay to0 n] | None => [] end) a dn =
    if bool_decide ("ustars" = dn) then match x_royalty sp with Some (r, n) => if decide (r = a) then n else 0 | None => 0 end else 0) as ->.
  { destruct (x_royalty sp) as [[r n]|]; [|by case_bool_decide]. unfold pay. cbn [credit]. rewrite amt_native. cases. }
  unfold pay. cbn [credit]. rewrite amt_native. cases.
Qed.
Lemma moved_split sp finder to c t : moved (split_msgs x sp finder to) c t = None.
Proof.
  unfold split_msgs. rewrite !moved_app. cbn. destruct (x_royalty sp) as [[? ?]|]; cbn; destruct finder; try destruct (x_finder sp =? 0); cbn; by destruct (_ && _).
Qed.
Lemma refund_first_facts st m s :
  (forall a dn, credit (refund_first st m s) a dn = if bool_decide ("ustars" = dn) then if decide (a = s) then refund_due st m s else 0 else 0) /\
  (forall dn, out (refund_first st m s) dn = if bool_decide ("ustars" = dn) then refund_due st m s else 0) /\
  (forall c t, moved (refund_first st m s) c t = None).
Proof.
  unfold refund_first, refund_due, refund_of. destruct (bid_call m) as [ba|].
  2: { split_and!; try done; intros; repeat case_bool_decide; try case_decide; done. }
  destruct (s_bids st !! _) as [b|].
  - unfold pay. split_and!; try done; intros; cbn [credit out out_one]; rewrite amt_native; repeat case_bool_decide; repeat case_decide; subst; try done; lia.
  - split_and!; try done; intros; repeat case_bool_decide; try case_decide; done.
Qed.

Lemma sale_world w s f m w' d : v1_reachable p x w -> texec p (execute p x) s f m w w' ->
  closes (view_of p w) (env_of w) s f (w_st w) m d -> p_honest p (d_coll d) = true ->
  exists ci w1, o_info (w_ora w) (d_coll d) = Some ci /\ let sp := deal_split (w_st w) ci d in
    split_fits sp (d_price d) /\ deal_bank p (w_st w) m s f sp d (w_bank w) (w_bank w1) /\
    w_nft w1 (d_coll d) (pretty (d_tok d)) = Some (d_buyer_to d) /\
    (forall c t, (c, t) <> (d_coll d, pretty (d_tok d)) -> w_nft w1 c t = w_nft w c t) /\
    s_asks (w_st w1) !! (d_coll d, d_tok d) = None /\
    execute p x (view_of p w) (env_of w) s f (w_st w) m =
      Ok (w_st w1, deal_msgs x (w_st w) m s ci d ++ hook_msgs (s_sale_hooks (w_st w))) /\
    dispatch p (execute p x) w1 (hook_msgs (s_sale_hooks (w_st w))) w'.
Proof.
  intros Hr H Hc Hh. pose proof (reachable_history _ _ _ Hr) as Hst.
  inversion H as [s0 f0 m0 w0 st' msgs w2 Hs Hcov He Hd]; subst.
  destruct (closes_sells (view_of p w) _ _ _ _ _ _ _ _ Hst He Hc) as (ci&Hci&Hfit&->&Hask).
  apply dispatch_split in Hd as (w1&Hd1&Hd2). exists ci, w1. cbv zeta. set (sp := deal_split (w_st w) ci d) in *.
  assert (Forall (plain p) (deal_msgs x (w_st w) m s ci d)) as Hpl.
  { apply execute_sub_of in He as (ms&Hef&Em). destruct (effect_shape _ _ _ _ _ _ _ _ _ _ Hef) as (pl&hs&E&Hpl&_).
    unfold deal_msgs, refund_first, refund_of, split_msgs. 
    repeat apply Forall_app_2; try (by apply List.Forall_cons; [|apply List.Forall_nil]).
    - destruct (bid_call m); [|apply List.Forall_nil]. destruct (s_bids _ !! _); [by apply List.Forall_cons; [|apply List.Forall_nil]|apply List.Forall_nil].
    - destruct (_ && _); [apply List.Forall_nil|by apply List.Forall_cons; [|apply List.Forall_nil]].
    - destruct (d_finder d); [|apply List.Forall_nil]. destruct (_ =? 0); [apply List.Forall_nil|by apply List.Forall_cons; [|apply List.Forall_nil]].
    - destruct (x_royalty _) as [[? ?]|]; [by apply List.Forall_cons; [|apply List.Forall_nil]|apply List.Forall_nil]. }
  destruct (dispatch_plain p _ _ _ _ Hd1 Hpl) as (E1&_&_&_&Hbank&Hnft).
  destruct (refund_first_facts (w_st w) m s) as (Rc&Ro&Rm).
  assert (d_finder d = None -> x_finder sp = 0) as Hfn.
  { intros E. unfold sp, deal_split. rewrite E. apply split_none. }
  split_and!; try done.
  - assert (forall a dn, w_bank w1 a dn + (if decide (a = s) then amt f dn else 0) +
       (if decide (a = p_self p) then (if bool_decide ("ustars" = dn) then split_total sp + refund_due (w_st w) m s else 0) else 0) =
       w_bank w a dn + (if decide (a = p_self p) then amt f dn else 0) +
       (if bool_decide ("ustars" = dn) then paid_to sp (d_finder d) (d_seller_to d) a + (if decide (a = s) then refund_due (w_st w) m s else 0) else 0)) as HB.
    { intros a dn. specialize (Hbank a dn). unfold deal_msgs in Hbank. rewrite !credit_app, !out_app, Rc, Ro in Hbank. fold sp in Hbank.
      rewrite credit_split, out_split in Hbank by exact Hfn. cbn [credit out out_one] in Hbank.
      cbn [w_bank set_st pay_in set_bank] in Hbank. 
      pose proof (bank_move_eq (w_bank w) s (p_self p) f a dn Hcov) as Hm.
      change (split_sum sp) with (split_total sp) in Hbank.
      destruct (bool_decide ("ustars" = dn)); destruct (decide (a = p_self p)) as [Ea|Ea]; repeat case_decide; subst; try done; lia. }
    assert (forall dn, dn <> "ustars" -> amt f dn = 0) as Hf0.
    { intros dn Hdn. destruct Hc; subst; try done. rewrite amt_native. by rewrite bool_decide_eq_false_2 by congruence. }
    split.
    + intros a. specialize (HB a "ustars"). rewrite (bool_decide_eq_true_2 ("ustars" = "ustars")) in HB by done. lia.
    + intros a dn Hdn. specialize (HB a dn). rewrite (Hf0 dn Hdn) in HB. rewrite (bool_decide_eq_false_2 ("ustars" = dn)) in HB by congruence.
      repeat case_decide; lia.
  - rewrite Hnft. unfold deal_msgs. rewrite !moved_app. cbn. by rewrite decide_True.
  - intros c t Hne. rewrite Hnft. unfold deal_msgs. rewrite !moved_app, Rm, moved_split. cbn. rewrite decide_False; [done|]. intros [<- <-]. done.
  - by rewrite E1.
  - by rewrite E1.
Qed.

(** * Calls that go through *)
Definition sends (m : cmsg) : Prop :=
  match m with
  | MSend to cs => send_ok p to cs = true
  | MFairBurn c => 0 < c_amount c
  | _ => False
  end.
Lemma run_sends w ms : Forall sends ms -> (forall d, out ms d <= w_bank w (p_self p) d) -> exists b, run_msgs p w ms = Ok (set_bank w b).
Proof.
  revert w. induction ms as [|m ms IH]; intros w Hs Hb; [exists (w_bank w); by destruct w|].
  apply Forall_cons in Hs as [Hm Hs]. destruct m as [to cs|c t to|r c|c|h]; cbn [sends] in Hm; try done.
  - cbn -[covers send_ok bank_move]. rewrite Hm. assert (covers (w_bank w) (p_self p) cs = true) as Hc.
    { apply covers_spec. intros d. specialize (Hb d). cbn in Hb. lia. }
    rewrite Hc. cbn -[bank_move]. edestruct (IH (set_bank w (bank_move (w_bank w) (p_self p) to cs)) Hs) as (b&Hb'); [|by exists b]. intros d.
    pose proof (bank_move_eq _ (p_self p) to _ (p_self p) d Hc) as He. specialize (Hb d). cbn -[bank_move] in *.
    rewrite decide_True in He by done. lia.
  - cbn -[covers]. rewrite (proj2 (N.ltb_lt _ _) Hm). assert (covers (w_bank w) (p_self p) [c] = true) as Hc.
    { apply covers_spec. intros d. specialize (Hb d). cbn in *. lia. }
    rewrite Hc. cbn. edestruct (IH (set_bank w (bank_sub (w_bank w) (p_self p) [c])) Hs) as (b&Hb'); [|by exists b]. intros d. cbn. unfold bank_sub.
    rewrite bool_decide_eq_true_2 by done. specialize (Hb d). cbn in *. lia.
Qed.

(** An accepted call whose payments can be received goes through, whatever its hooks do. *)
Lemma funds_suffice w s f m st' msgs d : v1_reachable p x w -> s <> p_self p -> covers (w_bank w) s f = true ->
  execute p x (view_of p w) (env_of w) s f (w_st w) m = Ok (st', msgs) ->
  out msgs d <= w_bank (set_st (pay_in p w s f) st') (p_self p) d.
Proof.
  intros Hr Hs Hc H. pose proof (reachable_wf _ _ _ Hr) as Hw. pose proof (execute_liab _ _ _ _ _ _ _ _ _ _ d Hw H) as Hl.
  destruct (reachable_solvent _ _ _ Hr) as [_ Hb]. specialize (Hb d). pose proof (bank_move_eq (w_bank w) s (p_self p) f (p_self p) d Hc) as Hm.
  rewrite decide_False, decide_True in Hm by congruence. cbn [w_bank set_st pay_in set_bank]. lia.
Qed.
Lemma accepted_sends w s f m st' pl hs : v1_reachable p x w -> s <> p_self p -> covers (w_bank w) s f = true ->
  execute p x (view_of p w) (env_of w) s f (w_st w) m = Ok (st', pl ++ hook_msgs hs) -> Forall sends pl ->
  exists w', run_tx p (execute p x) w s f m = Ok w'.
Proof.
  intros Hr Hs Hc H Hp. unfold run_tx. rewrite bool_decide_eq_false_2, Hc by done. cbn [negb andb ensure mbind]. cbn -[execute run_msgs pay_in].
  change (view_of p (pay_in p w s f)) with (view_of p w). rewrite H. cbn [fst snd result_bind].
  destruct (run_sends (set_st (pay_in p w s f) st') pl Hp) as [b Hb].
  { intros d. pose proof (funds_suffice _ _ _ _ _ _ d Hr Hs Hc H) as Ho. rewrite out_app in Ho. lia. }
  cbn -[run_msgs pay_in]. rewrite run_msgs_app, Hb. cbn -[run_msgs pay_in]. rewrite run_msgs_hooks. by eexists.
Qed.
Lemma accepted_sale w s f m st' pl c t to hs : v1_reachable p x w -> s <> p_self p -> covers (w_bank w) s f = true ->
  execute p x (view_of p w) (env_of w) s f (w_st w) m = Ok (st', (pl ++ [MNft c t to]) ++ hook_msgs hs) -> Forall sends pl ->
  c <> p_self p -> (p_honest p c = true -> can_transfer w c t (p_self p) = true) ->
  exists w', run_tx p (execute p x) w s f m = Ok w'.
Proof.
  intros Hr Hs Hc H Hp Hcs Hct. unfold run_tx. rewrite bool_decide_eq_false_2, Hc by done. cbn [negb andb ensure mbind]. cbn -[execute run_msgs pay_in].
  change (view_of p (pay_in p w s f)) with (view_of p w). rewrite H. cbn [fst snd result_bind].
  destruct (run_sends (set_st (pay_in p w s f) st') pl Hp) as [b Hb].
  { intros d. pose proof (funds_suffice _ _ _ _ _ _ d Hr Hs Hc H) as Ho. rewrite !out_app in Ho. lia. }
  cbn -[run_msgs pay_in]. rewrite <-app_assoc, run_msgs_app, Hb. cbn [mbind]. cbn -[run_msgs pay_in app]. cbn [app run_msgs].
  rewrite (bool_decide_eq_false_2 _ Hcs). cbn [negb ensure mbind]. cbn -[run_msgs pay_in].
  destruct (p_honest p c).
  - assert (can_transfer (set_bank (set_st (pay_in p w s f) st') b) c t (p_self p) = true) as -> by exact (Hct eq_refl).
    cbn -[run_msgs pay_in]. rewrite run_msgs_hooks. by eexists.
  - cbn -[run_msgs pay_in]. rewrite run_msgs_hooks. by eexists.
Qed.

(** ** Withdrawing *)
Lemma pay_sends to n : 0 < n -> p_blocked p to = false -> sends (pay to n).
Proof. intros Hn Hb. cbn. unfold send_ok. cbn. rewrite Hb. cbn. rewrite !andb_true_r. by apply N.ltb_lt. Qed.
Lemma covers_nil (b : bank) a : covers b a [] = true.
Proof. apply covers_spec. cbn. lia. Qed.

Lemma withdraw_runs w coll tok who b : v1_reachable p x w -> p_blocked p who = false ->
  s_bids (w_st w) !! (coll, tok, who) = Some b -> exists w', run_tx p (execute p x) w who [] (RemoveBid coll tok) = Ok w'.
Proof.
  intros Hr Hb Hl. pose proof (reachable_wf _ _ _ Hr) as Hw. destruct (wf_bid _ _ Hw _ _ Hl) as (Hk&Hpos&Hs&Hv&_). injection Hk as -> -> ->.
  eapply (accepted_sends w _ _ _ _ [pay (b_bidder b) (b_price b)]); [done|done|apply covers_nil| |].
  - rewrite execute_of_sub. cbn [execute_sub]. unfold addr_validate. rewrite Hv. cbn [mbind ensure]. cbn -[erase].
    unfold execute_remove_bid. rewrite Hl. cbn -[erase]. unfold prepare_bid_hook, prepare. 
    rewrite erase_hooks. reflexivity.
  - apply List.Forall_cons; [|apply List.Forall_nil]. by apply pay_sends.
Qed.
Lemma cwithdraw_runs w coll who b : v1_reachable p x w -> p_blocked p who = false ->
  s_cbids (w_st w) !! (coll, who) = Some b -> exists w', run_tx p (execute p x) w who [] (RemoveCollectionBid coll) = Ok w'.
Proof.
  intros Hr Hb Hl. pose proof (reachable_wf _ _ _ Hr) as Hw. destruct (wf_cbid _ _ Hw _ _ Hl) as (Hk&Hpos&Hs&Hv&_). injection Hk as -> ->.
  eapply (accepted_sends w _ _ _ _ [pay (cb_bidder b) (cb_price b)]); [done|done|apply covers_nil| |].
  - rewrite execute_of_sub. cbn [execute_sub]. unfold addr_validate. rewrite Hv. cbn [mbind ensure]. cbn -[erase].
    unfold execute_remove_collection_bid. rewrite Hl. cbn -[erase]. unfold prepare_cbid_hook, prepare. 
    rewrite erase_hooks. reflexivity.
  - apply List.Forall_cons; [|apply List.Forall_nil]. by apply pay_sends.
Qed.

Lemma paid_back_intro w w1 st' who n : dispatch p (execute p x) (set_st (pay_in p w who []) st') [pay who n] w1 -> paid_back p w w1 who n /\ w_st w1 = st'.
Proof.
  intros Hd. apply dispatch_plain in Hd as (E1&_&_&_&Hbank&Hnft); [|by apply List.Forall_cons; [|apply List.Forall_nil]].
  split; [|done]. cbn [credit moved out out_one pay] in Hbank. 
  assert (forall a dn, w_bank (set_st (pay_in p w who []) st') a dn = w_bank w a dn) as E.
  { intros a dn. cbn [w_bank set_st pay_in set_bank]. pose proof (bank_move_eq (w_bank w) who (p_self p) [] a dn (covers_nil _ _)) as H.
    cbn [amt] in H. repeat case_decide; lia. }
  split_and!.
  - intros a. specialize (Hbank a "ustars"). rewrite amt_native, E, (bool_decide_eq_true_2 ("ustars" = "ustars")) in Hbank by done.
    repeat case_decide; try congruence; lia.
  - intros a dn Hdn. specialize (Hbank a dn). rewrite amt_native, E, (bool_decide_eq_false_2 ("ustars" = dn)) in Hbank by congruence. repeat case_decide; lia.
  - intros c t. by rewrite Hnft.
Qed.
Lemma withdraw_world w who f coll tok w' : v1_reachable p x w -> texec p (execute p x) who f (RemoveBid coll tok) w w' ->
  f = [] /\ exists b w1, s_bids (w_st w) !! (coll, tok, who) = Some b /\ paid_back p w w1 who (b_price b) /\
    w_st w1 = remove_bid (w_st w) coll tok who /\ dispatch p (execute p x) w1 (hook_msgs (s_bid_hooks (w_st w))) w'.
Proof.
  intros Hr H. inversion H as [s0 f0 m0 w0 st' msgs w2 Hs Hcov He Hd]; subst. apply execute_sub_of in He as (ms&He&->).
  inversion He as [| | | | |c t b Hf Hb| | | | | | | | |]; subst; try done. split; [done|].
  destruct (wf_bid _ _ (reachable_wf _ _ _ Hr) _ _ Hb) as (Hk&_). assert (b_bidder b = who) as Ew by congruence. rewrite Ew in Hd.
  unfold bid_hooks in Hd. rewrite map_app, erase_plain, erase_hooks in Hd. apply dispatch_split in Hd as (w1&Hd1&Hd2).
  apply paid_back_intro in Hd1 as [Hp E]. by exists b, w1.
Qed.
Lemma cwithdraw_world w who f coll w' : v1_reachable p x w -> texec p (execute p x) who f (RemoveCollectionBid coll) w w' ->
  f = [] /\ exists b w1, s_cbids (w_st w) !! (coll, who) = Some b /\ paid_back p w w1 who (cb_price b) /\
    w_st w1 = remove_cbid (w_st w) coll who /\ dispatch p (execute p x) w1 (hook_msgs (s_cbid_hooks (w_st w))) w'.
Proof.
  intros Hr H. inversion H as [s0 f0 m0 w0 st' msgs w2 Hs Hcov He Hd]; subst. apply execute_sub_of in He as (ms&He&->).
  inversion He as [| | | | | | | | |c b Hf Hb| | | | |]; subst; try done. split; [done|].
  destruct (wf_cbid _ _ (reachable_wf _ _ _ Hr) _ _ Hb) as (Hk&_). assert (cb_bidder b = who) as Ew by congruence. rewrite Ew in Hd.
  unfold cbid_hooks in Hd. rewrite map_app, erase_plain, erase_hooks in Hd. apply dispatch_split in Hd as (w1&Hd1&Hd2).
  apply paid_back_intro in Hd1 as [Hp E]. by exists b, w1.
Qed.

(** ** Selling *)
Lemma mul_floor_live a r : r <= 10 ^ 20 -> 100 * a <= U128_MAX -> mul_floor a r = Ok (a * r / DEC_ONE).
Proof.
  intros Hr Ha. unfold mul_floor. cbv zeta. assert (a * r / DEC_ONE <= 100 * a).
  { apply N.div_le_upper_bound; [done|]. unfold DEC_ONE. change (10 ^ 20) with (100 * 1000000000000000000) in Hr. nia. }
  by rewrite (proj2 (N.leb_le _ _)) by lia.
Qed.
Lemma add128_live a b : a + b <= U128_MAX -> add128 a b = Ok (a + b).
Proof. intros H. unfold add128. by rewrite (proj2 (N.leb_le _ _)) by lia. Qed.
Lemma sub128_live a b : b <= a -> sub128 a b = Ok (a - b).
Proof. intros H. unfold sub128. by rewrite (proj2 (N.leb_le _ _)) by lia. Qed.
Lemma bind_ok {A B} (a : A) (g : A -> result B) : (y ← Ok a; g y) = g a.
Proof. done. Qed.
Lemma payout_live v st coll price to finder bps resp ci : rate_ok (sp_trading_fee (s_params st)) ->
  (forall n, bps = Some n -> n <= 10000) -> 100 * price <= U128_MAX -> q_info v coll = Some ci ->
  0 < x_seller (split_of (sp_trading_fee (s_params st)) price finder bps (ci_royalty ci)) ->
  exists ms, payout x v st coll price to finder bps resp = Ok ms.
Proof.
  intros Hrate Hbps Hsize Hci Hpos. unfold payout. rewrite mul_floor_live; [|by apply rate_le|done]. cbn [mbind result_bind]. cbn -[mul_floor add128 sub128 dec_percent].
  rewrite Hci, floor_floor.
  pose proof (rate_part price _ Hrate) as Hfee. set (fee := price * sp_trading_fee (s_params st) / 10 ^ 20) in *.
  assert (exists fm, (match finder with
          | Some finder =>
              n ← match bps with Some b => n ← mul_floor price (dec_percent b); Ok (n / 100) | None => Ok 0 end;
              Ok (if 0 <? n then [send finder n] else [], n)
          | None => Ok ([], 0)
          end) = Ok (fm, finders_cut price finder bps)) as (fm&->).
  { unfold finders_cut. destruct finder; [|by eexists]. destruct bps as [b|]; [|by eexists].
    rewrite mul_floor_live; [|by apply rate_le, rate_percent, Hbps|done]. cbn. rewrite percent_floor. by eexists. }
  assert (finders_cut price finder bps <= price) as Hcut.
  { unfold finders_cut. destruct finder; [|lia]. destruct bps as [b|]; [|lia]. specialize (Hbps b eq_refl).
    apply N.div_le_upper_bound; [done|]. nia. }
  set (cut := finders_cut price finder bps) in *. cbn -[mul_floor add128 sub128 dec_percent].
  unfold split_of in Hpos. fold fee cut in Hpos. unfold parse_royalties.
  destruct (ci_royalty ci) as [[rt share]|]; [destruct (share =? 0) eqn:E0|].
  - cbn [x_seller] in Hpos. rewrite add128_live by lia. cbn -[mul_floor add128 sub128 dec_percent].
    rewrite (proj2 (N.leb_le _ _)) by lia. cbn -[mul_floor add128 sub128 dec_percent]. do 2 (rewrite sub128_live by lia; cbn -[mul_floor add128 sub128 dec_percent]). by eexists.
  - cbn [x_seller] in Hpos. destruct (N.le_gt_cases share (10 ^ 18)) as [Hsh|Hsh].
    2: { replace (10 ^ 18 - share) with 0 in Hpos by lia. rewrite N.mul_0_r in Hpos. cbn in Hpos. lia. }
    pose proof (complement price share Hsh) as Hcp. cbv zeta in Hcp.
    assert (10 ^ 18 <= 10 ^ 20) as H20 by (apply N.leb_le; vm_compute; reflexivity).
    assert (10 ^ 18 - share <= 10 ^ 20) as Hrs by (etrans; [apply N.le_sub_l|exact H20]). assert (share <= 10 ^ 20) as Hsh2 by (etrans; [exact Hsh|exact H20]).
    rewrite (mul_floor_live _ _ Hsh2 Hsize). rewrite bind_ok. change DEC_ONE with (10 ^ 18) in *.
    set (r := price * share / 10 ^ 18) in *. set (q := price * (10 ^ 18 - share) / 10 ^ 18) in *.
    rewrite add128_live by lia. rewrite bind_ok. rewrite add128_live by lia. rewrite bind_ok.
    rewrite (proj2 (N.leb_le _ _)) by lia. cbn [ensure]. rewrite bind_ok, (sub128_live _ _ Hsh). rewrite bind_ok.
    rewrite (mul_floor_live _ _ Hrs Hsize). rewrite bind_ok. change DEC_ONE with (10 ^ 18). fold q.
    rewrite sub128_live by lia. rewrite bind_ok. rewrite sub128_live by lia. by eexists.
  - cbn [x_seller] in Hpos. rewrite add128_live by lia. cbn -[mul_floor add128 sub128 dec_percent].
    rewrite (proj2 (N.leb_le _ _)) by lia. cbn -[mul_floor add128 sub128 dec_percent]. do 2 (rewrite sub128_live by lia; cbn -[mul_floor add128 sub128 dec_percent]). by eexists.
Qed.

Lemma only_owner_live v s coll tok : owns v s coll tok -> only_owner v s coll tok = Ok tt.
Proof. unfold only_owner, owns, tok_str. intros ->. by rewrite bool_decide_eq_true_2. Qed.
Lemma only_tradable_live v e coll ci : q_info v coll = Some ci -> tradable v e coll -> only_tradable v e coll = Ok tt.
Proof.
  intros Hci H. unfold only_tradable. rewrite Hci. destruct (ci_start ci) as [start|] eqn:E; [|done]. specialize (H ci start Hci E).
  assert (e_time e <? start = false) as -> by (by apply N.ltb_ge). done.
Qed.
Lemma live_live t e : live e t -> negb (is_expired t e) = true.
Proof. unfold is_expired, live. intros H. apply negb_true_iff, N.leb_gt. done. Qed.
Lemma maybe_addr_live o : (forall a, o = Some a -> p_valid p a = true) -> maybe_addr p o = Ok o.
Proof. intros H. destruct o as [a|]; [|done]. cbn. unfold addr_validate. by rewrite (H a eq_refl). Qed.
Lemma finders_live st bps : finder_allowed st bps -> finders_ok st bps = Ok tt.
Proof.
  unfold finders_ok, finder_allowed. intros H. destruct bps as [b|]; [|done]. specialize (H b eq_refl). unfold dec_percent.
  change (10 ^ 16) with 10000000000000000 in H. by rewrite (proj2 (N.leb_le _ _)).
Qed.
Lemma expiry_live r e t : in_window r (e_time e) t -> er_min r <= er_max r -> e_time e + er_max r * 1000000000 <= U64_MAX ->
  expiry_is_valid r e t = Ok tt.
Proof.
  unfold in_window, expiry_is_valid, t_plus_seconds, NANOS. intros [H1 H2] H3 H4.
  rewrite (proj2 (N.leb_le (e_time e + er_min r * 1000000000) _)) by lia. cbn.
  rewrite (proj2 (N.ltb_lt _ _)) by lia. cbn.
  rewrite (proj2 (N.leb_le (e_time e + er_max r * 1000000000) _)) by lia. cbn.
  by rewrite (proj2 (N.leb_le _ _)) by lia.
Qed.
Lemma must_pay_live n : 0 < n -> must_pay [native n] "ustars" = Ok n.
Proof. intros H. unfold must_pay, one_coin. cbn. destruct n; [done|]. done. Qed.

Lemma finalize_live v st a price buyer finder to resp ci : rate_ok (sp_trading_fee (s_params st)) ->
  (forall n, k_finders a = Some n -> n <= 10000) -> 100 * price <= U128_MAX -> q_info v (k_coll a) = Some ci ->
  0 < x_seller (split_of (sp_trading_fee (s_params st)) price finder (k_finders a) (ci_royalty ci)) ->
  exists ms, finalize_sale x v st a price buyer finder to resp = Ok ms.
Proof.
  intros H1 H2 H3 H4 H5. unfold finalize_sale.
  destruct (payout_live v st (k_coll a) price (address_or (k_recipient a) (k_seller a)) finder (k_finders a) resp ci H1 H2 H3 H4 H5) as [ms ->].
  by eexists.
Qed.

Lemma deal_accepted v e s f st m d ci : v1_history p x st -> closes v e s f st m d -> names_ok p m -> limits_ok e st m (d_price d) ->
  q_info v (d_coll d) = Some ci -> 100 * d_price d <= U128_MAX -> 0 < x_seller (deal_split st ci d) ->
  exists st' msgs, execute p x v e s f st m = Ok (st', msgs).
Proof.
  intros Hst Hc Hn Hlim Hci Hsize Hpos. pose proof (history_wf _ _ _ Hst) as Hw. pose proof (po_fee _ (wf_params _ _ Hw)) as Hfee.
  assert (forall r : result (state * list smsg), (exists st' ms, r = Ok (st', ms)) ->
    exists st' msgs, match r with Ok (st', ms) => Ok (st', map erase ms) | Err er => Err er end = Ok (st', msgs)) as Hmap.
  { intros r (st'&ms&->). by do 2 eexists. }
  rewrite execute_of_sub. apply Hmap. clear Hmap.
  destruct Hc as [coll tok bidder finder b -> -> Ho Ht Hb Hl|coll tok bidder finder b -> -> Ho Ht Hb Hl|ba a Hba Ha Hty Hact Hl Hr -> Ho Hfi];
    cbn [d_coll d_price] in *; unfold deal_split in Hpos; cbn [d_price d_finder d_bps] in Hpos.
  - destruct Hn as (Hv1&Hv2&Hv3). destruct (wf_bid _ _ Hw _ _ Hb) as (_&Hpos'&_&_&Hbps).
    cbn [execute_sub]. unfold addr_validate. rewrite Hv1, Hv2. cbn [mbind ensure]. cbn -[execute_accept_bid maybe_addr].
    rewrite maybe_addr_live by done. cbn -[execute_accept_bid]. unfold execute_accept_bid.
    rewrite (only_owner_live _ _ _ _ Ho), (only_tradable_live _ _ _ _ Hci Ht), Hb. cbn -[finalize_sale]. rewrite live_live by done.
    cbn -[finalize_sale remove_ask remove_bid].
    edestruct (finalize_live v (remove_bid (match s_asks st !! (coll, tok) with Some _ => remove_ask st coll tok | None => st end) coll tok bidder)
      (Ask Auction coll tok s (b_price b) (Some s) None (b_finders b) (b_expires b) true) (b_price b) bidder finder None []) as [ms Hms].
    + by destruct (s_asks st !! (coll, tok)).
    + done.
    + done.
    + done.
    + by destruct (s_asks st !! (coll, tok)).
    + rewrite Hms. by do 2 eexists.
  - destruct Hn as (Hv1&Hv2&Hv3). destruct (wf_cbid _ _ Hw _ _ Hb) as (_&Hpos'&_&_&Hbps).
    cbn [execute_sub]. unfold addr_validate. rewrite Hv1, Hv2. cbn [mbind ensure]. cbn -[execute_accept_collection_bid maybe_addr].
    rewrite maybe_addr_live by done. cbn -[execute_accept_collection_bid]. unfold execute_accept_collection_bid.
    rewrite (only_owner_live _ _ _ _ Ho), (only_tradable_live _ _ _ _ Hci Ht), Hb. cbn -[finalize_sale]. rewrite live_live by done.
    cbn -[finalize_sale remove_ask remove_cbid].
    edestruct (finalize_live v (match s_asks st !! (coll, tok) with Some _ => remove_ask (remove_cbid st coll bidder) coll tok | None => remove_cbid st coll bidder end)
      (Ask Auction coll tok s (cb_price b) (Some s) None (cb_finders b) (cb_expires b) true) (cb_price b) bidder finder None []) as [ms Hms].
    + by destruct (s_asks st !! (coll, tok)).
    + done.
    + done.
    + done.
    + by destruct (s_asks st !! (coll, tok)).
    + rewrite Hms. by do 2 eexists.
  - destruct (wf_ask _ _ Hw _ _ Ha) as (Hk&Hpr&_&_&Hbps&_). injection Hk as Hk1 Hk2. destruct (Hlim ba Hba) as (Hfa&Hmin&Hwin&Htime).
    assert (exists st' ms, execute_set_bid x v e s [native (k_price a)] st (ba_coll ba) (ba_tok ba) (ba_bps ba) (ba_expires ba) (ba_finder ba) (ba_to ba) (ba_now ba)
      = Ok (st', ms)) as Hgo.
    { unfold execute_set_bid. rewrite bool_decide_eq_true_2, (finders_live _ _ Hfa) by done. rewrite must_pay_live by done.
      cbn [ensure mbind result_bind]. cbn -[execute_set_bid finalize_sale expiry_is_valid N.compare remove_bid remove_ask].
      rewrite (proj2 (N.leb_le _ _)) by done. cbn -[execute_set_bid finalize_sale expiry_is_valid N.compare remove_bid remove_ask].
      rewrite (expiry_live _ _ _ Hwin (po_bid _ (wf_params _ _ Hw)) Htime). cbn -[execute_set_bid finalize_sale expiry_is_valid N.compare remove_bid remove_ask].
      set (pr := match s_bids st !! (ba_coll ba, ba_tok ba, s) with Some old => (remove_bid st (ba_coll ba) (ba_tok ba) s, [send s (b_price old)]) | None => (st, []) end).
      assert (s_asks (fst pr) = s_asks st /\ s_params (fst pr) = s_params st) as [E1 E2] by (unfold pr; by destruct (s_bids st !! _)).
      destruct pr as [st1 res]. cbn [fst] in E1, E2. rewrite E1, Ha. rewrite live_live, Hact by done. 
      cbn -[execute_set_bid finalize_sale expiry_is_valid N.compare remove_bid remove_ask].
      assert (match k_reserve a with Some r => ensure (bool_decide (r = s)) EUnauthorized | None => Ok () end = Ok tt) as ->.
      { destruct (k_reserve a) as [r|]; [|done]. by rewrite bool_decide_eq_true_2 by (by apply Hr). }
      cbn -[execute_set_bid finalize_sale expiry_is_valid N.compare remove_bid remove_ask].
      rewrite Hty, N.compare_refl. unfold owns in Ho. rewrite Hk1, Hk2 in Ho. unfold tok_str. rewrite Ho, bool_decide_eq_true_2 by done.
      cbn -[execute_set_bid finalize_sale expiry_is_valid N.compare remove_bid remove_ask].
      edestruct (finalize_live v (remove_ask st1 (ba_coll ba) (ba_tok ba)) a (k_price a) s (ba_finder ba) (ba_to ba) res) as [ms Hms].
      - cbn. by rewrite E2.
      - done.
      - done.
      - by rewrite <-Hk1.
      - cbn [s_params remove_ask set_asks]. by rewrite E2.
      - rewrite Hms. by do 2 eexists. }
    destruct m; try done; injection Hba as <-; cbn [ba_coll ba_tok ba_expires ba_finder ba_bps ba_to ba_now] in *; cbn [execute_sub].
    all: cbn [names_ok] in Hn.
    + destruct Hn as (Hv1&Hv2). unfold addr_validate. rewrite Hv1. cbn [mbind ensure]. cbn -[execute_set_bid maybe_addr].
      rewrite maybe_addr_live by done. exact Hgo.
    + destruct Hn as (Hv1&Hv2). unfold addr_validate. rewrite Hv1. cbn [mbind ensure]. cbn -[execute_set_bid maybe_addr].
      rewrite maybe_addr_live by done. exact Hgo.
    + destruct Hn as (Hv1&Hv2&Hv3). unfold addr_validate. rewrite Hv1, Hv3. cbn [mbind ensure]. cbn -[execute_set_bid maybe_addr].
      rewrite maybe_addr_live by done. exact Hgo.
Qed.

Lemma sale_runs w s f m d ci : v1_reachable p x w -> s <> p_self p -> covers (w_bank w) s f = true ->
  closes (view_of p w) (env_of w) s f (w_st w) m d -> names_ok p m -> limits_ok (env_of w) (w_st w) m (d_price d) ->
  o_info (w_ora w) (d_coll d) = Some ci -> deal_payable p x (w_st w) ci d -> (refund_due (w_st w) m s <> 0 -> p_blocked p s = false) ->
  d_coll d <> p_self p -> (p_honest p (d_coll d) = true -> can_transfer w (d_coll d) (pretty (d_tok d)) (p_self p) = true) ->
  exists w', run_tx p (execute p x) w s f m = Ok w'.
Proof.
  intros Hr Hs Hcov Hc Hn Hlim Hci [Hsize Hfee Hfi Hroy Hsel Hto] Href Hcs Hct. pose proof (reachable_history _ _ _ Hr) as Hst.
  destruct (deal_accepted _ _ _ _ _ _ _ ci Hst Hc Hn Hlim Hci Hsize Hsel) as (st'&msgs&He).
  destruct (closes_sells _ _ _ _ _ _ _ _ _ Hst He Hc) as (ci'&Hci'&Hfit&->&Hask). assert (ci' = ci) as -> by (cbn in Hci'; congruence).
  unfold deal_msgs in He. rewrite (app_assoc (refund_first _ _ _)) in He. eapply accepted_sale; try done.
  apply Forall_app_2.
  - unfold refund_first, refund_of, refund_due in *. destruct (bid_call m) as [ba|]; [|apply List.Forall_nil]. destruct (s_bids _ !! _) as [bb|] eqn:E; [|apply List.Forall_nil].
    apply List.Forall_cons; [|apply List.Forall_nil]. destruct (wf_bid _ _ (history_wf _ _ _ Hst) _ _ E) as (_&Hp&_). apply pay_sends; [done|]. apply Href. lia.
  - unfold split_msgs. apply Forall_app_2; [|apply Forall_app_2; [|apply Forall_app_2]].
    + destruct (x_fee _ =? 0) eqn:E0.
      * destruct Hfee as [Hfee| ->]; [apply N.eqb_eq in E0; lia|]. apply List.Forall_nil.
      * apply List.Forall_cons; [|apply List.Forall_nil]. cbn. apply N.eqb_neq in E0. lia.
    + destruct (d_finder d) as [g|]; [|apply List.Forall_nil]. destruct (x_finder _ =? 0) eqn:E0; [apply List.Forall_nil|].
      apply List.Forall_cons; [|apply List.Forall_nil]. apply N.eqb_neq in E0. apply pay_sends; [lia|by apply Hfi].
    + destruct (x_royalty _) as [[to n]|]; [|apply List.Forall_nil]. apply List.Forall_cons; [|apply List.Forall_nil].
      destruct (Hroy to n eq_refl). by apply pay_sends.
    + apply List.Forall_cons; [|apply List.Forall_nil]. by apply pay_sends.
Qed.
End Live.
