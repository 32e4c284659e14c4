(** Marketplace v2 calls that must succeed: placing orders (C22), fee arithmetic (C28), selling into a bid. *)
From Verif Require Import Base BaseFacts Common Chain ChainFacts IndexRange IndexFacts SaleFacts V2Model V2Spec
  V2Facts V2Match V2Inv V2Sale V2Trade V2Reach V2Book.

Section Live.
Context (p : params).

(** * Fees *)
Lemma fee_arith price P b b' R margin c1 c2 c3 c4 e2 e3 e4 :
  b + b' < 10000 ->
  100000000 * c1 <= price * P * (10000 - b - b') + 100000000 ->
  100000000 * c2 <= price * P * b + e2 * 100000000 -> 100000000 * c3 <= price * P * b' + e3 * 100000000 ->
  1000000000000000000 * c4 <= price * R + e4 * 1000000000000000000 ->
  P * 100000000000000 + R + margin <= 1000000000000000000 ->
  (1 + e2 + e3 + e4) * 1000000000000000000 <= price * margin -> c1 + c2 + c3 + c4 <= price.
Proof.
  intros Hb H1 H2 H3 H4 Hm Hn.
  assert (price * P * (10000 - b - b') + price * P * b + price * P * b' = price * P * 10000) as Hs.
  { rewrite <-!N.mul_add_distr_l. f_equal. lia. }
  apply N.mul_le_mono_l with (p := price) in Hm. rewrite !N.mul_add_distr_l in Hm.
  set (A := price * P * (10000 - b - b')) in *. set (B := price * P * b) in *. set (C := price * P * b') in *.
  clearbody A B C. set (X := price * margin) in *. set (Y := price * R) in *. clearbody X Y. lia.
Qed.
Lemma dues_fit v cfg a mb f margin :
  config_check cfg = Ok tt -> fees_leave_room p v cfg a mb f margin ->
  total_dues (sale_dues p v cfg a mb f) <= c_amount (trade_price a mb f).
Proof.
  intros [Hp Hr]%config_check_Ok [Hm Hn]. revert Hm Hn. unfold sale_dues. cbv zeta.
  set (price := c_amount _). generalize (maker a mb f), (taker a mb f). intros mk tk.
  unfold protocol_part, reward_part.
  set (P := cf_protocol_bps cfg) in *. set (M := cf_maker_bps cfg) in *. set (T := cf_taker_bps cfg) in *.
  assert (forall x, 100000000 * ceil_div x 100000000 <= x + 1 * 100000000) as HC.
  { intros x. pose proof (ceil_div_spec x 100000000 ltac:(lia)). lia. }
  assert (forall x, 1000000000000000000 * ceil_div x 1000000000000000000 <= x + 1 * 1000000000000000000) as HD.
  { intros x. pose proof (ceil_div_spec x 1000000000000000000 ltac:(lia)). lia. }
  assert (exists c4 R e4, total_dues (match royalty_due p v cfg (a_coll a) with
      | Some (r, s) => [(r, royalty_part cfg price s)] | None => [] end) = c4 /\
      R = match royalty_due p v cfg (a_coll a) with
          | Some (_, s) => s `min` (cf_max_royalty_bps cfg * 100000000000000) | None => 0 end /\
      N.of_nat (length (match royalty_due p v cfg (a_coll a) with
      | Some (r, s) => [(r, royalty_part cfg price s)] | None => [] end)) = e4 /\
      1000000000000000000 * c4 <= price * R + e4 * 1000000000000000000) as (c4&R&e4&E1&E2&E3&H4).
  { eexists _, _, _. split_and!; [done..|]. destruct (royalty_due p v cfg (a_coll a)) as [[r s]|]; cbn [total_dues foldr length snd]; [|lia].
    unfold royalty_part. pose proof (HD (price * (s `min` (cf_max_royalty_bps cfg * 100000000000000)))). lia. }
  rewrite <-E2. intros Hm Hn. unfold total_dues in *. rewrite !app_length in Hn. rewrite !foldr_app.
  assert (forall l n, foldr (fun (x : string * N) n => snd x + n) n l = foldr (fun x n => snd x + n) 0 l + n) as Hf.
  { induction l as [|x l IH]; intros n; cbn; [lia|]. rewrite IH. lia. }
  rewrite (Hf (match royalty_due p v cfg (a_coll a) with Some _ => _ | None => _ end)), E1.
  pose proof (HC (price * P * (10000 - if_some mk M - if_some tk T))) as H1.
  pose proof (HC (price * P * if_some mk M)) as H2. pose proof (HC (price * P * if_some tk T)) as H3.
  assert (if_some mk M + if_some tk T < 10000) as Hlt by (destruct mk, tk; cbn; lia).
  destruct mk as [mk|], tk as [tk|]; cbn [foldr length snd if_some] in *.
  - epose proof (fee_arith _ _ _ _ _ _ _ _ _ _ 1 1 _ Hlt ltac:(rewrite <-(N.mul_1_l 100000000) at 2; exact H1) H2 H3 H4 Hm). lia.
  - epose proof (fee_arith _ _ _ _ _ _ _ _ 0 _ 1 0 _ Hlt ltac:(rewrite <-(N.mul_1_l 100000000) at 2; exact H1) H2 ltac:(lia) H4 Hm). lia.
  - epose proof (fee_arith _ _ _ _ _ _ _ 0 _ _ 0 1 _ Hlt ltac:(rewrite <-(N.mul_1_l 100000000) at 2; exact H1) ltac:(lia) H3 H4 Hm). lia.
  - epose proof (fee_arith _ _ _ _ _ _ _ 0 0 _ 0 0 _ Hlt ltac:(rewrite <-(N.mul_1_l 100000000) at 2; exact H1) ltac:(lia) ltac:(lia) H4 Hm). lia.
Qed.

Lemma sale_succeeds v st a cfg mb f resp margin :
  config_check cfg = Ok tt -> 0 < c_amount (trade_price a mb f) -> c_amount (trade_price a mb f) <= U128_MAX ->
  royalty_answers p v cfg (a_coll a) -> fees_leave_room p v cfg a mb f margin ->
  exists st' msgs, finalize_sale p v st a cfg mb f resp = Ok (st', msgs).
Proof. intros Hc H1 H2 [H3 H4] H5. apply finalize_sale_success; try done. by eapply dues_fit. Qed.

(** * Placing bids *)
Lemma details_ok d : named_ok p d -> details_str_to_addr p d = Ok d.
Proof.
  intros [Hr Hf]. unfold details_str_to_addr, maybe_addr, addr_validate. destruct d as [c r f]. cbn in *.
  destruct r as [r|], f as [f|]; cbn; rewrite ?(Hr _ eq_refl); cbn; rewrite ?(Hf _ eq_refl); done.
Qed.
Lemma tradable_ok v e coll : ~ not_yet_tradable v e coll -> only_tradable v e coll = Ok tt.
Proof.
  intros H. unfold only_tradable. destruct (q_info v coll) as [ci|] eqn:Ei; [|done].
  destruct (ci_start ci) as [s|] eqn:Es; [|done]. destruct (e_time e <? s) eqn:E; [|done].
  exfalso. apply H. exists ci, s. split_and!; try done. lia.
Qed.
Lemma priced_ok st coll c : priced st coll c -> only_valid_price st (s_config st) coll c = Ok tt.
Proof.
  intros [H1 H2]. unfold only_valid_price. rewrite (proj2 (N.ltb_lt _ _)) by done. cbn.
  rewrite bool_decide_eq_true_2; [done|]. rewrite H2. by destruct (s_denoms st !! coll).
Qed.
Lemma normalize_one c : 0 < c_amount c -> nb_normalize [c] = Ok [c].
Proof. intros H. cbn. destruct (c_amount c =? 0) eqn:E; [lia|]. done. Qed.
Lemma sub_self c : 0 < c_amount c -> funds_sub [c] c = Ok [].
Proof.
  intros H. unfold funds_sub. cbn. rewrite bool_decide_eq_true_2 by done.
  destruct (c_amount c <? c_amount c) eqn:E; [lia|]. by rewrite N.sub_diag.
Qed.

Local Arguments be8 : simpl never.
Lemma place_bid n v e sender st coll tok d :
  collision_free p -> prefix_free p -> N.of_nat n < U64_MAX -> v2_history p n st ->
  p_valid p coll = true -> named_ok p d -> ~ not_yet_tradable v e coll -> priced st coll (d_price d) ->
  (forall a, ~ offered st coll (Some tok) (d_price d) a) ->
  exists st' i, execute p v e sender [d_price d] st (SetBid coll tok d) = Ok (st', []) /\
    s_bids st !! i = None /\ s_bids st' = <[i := Bid i sender coll tok d]> (s_bids st) /\
    s_asks st' = s_asks st /\ s_cbids st' = s_cbids st.
Proof.
  intros Hcf Hpf Hn Hh Hv Hd Ht Hp Hno. pose proof (history_wf _ _ _ Hh) as Hwf.
  pose proof (history_fresh p n st e (SetBid coll tok d) Hcf Hn Hh) as [Hfr _]. specialize (Hfr _ eq_refl).
  cbn [execute]. unfold addr_validate. rewrite Hv. cbn -[generate_id]. rewrite details_ok by done. cbn -[generate_id].
  unfold execute_set_bid. rewrite tradable_ok, priced_ok by done. cbn -[generate_id bid_new nb_normalize].
  destruct Hp as [Hp _]. rewrite normalize_one by done. cbn -[generate_id bid_new].
  set (b := bid_new _ _ _ _ _ _ _).
  destruct (bid_match_with_ask p (set_nonce st (next_nonce st)) b) as [a|] eqn:E.
  { exfalso. apply (Hno a).
    assert (bid_match_with_ask p st b = Some a) as E' by exact E.
    apply bid_match_offered in E'; try done. apply E'. }
  cbn -[generate_id]. rewrite sub_self by done. cbn -[generate_id]. rewrite Hfr. cbn -[generate_id].
  eexists _, _. split_and!; [reflexivity|exact Hfr|reflexivity..].
Qed.
Lemma place_cbid n v e sender st coll d :
  collision_free p -> N.of_nat n < U64_MAX -> v2_history p n st ->
  p_valid p coll = true -> named_ok p d -> ~ not_yet_tradable v e coll -> priced st coll (d_price d) ->
  c_amount (d_price d) < U128_MAX -> (forall a, ~ offered st coll None (d_price d) a) ->
  exists st' i, execute p v e sender [d_price d] st (SetCollectionBid coll d) = Ok (st', []) /\
    s_cbids st !! i = None /\ s_cbids st' = <[i := CBid i sender coll d]> (s_cbids st) /\
    s_asks st' = s_asks st /\ s_bids st' = s_bids st.
Proof.
  intros Hcf Hn Hh Hv Hd Ht Hp Hmax Hno. pose proof (history_wf _ _ _ Hh) as Hwf.
  pose proof (history_fresh p n st e (SetCollectionBid coll d) Hcf Hn Hh) as [_ Hfr]. specialize (Hfr _ eq_refl).
  cbn [execute]. unfold addr_validate. rewrite Hv. cbn -[generate_id]. rewrite details_ok by done. cbn -[generate_id].
  unfold execute_set_collection_bid. rewrite tradable_ok, priced_ok by done. cbn -[generate_id cbid_new nb_normalize].
  destruct Hp as [Hp _]. rewrite normalize_one by done. cbn -[generate_id cbid_new cbid_match_with_ask].
  set (cb := cbid_new _ _ _ _ _ _).
  destruct (cbid_match_with_ask (set_nonce st (next_nonce st)) cb) as [[a|]|err] eqn:E.
  { exfalso. apply (Hno a).
    assert (cbid_match_with_ask st cb = Ok (Some a)) as E' by exact E.
    apply (cbid_match_cheapest p) in E'; try done. apply E'. }
  2: { exfalso. unfold cbid_match_with_ask, add128 in E. cbn -[U128_MAX] in E.
       destruct (_ <=? _) eqn:E1 in E; [discriminate E|]. apply N.leb_gt in E1. lia. }
  cbn -[generate_id]. rewrite sub_self by done. cbn -[generate_id]. rewrite Hfr. cbn -[generate_id].
  eexists _, _. split_and!; [reflexivity|exact Hfr|reflexivity..].
Qed.

(** * Responses the chain can execute *)
Fixpoint nfts (ms : list cmsg) : nat :=
  match ms with [] => O | MNft _ _ _ :: ms => S (nfts ms) | _ :: ms => nfts ms end.
Definition fine (m : cmsg) : Prop :=
  match m with
  | MSend _ cs => cs <> [] /\ Forall (fun c => 0 < c_amount c) cs
  | MFairBurn _ | MHook _ => False
  | _ => True
  end.
Lemma nfts_app ms1 ms2 : nfts (ms1 ++ ms2) = (nfts ms1 + nfts ms2)%nat.
Proof. induction ms1 as [|m ms1 IH]; [done|]. destruct m; cbn; rewrite IH; done. Qed.
Lemma change_fine s post : change_to s post -> Forall fine post /\ nfts post = 0%nat.
Proof. intros [->|(cs&->&H1&H2)]; [by split; [constructor|]|]. split; [|done]. by constructor. Qed.
Lemma sends_fine dn l : Forall (fun x => 0 < snd x) l -> Forall fine (send_one dn <$> l) /\ nfts (send_one dn <$> l) = 0%nat.
Proof.
  induction 1 as [|x l Hx _ [IH1 IH2]]; [by split; [constructor|]|]. split; [|done]. constructor; [|done]. cbn. split; [done|]. by constructor.
Qed.

Lemma settles_fine v cfg sender funds m msgs a mb f :
  settles p v cfg sender funds m msgs a mb f ->
  (forall coll tok d, m = SetAsk coll tok d \/ m = SellNft coll tok d -> funds <> [] /\ Forall (fun c => 0 < c_amount c) funds) ->
  Forall fine msgs /\ (nfts msgs <= 1)%nat.
Proof.
  intros (pre&post&->&(fee&reg&->&Hfee&Hreg)&Hpost&_) Hf.
  apply change_fine in Hpost as [Hp1 Hp2].
  destruct (sends_fine (c_denom (trade_price a mb f)) (sale_payments p v cfg a mb f)) as [Hs1 Hs2].
  { unfold sale_payments. cbv zeta. apply Forall_forall. intros x. rewrite elem_of_list_In, filter_In. lia. }
  assert (Forall fine fee /\ nfts fee = 0%nat) as [Hf1 Hf2].
  { destruct Hfee as [[(c&t&d&Hm) ->]|[_ ->]]; [|done]. split; [|done]. constructor; [|done]. cbn. by eapply Hf. }
  assert (Forall fine reg /\ nfts reg = 0%nat) as [Hr1 Hr2] by (destruct Hreg as [->| ->]; by repeat constructor).
  split.
  - rewrite !Forall_app. split_and!; try done. by constructor.
  - rewrite !nfts_app. cbn [nfts]. rewrite Hf2, Hr2, Hs2, Hp2. done.
Qed.
Lemma response_fine v e sender funds st m st' msgs :
  wf p st -> execute p v e sender funds st m = Ok (st', msgs) -> Forall fine msgs /\ (nfts msgs <= 1)%nat.
Proof.
  intros Hwf H%execute_effect. pose proof H as H'.
  apply effect_sale_or_not in H' as [(Hrc&_)|(a&mb&f&pre&post&Hr)]; [| |done].
  - assert (forall fs, all_pos fs -> Forall fine (refund sender fs) /\ (nfts (refund sender fs) <= 1)%nat) as Hre.
    { intros fs Hfs. destruct (change_fine sender (refund sender fs)) as [? ->]; [by apply refund_change|]. split; [done|lia]. }
    destruct H; cbn [rest_cause] in Hrc; try done.
    all: repeat match goal with
      | H : s_bids _ !! _ = Some _ |- _ => destruct (wf_bid _ _ Hwf _ _ H) as (_&?&_); revert H
      | H : s_cbids _ !! _ = Some _ |- _ => destruct (wf_cbid _ _ Hwf _ _ H) as (_&?&_); revert H end; intros.
    all: repeat match goal with H : _ = _ \/ _ = _ |- _ => destruct H; subst end.
    all: try (by apply Hre; eauto using nb_sub_pos, nb_normalize_pos, nb_add_pos).
    all: try (split; [|cbn; lia]; repeat (apply Forall_cons_2 || apply Forall_nil_2); cbn [fine]; try exact I; (split; [done|by apply Forall_singleton])).
    all: repeat match goal with b := _ |- _ => subst b end; exfalso; cbn [rest_cause] in Hrc; try done; try congruence.
    all: destruct Hrc as (?&?&?&?); simplify_eq; try congruence.
  - assert (forall coll tok d, m = SetAsk coll tok d \/ m = SellNft coll tok d ->
      funds <> [] /\ Forall (fun c => 0 < c_amount c) funds) as Hf.
    { intros coll tok d Hm. destruct H; destruct Hm; try discriminate; subst; split; try done; try (by repeat constructor).
      all: try (match goal with H : is_admin_msg _ = true |- _ => discriminate H end).
      all: repeat match goal with H : _ = _ \/ _ = _ |- _ => destruct H; simplify_eq end. }
    eapply settles_fine; [|exact Hf]. by eapply sale_settles.
Qed.

Lemma run_msgs_live (w : world state) ms :
  Forall fine ms -> (nfts ms <= 1)%nat -> receivable p ms -> movable p w ms ->
  (forall d, paid_out ms d <= w_bank w (p_self p) d) ->
  exists w', run_msgs p w ms = Ok w' /\ w_st w' = w_st w /\
    (forall c t to, MNft c t to ∈ ms -> p_honest p c = true -> w_nft w' c t = Some to) /\
    (nfts ms = 0%nat -> w_nft w' = w_nft w).
Proof.
  intros Hf. revert w. induction Hf as [|m ms Hm Hf IH]; intros w Hn Hr Hmv Hb.
  { exists w. split_and!; try done. by intros ? ? ? ?%elem_of_nil. }
  assert (receivable p ms) as Hr' by (intros to cs ?; eapply Hr; by right).
  destruct m as [to cs|c t to|r c|c|h]; try done.
  - cbn [run_msgs]. destruct Hm as [Hm1 Hm2].
    rewrite (proj2 (ensure_Ok _ _ tt)).
    2: { apply andb_true_intro. split.
         - unfold send_ok. rewrite (Hr to cs) by (by left). rewrite bool_decide_eq_false_2 by done. cbn.
           rewrite andb_true_r. apply forallb_forall. intros x Hx. rewrite Forall_forall in Hm2.
           apply N.ltb_lt, Hm2. by apply elem_of_list_In.
         - apply covers_spec. intros d. specialize (Hb d). cbn [paid_out] in Hb. rewrite coins_in_amt in Hb. lia. }
    cbn [mbind result_bind].
    destruct (IH (set_bank w (bank_move (w_bank w) (p_self p) to cs))) as (w'&Hrun&Hst&Hnf&Hnf0); try done.
    + intros c t to' Hin. apply Hmv with to'. by right.
    + intros d. specialize (Hb d). cbn [paid_out] in Hb. rewrite coins_in_amt in Hb. cbn [set_bank w_bank].
      pose proof (bank_move_out_ge (w_bank w) (p_self p) to cs d). lia.
    + exists w'. split_and!; try done. intros c t to' [Heq|Hin]%elem_of_cons; [discriminate|]. by apply Hnf.
  - cbn [run_msgs]. destruct (Hmv c t to) as [Hc Hct]; [by left|].
    rewrite bool_decide_eq_false_2 by done. cbn [negb ensure mbind result_bind].
    cbn [nfts] in Hn. assert (nfts ms = 0%nat) as Hn0 by lia.
    assert (forall c t to, MNft c t to ∉ ms) as Hnone.
    { clear -Hn0. induction ms as [|m ms IH]; intros c t to; [apply not_elem_of_nil|].
      rewrite not_elem_of_cons. destruct m; cbn in Hn0; try (split; [done|by apply IH]). }
    assert (forall w1 : world state, (forall d, w_bank w (p_self p) d = w_bank w1 (p_self p) d) ->
      exists w', run_msgs p w1 ms = Ok w' /\ w_st w' = w_st w1 /\ w_nft w' = w_nft w1) as Hrest.
    { intros w1 Hb1. destruct (IH w1) as (w'&H1&H2&_&H3); [lia|done| | |exists w'; auto].
      - intros c' t' to' Hin. by apply Hnone in Hin.
      - intros d. specialize (Hb d). rewrite Hb1 in Hb. exact Hb. }
    destruct (p_honest p c) eqn:Eh.
    + rewrite Hct by done. cbn [ensure mbind result_bind].
      destruct (Hrest (nft_transfer w c t to)) as (w'&H1&H2&H3); [done|].
      exists w'. split_and!; try done. intros c' t' to' [Heq|Hin]%elem_of_cons; [|by apply Hnone in Hin].
      injection Heq as -> -> ->. intros _. rewrite H3. cbn. by rewrite bool_decide_eq_true_2.
    + destruct (Hrest w) as (w'&H1&H2&H3); [done|].
      exists w'. split_and!; try done. intros c' t' to' [Heq|Hin]%elem_of_cons; [|by apply Hnone in Hin]. congruence.
  - cbn [run_msgs]. destruct (IH w) as (w'&?&?&Hnf&?); try done.
    + intros c' t to' Hin. apply Hmv with to'. by right.
    + exists w'. split_and!; try done. intros c' t to' [Heq|Hin]%elem_of_cons; [discriminate|]. by apply Hnf.
Qed.

(** A call the contract accepts is executed by the chain, unless a recipient is blocked or an NFT contract refuses. *)
Lemma accepted_executes w sender funds m st' msgs :
  reachable p w -> sender <> p_self p -> covers (w_bank w) sender funds = true ->
  execute p (view_of p (pay_in p w sender funds)) (env_of w) sender funds (w_st w) m = Ok (st', msgs) ->
  receivable p msgs -> movable p w msgs ->
  exists w', run_tx p (execute p) w sender funds m = Ok w' /\ w_st w' = st' /\
    (forall c t to, MNft c t to ∈ msgs -> p_honest p c = true -> w_nft w' c t = Some to).
Proof.
  intros Hre Hs Hc He Hr Hm. pose proof (reachable_wf _ _ Hre) as Hwf.
  destruct (response_fine _ _ _ _ _ _ _ _ Hwf He) as [Hf Hn].
  unfold run_tx. rewrite bool_decide_eq_false_2 by done. rewrite Hc. cbn [negb andb ensure mbind result_bind].
  rewrite He. cbn [mbind result_bind fst snd].
  destruct (run_msgs_live (set_st (pay_in p w sender funds) st') msgs) as (w'&Hrun&Hst&Hnf&_); try done; [|eauto 10].
  intros d. pose proof (wf_conservation p _ _ _ _ _ _ _ _ d Hwf He) as Hcon.
  pose proof (reachable_escrow p w d Hre) as Hesc. cbn [set_st pay_in set_bank w_bank].
  rewrite coins_in_amt in Hcon. rewrite bank_move_self_in by done.
  destruct (no_coin_call m); lia.
Qed.

Lemma settles_receivable v cfg sender funds m msgs a mb f :
  settles p v cfg sender funds m msgs a mb f ->
  (forall to n, (to, n) ∈ sale_payments p v cfg a mb f -> p_blocked p to = false) ->
  p_blocked p (cf_fee_manager cfg) = false -> p_blocked p sender = false -> receivable p msgs.
Proof.
  intros (pre&post&->&(fee&reg&->&Hfee&Hreg)&Hpost&_) Hp Hfm Hs to cs.
  rewrite !elem_of_app, elem_of_cons. intros [[H|H]|[H|[H|H]]].
  - destruct Hfee as [[_ ->]|[_ ->]]; [|by apply elem_of_nil in H]. apply elem_of_list_singleton in H. by injection H as -> ->.
  - destruct Hreg as [->| ->]; [by apply elem_of_nil in H|]. apply elem_of_list_singleton in H. discriminate.
  - apply elem_of_list_fmap in H as ([x n]&H&Hin). injection H as -> ->. by eapply Hp.
  - discriminate.
  - destruct Hpost as [->|(cs'&->&_)]; [by apply elem_of_nil in H|]. apply elem_of_list_singleton in H. by injection H as -> ->.
Qed.
Lemma settles_only_nft v cfg sender funds m msgs a mb f c t to :
  settles p v cfg sender funds m msgs a mb f -> MNft c t to ∈ msgs -> c = a_coll a /\ t = a_tok a /\ to = nft_to mb.
Proof.
  intros (pre&post&->&(fee&reg&->&Hfee&Hreg)&Hpost&_).
  rewrite !elem_of_app, elem_of_cons. intros [[H|H]|[H|[H|H]]].
  - destruct Hfee as [[_ ->]|[_ ->]]; [|by apply elem_of_nil in H]. apply elem_of_list_singleton in H. discriminate.
  - destruct Hreg as [->| ->]; [by apply elem_of_nil in H|]. apply elem_of_list_singleton in H. discriminate.
  - by apply send_ones_no_nft in H.
  - by injection H as -> -> ->.
  - destruct Hpost as [->|(cs'&->&_)]; [by apply elem_of_nil in H|]. apply elem_of_list_singleton in H. discriminate.
Qed.
Lemma settles_delivers v cfg sender funds m msgs a mb f :
  settles p v cfg sender funds m msgs a mb f -> MNft (a_coll a) (a_tok a) (nft_to mb) ∈ msgs.
Proof. intros (pre&post&->&_). rewrite !elem_of_app, elem_of_cons. auto. Qed.

(** Selling into the best bid. *)
Lemma ask_sale_handler v e sender st m coll tok d lp mb margin :
  wf p st -> slash_free p -> p_valid p coll = true -> named_ok p d -> ~ not_yet_tradable v e coll ->
  priced st coll (d_price d) -> q_owner v coll tok = Some sender ->
  s_fees st !! c_denom lp = Some (c_amount lp) -> 0 < c_amount lp ->
  (m = SetAsk coll tok d \/ m = SellNft coll tok d) -> fits st coll tok (d_price d) mb ->
  royalty_answers p v (s_config st) coll ->
  (forall mb, best_bid st coll tok (d_price d) mb -> c_amount (price_of mb) <= U128_MAX /\
     fees_leave_room p v (s_config st) (Ask "" sender coll tok d) mb false margin) ->
  exists mb st' msgs, best_bid st coll tok (d_price d) mb /\
    execute p v e sender [lp] st m = Ok (st', msgs) /\
    settles p v (s_config st) sender [lp] m msgs (Ask (generate_id p [coll; tok]) sender coll tok d) mb false /\
    ~ resting st' mb.
Proof.
  intros Hwf Hsl Hv Hd Ht Hp Ho Hfee Hlp Hm Hfit Hra Hroom.
  set (a := ask_new p sender coll tok d).
  destruct (match_with_bid st a) as [mb'|] eqn:Em.
  2: { exfalso. eapply (match_none_fits p st a); eauto. }
  pose proof (match_best p st a mb' Hwf Hsl Hv Em) as Hbest. destruct (Hroom mb' Hbest) as [Hmax Hroom'].
  pose proof (wf_config _ _ Hwf) as Hcfg.
  assert (0 < c_amount (price_of mb')) as Hpos.
  { destruct Hbest as [(Hr&_) _]. destruct mb' as [b|cb]; cbn in *.
    - by destruct (wf_bid _ _ Hwf _ _ Hr) as (_&?&_).
    - by destruct (wf_cbid _ _ Hwf _ _ Hr) as (_&?&_). }
  destruct (sale_succeeds v st a (s_config st) mb' false (transfer_coin lp (cf_fee_manager (s_config st)) []) margin)
    as (st'&msgs&Hfin); try done.
  assert (execute p v e sender [lp] st m = Ok (st', msgs)) as He.
  { destruct Hm as [-> | ->]; cbn [execute]; unfold addr_validate; rewrite Hv; cbn -[generate_id finalize_sale match_with_bid];
      rewrite details_ok by done; cbn -[generate_id finalize_sale match_with_bid];
      unfold execute_set_ask, only_owner; rewrite Ho, bool_decide_eq_true_2, tradable_ok, priced_ok by done;
      cbn -[generate_id finalize_sale match_with_bid ask_new]; (destruct (c_amount lp =? 0) eqn:E0; [lia|]);
      cbn -[generate_id finalize_sale match_with_bid ask_new]; rewrite Hfee; rewrite bool_decide_eq_true_2 by done;
      cbn -[generate_id finalize_sale match_with_bid ask_new]; fold a; rewrite Em; exact Hfin. }
  exists mb', st', msgs. split; [done|]. split; [done|].
  pose proof He as He'. apply execute_effect in He'. apply effect_sale_or_not in He' as [(Hrc&_)|(a'&mb1&f&pre&post&Hr)]; [| |done].
  - exfalso. destruct Hm as [-> | ->]; cbn in Hrc; [|done]. unfold a in Em. congruence.
  - pose proof (sr_cause _ _ _ _ _ _ _ _ _ _ _ _ _ _ Hr) as Hca.
    pose proof (sr_trade _ _ _ _ _ _ _ _ _ _ _ _ _ _ Hr) as Htr. pose proof (sold_bid_gone _ _ _ _ _ _ _ _ _ _ _ _ _ _ Hr) as Hgone. apply sale_settles in Hr.
    assert (a' = a /\ mb1 = mb') as [-> ->].
    { destruct Hm as [-> | ->]; cbn in Hca; destruct Hca as (->&Hx&_); unfold a in *; split; congruence. }
    assert (f = false) as -> by (destruct Hm; subst m; inversion Htr; try done; destruct_or?; congruence).
    done.
Qed.

Lemma sell_executes w sender m coll tok d lp mb margin :
  let st := w_st w in let cfg := s_config st in let v := view_of p w in
  reachable p w -> slash_free p -> p_valid p coll = true -> named_ok p d -> ~ not_yet_tradable v (env_of w) coll ->
  priced st coll (d_price d) -> sender <> p_self p -> coll <> p_self p -> p_honest p coll = true ->
  w_nft w coll tok = Some sender -> can_transfer w coll tok (p_self p) = true ->
  s_fees st !! c_denom lp = Some (c_amount lp) -> 0 < c_amount lp -> c_amount lp <= w_bank w sender (c_denom lp) ->
  (m = SetAsk coll tok d \/ m = SellNft coll tok d) -> fits st coll tok (d_price d) mb ->
  royalty_answers p v cfg coll ->
  p_blocked p (cf_fee_manager cfg) = false -> p_blocked p sender = false ->
  (forall mb, best_bid st coll tok (d_price d) mb -> c_amount (price_of mb) <= U128_MAX /\
     fees_leave_room p v cfg (Ask "" sender coll tok d) mb false margin /\
     forall to n, (to, n) ∈ sale_payments p v cfg (Ask "" sender coll tok d) mb false -> p_blocked p to = false) ->
  exists mb w', best_bid st coll tok (d_price d) mb /\
    run_tx p (execute p) w sender [lp] m = Ok w' /\ w_nft w' coll tok = Some (nft_to mb) /\ ~ resting (w_st w') mb.
Proof.
  intros st cfg v Hre Hsl Hv Hd Ht Hp Hs Hc Hh Ho Hct Hfee Hlp Hbal Hm Hfit Hra Hb1 Hb2 Hroom.
  pose proof (reachable_wf _ _ Hre) as Hwf.
  destruct (ask_sale_handler (view_of p (pay_in p w sender [lp])) (env_of w) sender st m coll tok d lp mb margin)
    as (mb'&st'&msgs&Hbest&He&Hse&Hgone); try done.
  { cbn. by rewrite Hh. }
  { intros mb' Hbest. destruct (Hroom mb' Hbest) as (?&?&_). done. }
  destruct (Hroom mb' Hbest) as (_&_&Hbl).
  destruct (accepted_executes w sender [lp] m st' msgs) as (w'&Hrun&Hst&Hnft); try done.
  - apply covers_spec. intros d'. rewrite amt_one. case_bool_decide; subst; lia.
  - eapply settles_receivable; try done.
  - intros c t to Hin. eapply settles_only_nft in Hin as (->&->&_); [|done]. cbn. done.
  - exists mb', w'. split_and!; try done.
    + apply settles_delivers in Hse. by apply Hnft in Hse.
    + by rewrite Hst.
Qed.

(** Buying a listing at its price. *)
Lemma buy_executes w sender id a r fd margin :
  let st := w_st w in let cfg := s_config st in let v := view_of p w in let price := d_price (a_det a) in
  let d := Details price r fd in let mb := MBid (Bid "" sender (a_coll a) (a_tok a) d) in
  reachable p w -> p_reg_reenters p = false -> s_asks st !! id = Some a -> named_ok p d ->
  sender <> p_self p -> a_coll a <> p_self p -> p_honest p (a_coll a) = true ->
  c_amount price <= w_bank w sender (c_denom price) -> c_amount price <= U128_MAX ->
  royalty_answers p v cfg (a_coll a) -> fees_leave_room p v cfg a mb true margin ->
  p_blocked p (cf_fee_manager cfg) = false -> p_blocked p sender = false ->
  (forall to n, (to, n) ∈ sale_payments p v cfg a mb true -> p_blocked p to = false) ->
  exists w', run_tx p (execute p) w sender [price] (AcceptAsk id d) = Ok w' /\
    w_nft w' (a_coll a) (a_tok a) = Some (nft_to mb) /\ s_asks (w_st w') !! id = None.
Proof.
  intros st cfg v price d mb Hre Hreg Ha Hd Hs Hc Hh Hbal Hmax Hra Hroom Hb1 Hb2 Hb3.
  pose proof (reachable_wf _ _ Hre) as Hwf. destruct (wf_ask _ _ Hwf _ _ Ha) as (Hid&_&Hpos&_).
  pose proof (wf_config _ _ Hwf) as Hcfg.
  set (b := bid_new p sender (a_coll a) (a_tok a) d (w_height w) (next_nonce st)).
  destruct (sale_succeeds (view_of p (pay_in p w sender [price])) (set_nonce st (next_nonce st)) a cfg (MBid b) true [] margin)
    as (st'&msgs&Hfin); try done.
  assert (execute p (view_of p (pay_in p w sender [price])) (env_of w) sender [price] st (AcceptAsk id d) = Ok (st', msgs)) as He.
  { cbn [execute]. rewrite details_ok by done. cbn -[generate_id finalize_sale nb_normalize bid_new].
    unfold execute_accept_ask. rewrite normalize_one by done. cbn -[generate_id finalize_sale bid_new].
    rewrite Ha. cbn -[generate_id finalize_sale bid_new].
    rewrite bool_decide_eq_true_2 by done. rewrite (proj2 (N.leb_le _ _)) by done. cbn -[generate_id finalize_sale bid_new].
    rewrite sub_self by done. cbn -[generate_id finalize_sale bid_new]. cbn [set_nonce s_config].
    fold cfg. fold b. rewrite Hfin. cbn. done. }
  assert (settles p (view_of p (pay_in p w sender [price])) cfg sender [price] (AcceptAsk id d) msgs a (MBid b) true /\
          s_asks st' !! id = None) as [Hse Hgone].
  { pose proof He as He'. apply execute_effect in He'.
    apply effect_sale_or_not in He' as [([]&_)|(a'&mb1&f&pre&post&Hr)]; [|done].
    pose proof (sr_cause _ _ _ _ _ _ _ _ _ _ _ _ _ _ Hr) as Hca. pose proof (sr_trade _ _ _ _ _ _ _ _ _ _ _ _ _ _ Hr) as Htr.
    pose proof (sr_asks _ _ _ _ _ _ _ _ _ _ _ _ _ _ Hr) as Has. apply sale_settles in Hr.
    cbn in Hca. destruct Hca as (Ha'&->&_). assert (a' = a) as -> by congruence.
    assert (f = true) as -> by (inversion Htr; try done; destruct_or?; congruence).
    split; [done|]. rewrite Has, Hid. by rewrite lookup_delete. }
  destruct (accepted_executes w sender [price] (AcceptAsk id d) st' msgs) as (w'&Hrun&Hst&Hnft); try done.
  - apply covers_spec. intros d'. rewrite amt_one. case_bool_decide; subst; lia.
  - eapply settles_receivable; try done.
  - intros c t to Hin. eapply settles_only_nft in Hin as (->&->&_); [|done]. split; [done|]. intros _.
    destruct (reachable_custody p w Hreg Hre) as (_&_&Hcu&_). unfold can_transfer.
    rewrite Hcu; [by rewrite bool_decide_eq_true_2|done|]. by exists id, a.
  - exists w'. split_and!; try done.
    + apply settles_delivers in Hse. by apply Hnft in Hse.
    + by rewrite Hst.
Qed.
End Live.
