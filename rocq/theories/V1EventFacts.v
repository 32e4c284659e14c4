(** The events of marketplace v1 tell the truth: proofs. *)
From stdpp Require Import relations pretty.
From Verif Require Import Base Common Chain BaseFacts ChainFacts IndexRange IndexFacts SaleFacts
  V1Model V1Spec V1Facts V1Inv V1Reach V1Final V1Hooks V1Live V1Exact Events EventFacts V1Events V1EventSpec.

Global Instance nft_key_inj : Inj (=) (=) nft_key.
Proof. intros [a n] [b m] H. unfold nft_key in H. cbn [fst snd] in H. injection H as -> H. apply (inj pretty) in H. by subst. Qed.
Global Instance bid_key_inj : Inj (=) (=) bid_key.
Proof.
  intros [a n] [b m] H. unfold bid_key in H. cbn [fst snd] in H.
  assert (nft_key a = nft_key b /\ n = m) as [H1 ->] by (split; congruence). apply (inj nft_key) in H1. by subst.
Qed.

Section Facts.
Context (p : params) (x : ext).

Lemma must_pay_live price : 0 < price -> must_pay [native price] NATIVE_DENOM = Ok price.
Proof.
  intros H. unfold must_pay, one_coin, native, NATIVE_DENOM. cbn [c_amount c_denom]. destruct (N.eqb_spec price 0); [lia|].
  cbn -[bool_decide]. by rewrite bool_decide_eq_true_2.
Qed.

(** * The royalty *)
Lemma payout_told v st coll price to finder bps resp ms ci : payout x v st coll price to finder bps resp = Ok ms ->
  q_info v coll = Some ci ->
  payout_events v coll price = royalty_report (split_of (sp_trading_fee (s_params st)) price finder bps (ci_royalty ci)) coll.
Proof.
  unfold payout, payout_events. intros H Hci. apply bind_Ok in H as (n&_&H). cbv zeta in H. rewrite Hci in H |- *.
  apply bind_Ok in H as ([fm cut]&_&H). unfold split_of, royalty_report, parse_royalties in *.
  destruct (ci_royalty ci) as [[rto share]|]; [|done]. destruct (share =? 0); [done|].
  apply bind_Ok in H as (amount&Ha&_). rewrite Ha. apply mul_floor_Ok in Ha as [-> _]. done.
Qed.
Lemma finalize_told v st a price buyer finder to resp ms ci : finalize_sale x v st a price buyer finder to resp = Ok ms ->
  q_info v (k_coll a) = Some ci ->
  payout_events v (k_coll a) price =
    royalty_report (split_of (sp_trading_fee (s_params st)) price finder (k_finders a) (ci_royalty ci)) (k_coll a).
Proof. unfold finalize_sale. intros H Hci. apply bind_Ok in H as (ms'&H&_). by eapply payout_told. Qed.

(** ** Which call closes which deal, with its royalty *)
Lemma bid_sub v e s f st m st' ms ba : execute_sub p x v e s f st m = Ok (st', ms) -> bid_call m = Some ba ->
  execute_set_bid x v e s f st (ba_coll ba) (ba_tok ba) (ba_bps ba) (ba_expires ba) (ba_finder ba) (ba_to ba) (ba_now ba) = Ok (st', ms).
Proof.
  destruct m; intros H [= <-]; cbn [execute_sub ba_coll ba_tok ba_bps ba_expires ba_finder ba_to ba_now] in *.
  - apply bind_Ok in H as (c&Hc&H). apply bind_Ok in H as (g&Hg&H). apply addr_validate_Ok in Hc as [-> _]. by apply maybe_addr_Ok in Hg as [-> _].
  - apply bind_Ok in H as (c&Hc&H). apply bind_Ok in H as (g&Hg&H). apply addr_validate_Ok in Hc as [-> _]. by apply maybe_addr_Ok in Hg as [-> _].
  - apply bind_Ok in H as (c&Hc&H). apply bind_Ok in H as (g&Hg&H). apply bind_Ok in H as (t&Ht&H).
    apply addr_validate_Ok in Hc as [-> _]. apply maybe_addr_Ok in Hg as [-> _]. by apply addr_validate_Ok in Ht as [-> _].
Qed.
Lemma buy_told v e s f st m st' ms ba price a ci : execute_sub p x v e s f st m = Ok (st', ms) -> bid_call m = Some ba ->
  f = [native price] -> 0 < price -> s_asks st !! (ba_coll ba, ba_tok ba) = Some a -> k_type a = FixedPrice -> k_price a = price ->
  q_info v (k_coll a) = Some ci ->
  payout_events v (k_coll a) price =
    royalty_report (split_of (sp_trading_fee (s_params st)) price (ba_finder ba) (k_finders a) (ci_royalty ci)) (k_coll a).
Proof.
  intros H Hba -> Hpos Ha Hty Hp Hci. pose proof (bid_sub _ _ _ _ _ _ _ _ _ H Hba) as H1. clear H. unfold execute_set_bid in H1.
  apply bind_Ok in H1 as (?&_&H1). apply bind_Ok in H1 as (?&_&H1). rewrite (must_pay_live _ Hpos), bind_ok in H1.
  apply bind_Ok in H1 as (?&_&H1). apply bind_Ok in H1 as (?&_&H1). apply bind_Ok in H1 as (?&_&H1).
  assert (forall st1 res, s_params st1 = s_params st ->
    match q_owner v (k_coll a) (tok_str (k_tok a)) with
    | None => Err EInvalidInput
    | Some owner => ensure (bool_decide (k_seller a = owner)) EInvalidInput ;;
        res ← finalize_sale x v (remove_ask st1 (ba_coll ba) (ba_tok ba)) a price s (ba_finder ba) (ba_to ba) res;
        Ok (remove_ask st1 (ba_coll ba) (ba_tok ba), res)
    end = Ok (st', ms) ->
    payout_events v (k_coll a) price =
      royalty_report (split_of (sp_trading_fee (s_params st)) price (ba_finder ba) (k_finders a) (ci_royalty ci)) (k_coll a)) as Hgo.
  { intros st1 res Ep H. destruct (q_owner _ _ _); [|done].
    apply bind_Ok in H as (?&_&H). apply bind_Ok in H as (r&H&_). erewrite (finalize_told _ _ _ _ _ _ _ _ _ _ H Hci).
    cbn [s_params remove_ask set_asks]. by rewrite Ep. }
  destruct (s_bids st !! _) as [old|]; apply bind_Ok in H1 as (?&_&H1); cbn [s_asks remove_bid set_bids] in H1;
    rewrite Ha, Hty, Hp, N.compare_refl in H1.
  - by eapply (Hgo (remove_bid st (ba_coll ba) (ba_tok ba) s)), H1.
  - by eapply (Hgo st), H1.
Qed.

Lemma sub_of v e s f st m st' msgs : execute p x v e s f st m = Ok (st', msgs) ->
  exists ms, execute_sub p x v e s f st m = Ok (st', ms) /\ msgs = map erase ms.
Proof. unfold execute. intros H. apply bind_Ok in H as ([st1 ms]&H&E). injection E as <- <-. by exists ms. Qed.

Lemma bidding_type m ba : bid_call m = Some ba -> call_type m = "set-bid".
Proof. by destruct m. Qed.
Lemma bid_events v e s f st ty m ba : bid_call m = Some ba -> exists ty',
  call_events p v e s f st ty m = events_set_bid v s f st ty' (ba_coll ba) (ba_tok ba) (ba_expires ba) (ba_to ba).
Proof. destruct m; intros [= <-]; by eexists. Qed.

Lemma hooks_no_nft (hs : list addr) (c : hook_call) cl t to : MNft cl t to ∉ map erase (map (fun h => SHook h c) hs).
Proof. intros H. apply elem_of_list_In, in_map_iff in H as (y&E&Hy). apply in_map_iff in Hy as (h&<-&_). done. Qed.
Lemma no_nft ms (hs : list addr) (c : hook_call) :
  Forall (fun m => match m with MNft _ _ _ => False | _ => True end) ms ->
  ~ nft_moved (map erase (plain_msgs ms ++ map (fun h => SHook h c) hs)).
Proof.
  intros Hf (cl&t&to&H). rewrite map_app in H. apply elem_of_app in H as [H|H]; [|by apply hooks_no_nft in H].
  unfold plain_msgs in H. rewrite map_map in H. cbn [erase] in H. rewrite map_id in H. rewrite Forall_forall in Hf. by specialize (Hf _ H).
Qed.
Lemma refund_no_nft st coll tok s : Forall (fun m => match m with MNft _ _ _ => False | _ => True end) (refund_of st coll tok s).
Proof. unfold refund_of. destruct (s_bids st !! _); repeat constructor. Qed.

Lemma removal_reward_of st price reward rest : removal_reward st price = Ok reward -> sub128 price reward = Ok rest ->
  price = rest + reward.
Proof. intros _ H. apply sub128_Ok in H as [-> ?]. lia. Qed.

(** A call sells an NFT and tells so, or has one event. *)
Lemma events_form v e s f st ty m st' msgs : v1_history p x st -> execute p x v e s f st m = Ok (st', msgs) ->
  let evs := call_events p v e s f st ty m in
  sale_told x v e s f st m msgs evs \/
  (~ nft_moved msgs /\ exists ev, evs = [ev] /\ ev_type ev = call_type m).
Proof.
  intros Hst H evs. pose proof (history_wf _ _ _ Hst) as Hw. destruct (sub_of _ _ _ _ _ _ _ _ H) as (ms&Hsub&Ems).
  pose proof (execute_effect _ _ _ _ _ _ _ _ _ _ Hsub) as Hef.
  pose proof (fun d => closes_sells p x _ _ _ _ _ _ _ _ d Hst H) as Hcl.
  destruct Hef as [ty' coll tok price rc rs bps ex a fee|coll tok a|coll tok price a|m ba price b Hba Hbc Hask|m ba price a ci sp Hba Hbc Ha Hop Hty Hp Ho Hci Hfit
    |coll tok b Hf Hb|coll tok who finder b ci sp Hf Ho Ht Hb Hl Hci Hfit|coll tok who b Hf Ho Hb|coll ex bps price b Hv Hf Hpos|coll b Hf Hb
    |coll tok who finder b ci sp Hf Ho Ht Hb Hl Hci Hfit|coll tok a ok|coll tok a Hf Hop Ha|coll tok who b reward Hf Hop Hb Hs Hr|coll who b reward Hf Hop Hb Hs Hr].
  - right. rewrite Ems. split; [|by eexists]. apply no_nft. destruct (fee =? 0); repeat constructor.
  - right. rewrite Ems. split; [|by eexists]. by apply (no_nft []).
  - right. rewrite Ems. split; [|by eexists]. by apply (no_nft []).
  - right. rewrite Ems. split; [apply no_nft, refund_no_nft|]. destruct (bid_events v e s f st ty m ba Hba) as [ty' He]. subst evs. rewrite He.
    rewrite (bidding_type _ _ Hba). unfold events_set_bid. rewrite (bc_paid _ _ _ _ _ _ _ Hbc), (must_pay_live _ (bc_pos _ _ _ _ _ _ _ Hbc)).
    destruct (s_asks st !! _) as [a|]; [|by eexists]. destruct Hask as [_ Hask]. destruct (k_type a); [|by eexists].
    destruct (N.compare_spec price (k_price a)); [lia|by eexists|lia].
  - left. destruct (wf_ask _ _ Hw _ _ Ha) as (Hk&_). injection Hk as E1 E2.
    assert (closes v e s f st m (Deal (ba_coll ba) (ba_tok ba) (k_price a) (k_seller a) (default (k_seller a) (k_recipient a))
        s (default s (ba_to ba)) (ba_finder ba) (k_finders a))) as Hc.
    { destruct Hop, Hbc. eapply closes_ask; try done; [by rewrite Hp|by rewrite E1, E2]. }
    destruct (bid_events v e s f st ty m ba Hba) as [ty' He].
    destruct (Hcl _ Hc) as (ci'&Hci'&_&Em&_). eexists _, ci', _. split; [exact Hc|]. split; [done|]. split; [done|]. subst evs. rewrite He, (bidding_type _ _ Hba). unfold events_set_bid.
    rewrite (bc_paid _ _ _ _ _ _ _ Hbc), (must_pay_live _ (bc_pos _ _ _ _ _ _ _ Hbc)). rewrite Ha, Hty, Hp, N.compare_refl.
    unfold finalize_events. cbn [d_coll] in Hci'. rewrite E1 in Hci'. assert (ci' = ci) as -> by congruence.
    rewrite (buy_told _ _ _ _ _ _ _ _ _ _ _ _ Hsub Hba (bc_paid _ _ _ _ _ _ _ Hbc) (bc_pos _ _ _ _ _ _ _ Hbc) Ha Hty Hp Hci).
    unfold deal_split, sale_report. cbn [d_price d_finder d_bps d_coll d_tok d_seller d_buyer d_buyer_to]. rewrite E1, E2, ?Hp, <-app_assoc. cbn [app].
    assert (address_or (ba_to ba) s = default s (ba_to ba)) as -> by (by destruct (ba_to ba)). split; reflexivity.
  - right. rewrite Ems. split; [|by eexists]. apply no_nft. repeat constructor.
  - left. assert (closes v e s f st (AcceptBid coll tok who finder) (Deal coll tok (b_price b) s s who who finder (b_finders b))) as Hc by (by eapply closes_bid).
    destruct (Hcl _ Hc) as (ci'&Hci'&_&Em&_). eexists _, ci', _. split; [exact Hc|]. split; [done|]. split; [done|].
    cbn [d_coll] in Hci'. assert (ci' = ci) as -> by congruence. subst evs. cbn [call_events call_type]. unfold events_accept_bid. rewrite Hb. cbv zeta.
    unfold finalize_events. cbn [k_coll k_tok k_seller]. rewrite <-app_assoc. cbn [app]. cbn [execute_sub] in Hsub.
    apply bind_Ok in Hsub as (?&Hc1&Hsub). apply bind_Ok in Hsub as (?&Hc2&Hsub). apply bind_Ok in Hsub as (?&Hc3&Hsub).
    apply addr_validate_Ok in Hc1 as [-> _], Hc2 as [-> _]. apply maybe_addr_Ok in Hc3 as [-> _]. unfold execute_accept_bid in Hsub.
    apply bind_Ok in Hsub as (?&_&Hsub). apply bind_Ok in Hsub as (?&_&Hsub). apply bind_Ok in Hsub as (?&_&Hsub). rewrite Hb in Hsub. cbn [load] in Hsub.
    rewrite bind_ok in Hsub. apply bind_Ok in Hsub as (?&_&Hsub). cbv zeta in Hsub. apply bind_Ok in Hsub as (res&Hfs&_).
    eapply finalize_told in Hfs; [|exact Hci]. cbn [k_coll k_finders] in Hfs. rewrite Hfs. unfold deal_split. cbn [d_price d_finder d_bps d_coll].
    cbn [s_params remove_bid set_bids]. destruct (s_asks st !! _); split; reflexivity.
  - right. rewrite Ems. split; [apply no_nft; repeat constructor|]. subst evs. cbn [call_events]. unfold events_reject_bid. rewrite Hb. by eexists.
  - right. rewrite Ems. split.
    + apply no_nft. destruct (s_cbids st !! _); repeat constructor.
    + subst evs. cbn [call_events]. unfold events_set_collection_bid. rewrite Hf, must_pay_live by done. by eexists.
  - right. rewrite Ems. split; [apply no_nft; repeat constructor|by eexists].
  - left. assert (closes v e s f st (AcceptCollectionBid coll tok who finder) (Deal coll tok (cb_price b) s s who who finder (cb_finders b))) as Hc by (by eapply closes_cbid).
    destruct (Hcl _ Hc) as (ci'&Hci'&_&Em&_). eexists _, ci', _. split; [exact Hc|]. split; [done|]. split; [done|].
    cbn [d_coll] in Hci'. assert (ci' = ci) as -> by congruence. subst evs. cbn [call_events call_type]. unfold events_accept_collection_bid. rewrite Hb. cbv zeta.
    unfold finalize_events. cbn [k_coll k_tok k_seller]. rewrite <-app_assoc. cbn [app]. cbn [execute_sub] in Hsub.
    apply bind_Ok in Hsub as (?&Hc1&Hsub). apply bind_Ok in Hsub as (?&Hc2&Hsub). apply bind_Ok in Hsub as (?&Hc3&Hsub).
    apply addr_validate_Ok in Hc1 as [-> _], Hc2 as [-> _]. apply maybe_addr_Ok in Hc3 as [-> _]. unfold execute_accept_collection_bid in Hsub.
    apply bind_Ok in Hsub as (?&_&Hsub). apply bind_Ok in Hsub as (?&_&Hsub). apply bind_Ok in Hsub as (?&_&Hsub). rewrite Hb in Hsub. cbn [load] in Hsub.
    rewrite bind_ok in Hsub. apply bind_Ok in Hsub as (?&_&Hsub). cbv zeta in Hsub. apply bind_Ok in Hsub as (res&Hfs&_).
    eapply finalize_told in Hfs; [|exact Hci]. cbn [k_coll k_finders] in Hfs. rewrite Hfs. unfold deal_split. cbn [d_price d_finder d_bps d_coll].
    destruct (s_asks _ !! _); split; reflexivity.
  - right. rewrite Ems. split; [by apply (no_nft [])|by eexists].
  - right. rewrite Ems. split; [by apply (no_nft [])|]. subst evs. cbn [call_events]. unfold events_remove_stale_ask. rewrite Ha. by eexists.
  - right. rewrite Ems. split; [apply no_nft; repeat constructor|]. subst evs. cbn [call_events]. unfold events_remove_stale_bid. rewrite Hb. cbn [load].
    rewrite bind_ok. cbn [execute_sub] in Hsub. apply bind_Ok in Hsub as (?&Hc1&Hsub). apply bind_Ok in Hsub as (?&Hc2&Hsub).
    apply addr_validate_Ok in Hc1 as [-> _], Hc2 as [-> _]. unfold execute_remove_stale_bid in Hsub.
    apply bind_Ok in Hsub as (?&_&Hsub). apply bind_Ok in Hsub as (?&_&Hsub). rewrite Hb in Hsub. cbn [load] in Hsub. rewrite bind_ok in Hsub.
    apply bind_Ok in Hsub as (?&_&Hsub). apply bind_Ok in Hsub as (rw&Hrw&Hsub). rewrite Hrw. by eexists.
  - right. rewrite Ems. split; [apply no_nft; repeat constructor|]. subst evs. cbn [call_events]. unfold events_remove_stale_collection_bid. rewrite Hb. cbn [load].
    rewrite bind_ok. cbn [execute_sub] in Hsub. apply bind_Ok in Hsub as (?&Hc1&Hsub). apply bind_Ok in Hsub as (?&Hc2&Hsub).
    apply addr_validate_Ok in Hc1 as [-> _], Hc2 as [-> _]. unfold execute_remove_stale_collection_bid in Hsub.
    apply bind_Ok in Hsub as (?&_&Hsub). apply bind_Ok in Hsub as (?&_&Hsub). rewrite Hb in Hsub. cbn [load] in Hsub. rewrite bind_ok in Hsub.
    apply bind_Ok in Hsub as (?&_&Hsub). apply bind_Ok in Hsub as (rw&Hrw&Hsub). rewrite Hrw. by eexists.
Qed.

(** * The observer *)
Lemma payout_events_type v coll n ev : ev ∈ payout_events v coll n -> ev_type ev = "royalty-payout".
Proof.
  unfold payout_events. destruct (q_info v coll) as [ci|]; [|by intros ?%elem_of_nil]. destruct (parse_royalties _) as [[to sh]|]; [|by intros ?%elem_of_nil].
  destruct (mul_floor n sh); [|by intros ?%elem_of_nil]. by intros ->%elem_of_list_singleton.
Qed.
Lemma see_royalties sold l ix : (forall ev, ev ∈ l -> ev_type ev = "royalty-payout") -> fold_left (see sold) l ix = ix.
Proof.
  revert ix. induction l as [|ev l IH]; intros ix H; [done|]. cbn [fold_left].
  assert (see sold ix ev = ix) as ->; [|apply IH; intros ev' ?; apply H; by right].
  unfold see. rewrite (H ev) by left. destruct ix. reflexivity.
Qed.
Lemma sale_among_app l l' : (forall ev, ev ∈ l -> ev_type ev = "royalty-payout") -> sale_among (l ++ l') = sale_among l'.
Proof.
  unfold sale_among. intros H. rewrite existsb_app. replace (existsb _ l) with false; [done|]. symmetry. apply not_true_iff_false.
  intros (ev&Hi&E)%existsb_exists. apply elem_of_list_In in Hi. by rewrite (H ev Hi) in E.
Qed.
(** A sale is read as the removal of the ask, and then the event of the call. *)
Lemma see_sale v a price buyer to ev st :
  see_call (truth st) (finalize_events v a price buyer to ++ [ev]) = see true (truth (remove_ask st (k_coll a) (k_tok a))) ev.
Proof.
  unfold see_call, finalize_events. rewrite <-app_assoc. cbn [app]. rewrite sale_among_app by apply payout_events_type.
  rewrite fold_left_app, (see_royalties _ (payout_events _ _ _)) by apply payout_events_type. cbn [fold_left]. unfold sale_among.
  change (existsb _ _) with true. f_equal. unfold truth, remove_ask, set_asks. cbn -[kmap pretty].
  f_equal. by rewrite fmap_delete, kmap_delete by apply _.
Qed.
Lemma see_one (ix : index) ev : (ev_type ev =? "finalize-sale")%string = false -> see_call ix [ev] = see false ix ev.
Proof. intros H. unfold see_call, sale_among. cbn [existsb fold_left]. by rewrite H. Qed.

Lemma alter_kmap {K1 K2 A B} `{Countable K1, Countable K2} (g : K1 -> K2) `{!Inj (=) (=) g} (r : A -> B) (h : B -> B) (m : gmap K1 A) k a b :
  m !! k = Some a -> h (r a) = r b -> alter h (g k) (kmap (M2 := gmap K2) g (r <$> m)) = kmap (M2 := gmap K2) g (r <$> <[k := b]> m).
Proof.
  intros Hm Hh. rewrite <-kmap_alter by done. f_equal. apply map_eq. intros j. destruct (decide (j = k)) as [->|Hj].
  - rewrite lookup_alter, !lookup_fmap, Hm, lookup_insert. cbn. by rewrite Hh.
  - by rewrite lookup_alter_ne, !lookup_fmap, lookup_insert_ne by done.
Qed.

Lemma call_seen v e s f st ty m st' msgs : wf p st -> execute p x v e s f st m = Ok (st', msgs) ->
  see_call (truth st) (call_events p v e s f st ty m) = truth st'.
Proof.
  intros Hw H. apply sub_of in H as (ms&Hsub&_).
  pose proof (execute_effect _ _ _ _ _ _ _ _ _ _ Hsub) as Hef.
  destruct Hef as [ty' coll tok price rc rs bps ex a fee Hv Hden|coll tok a|coll tok price a a' Hf Ho Ha Hden|m ba price b Hba Hbc Hask
    |m ba price a ci sp Hba Hbc Ha Hop Hty Hp Ho Hci Hfit
    |coll tok b Hf Hb|coll tok who finder b ci sp Hf Ho Ht Hb Hl Hci Hfit|coll tok who b Hf Ho Hb|coll ex bps price b Hv Hf Hpos|coll b Hf Hb
    |coll tok who finder b ci sp Hf Ho Ht Hb Hl Hci Hfit|coll tok a ok a' Hf Hop Ha Hok|coll tok a Hf Hop Ha|coll tok who b reward Hf Hop Hb Hs Hr|coll who b reward Hf Hop Hb Hs Hr].
  - cbn [call_events]. unfold events_set_ask. rewrite see_one by done. unfold truth, store_ask, set_asks. cbn -[kmap pretty coin_text time_text].
    f_equal. rewrite fmap_insert, kmap_insert by apply _. f_equal. destruct price as [dn n]. cbn [c_denom] in Hden. subst dn.
    unfold read_ask, ask_row, text. destruct rs; done.
  - cbn [call_events]. unfold events_remove_ask. rewrite see_one by done. unfold truth, remove_ask, set_asks. cbn -[kmap pretty].
    f_equal. by rewrite fmap_delete, kmap_delete by apply _.
  - cbn [call_events]. unfold events_update_ask_price. rewrite see_one by done. unfold truth, set_asks. cbn -[kmap pretty coin_text].
    f_equal. eapply (alter_kmap nft_key ask_row _ (s_asks st) (coll, tok)); [exact Ha|]. destruct price as [dn n]. cbn [c_denom] in Hden. subst dn. done.
  - destruct (bid_events v e s f st ty m ba Hba) as [ty' ->]. unfold events_set_bid.
    rewrite (bc_paid _ _ _ _ _ _ _ Hbc), (must_pay_live _ (bc_pos _ _ _ _ _ _ _ Hbc)).
    match goal with |- see_call _ (?l ++ _) = _ => assert (l = []) as -> end.
    { destruct (s_asks st !! _) as [a|]; [|done]. destruct Hask as [_ Hask]. destruct (k_type a); [|done].
      destruct (N.compare_spec price (k_price a)); [lia|done|lia]. }
    cbn [app]. rewrite see_one by done. unfold truth, store_bid, remove_bid, set_bids. cbn -[kmap pretty time_text].
    f_equal. rewrite insert_delete_insert, fmap_insert, kmap_insert by apply _. done.
  - destruct (wf_ask _ _ Hw _ _ Ha) as (Hk&_). injection Hk as E1 E2.
    destruct (bid_events v e s f st ty m ba Hba) as [ty' ->]. unfold events_set_bid.
    rewrite (bc_paid _ _ _ _ _ _ _ Hbc), (must_pay_live _ (bc_pos _ _ _ _ _ _ _ Hbc)), Ha, Hty, Hp, N.compare_refl, see_sale.
    rewrite E1, E2. unfold truth, remove_ask, remove_bid, set_asks, set_bids. cbn -[kmap pretty time_text]. f_equal.
    by rewrite (fmap_delete bid_row), (kmap_delete bid_key) by apply _.
  - cbn [call_events]. unfold events_remove_bid. rewrite see_one by done. unfold truth, remove_bid, set_bids. cbn -[kmap pretty].
    f_equal. by rewrite fmap_delete, kmap_delete by apply _.
  - cbn [call_events]. unfold events_accept_bid. rewrite Hb. cbv zeta. rewrite see_sale. cbn [k_coll k_tok].
    unfold truth, remove_ask, remove_bid, set_asks, set_bids. cbn -[kmap pretty]. f_equal.
    by rewrite (fmap_delete bid_row), (kmap_delete bid_key) by apply _.
  - cbn [call_events]. unfold events_reject_bid. rewrite Hb. rewrite see_one by done. unfold truth, remove_bid, set_bids. cbn -[kmap pretty].
    f_equal. by rewrite fmap_delete, kmap_delete by apply _.
  - cbn [call_events]. unfold events_set_collection_bid. rewrite Hf, must_pay_live by done. rewrite see_one by done.
    unfold truth, store_cbid, remove_cbid, set_cbids. cbn -[kmap pretty time_text]. f_equal. by rewrite insert_delete_insert, fmap_insert.
  - cbn [call_events]. unfold events_remove_collection_bid. rewrite see_one by done. unfold truth, remove_cbid, set_cbids. cbn -[kmap pretty].
    f_equal. by rewrite fmap_delete.
  - cbn [call_events]. unfold events_accept_collection_bid. rewrite Hb. cbv zeta. rewrite see_sale. cbn [k_coll k_tok].
    unfold truth, remove_ask, remove_cbid, set_asks, set_cbids. cbn -[kmap pretty]. f_equal. by rewrite fmap_delete.
  - cbn [call_events]. unfold events_sync_ask. rewrite see_one by done. unfold truth, set_asks. cbn -[kmap pretty bool_text].
    f_equal. eapply (alter_kmap nft_key ask_row _ (s_asks st) (coll, tok)); [exact Ha|]. subst a'. rewrite Hok. done.
  - cbn [call_events]. unfold events_remove_stale_ask. rewrite Ha. rewrite see_one by done. unfold truth, remove_ask, set_asks. cbn -[kmap pretty bool_text bool_decide].
    f_equal. by rewrite fmap_delete, kmap_delete by apply _.
  - cbn [call_events]. unfold events_remove_stale_bid. rewrite Hb. cbn [load].
    rewrite bind_ok. cbn [execute_sub] in Hsub. apply bind_Ok in Hsub as (?&Hc1&Hsub). apply bind_Ok in Hsub as (?&Hc2&Hsub).
    apply addr_validate_Ok in Hc1 as [-> _], Hc2 as [-> _]. unfold execute_remove_stale_bid in Hsub.
    apply bind_Ok in Hsub as (?&_&Hsub). apply bind_Ok in Hsub as (?&_&Hsub). rewrite Hb in Hsub. cbn [load] in Hsub. rewrite bind_ok in Hsub.
    apply bind_Ok in Hsub as (?&_&Hsub). apply bind_Ok in Hsub as (rw&Hrw&Hsub). rewrite Hrw. rewrite see_one by done.
    unfold truth, remove_bid, set_bids. cbn -[kmap pretty]. f_equal. by rewrite fmap_delete, kmap_delete by apply _.
  - cbn [call_events]. unfold events_remove_stale_collection_bid. rewrite Hb. cbn [load].
    rewrite bind_ok. cbn [execute_sub] in Hsub. apply bind_Ok in Hsub as (?&Hc1&Hsub). apply bind_Ok in Hsub as (?&Hc2&Hsub).
    apply addr_validate_Ok in Hc1 as [-> _], Hc2 as [-> _]. unfold execute_remove_stale_collection_bid in Hsub.
    apply bind_Ok in Hsub as (?&_&Hsub). apply bind_Ok in Hsub as (?&_&Hsub). rewrite Hb in Hsub. cbn [load] in Hsub. rewrite bind_ok in Hsub.
    apply bind_Ok in Hsub as (?&_&Hsub). apply bind_Ok in Hsub as (rw&Hrw&Hsub). rewrite Hrw. rewrite see_one by done.
    unfold truth, remove_cbid, set_cbids. cbn -[kmap pretty]. f_equal. by rewrite fmap_delete.
Qed.

Lemma drop_unregister l a l' : unregister l a = Ok l' -> drop_first a l = l'.
Proof.
  revert l'. induction l as [|o l IH]; intros l' H; cbn [unregister drop_first] in *; [done|]. case_bool_decide as E.
  - subst. injection H as <-. by rewrite String.eqb_refl.
  - apply bind_Ok in H as (r&Hr&H). injection H as <-. destruct (String.eqb_spec o a); [done|]. by rewrite (IH _ Hr).
Qed.
Lemma register_app l a l' : register l a = Ok l' -> l' = l ++ [a].
Proof. unfold register. destruct (existsb _ l); [done|]. by intros [= <-]. Qed.
Lemma sudo_seen v e st m st' msgs : sudo p v e st m = Ok (st', msgs) -> see_call (truth st) (sudo_events m) = truth st'.
Proof.
  unfold sudo. intros H. apply bind_Ok in H as (st1&H&E). injection E as <- _.
  destruct m as [u|a|a|h|h|h|h|h|h|]; cbn [sudo_state] in H;
    try (apply bind_Ok in H as (?&Hv&H); apply addr_validate_Ok in Hv as [-> _]; apply bind_Ok in H as (l&Hl&H);
         first [apply register_app in Hl as -> | apply drop_unregister in Hl as <-]; injection H as <-; reflexivity).
  - unfold sudo_update_params in H. apply bind_Ok in H as (?&_&H). apply bind_Ok in H as (?&_&H). apply bind_Ok in H as (?&_&H).
    apply bind_Ok in H as (?&_&H). apply bind_Ok in H as (?&_&H). cbv zeta in H. injection H as <-. reflexivity.
  - by injection H as <-.
Qed.
Lemma log_wf st0 st log : v1_log p x st0 st log -> wf p st0 -> wf p st.
Proof.
  induction 1 as [|st log v e sender funds m st' msgs ty _ IH Hs H|st log v e m st' msgs _ IH H]; intros H0; [done| |].
  - eapply wf_execute; [exact Hs|exact H|by apply IH].
  - apply (wf_sudo _ _ _ _ _ _ _ H). by apply IH.
Qed.
Lemma observe_log st0 st log : v1_history p x st0 -> v1_log p x st0 st log -> observe (truth st0) log = truth st.
Proof.
  intros H0 Hl. pose proof (history_wf _ _ _ H0) as Hw0.
  induction Hl as [|st log v e sender funds m st' msgs ty Hl IH Hs H|st log v e m st' msgs Hl IH H]; unfold observe in *; [done|..];
    rewrite fold_left_app, IH; cbn [fold_left].
  - eapply call_seen; [by eapply log_wf|done].
  - by eapply sudo_seen.
Qed.

Lemma map_told {K A B C} `{Countable K} (r : A -> B) (t : A -> C) (m m' : gmap K A) : r <$> m = r <$> m' ->
  (forall k a a', m !! k = Some a -> m' !! k = Some a' -> r a = r a' -> t a = t a') -> t <$> m = t <$> m'.
Proof.
  intros E Ht. apply map_eq. intros k. assert ((r <$> m) !! k = (r <$> m') !! k) as Ek by (by rewrite E).
  rewrite !lookup_fmap in *. destruct (m !! k) as [a|] eqn:Ea, (m' !! k) as [a'|] eqn:Ea'; try done.
  cbn in *. injection Ek as Ek. f_equal. eauto.
Qed.
Lemma truth_same st st' : wf p st -> wf p st' -> truth st = truth st' -> same_book st st'.
Proof.
  intros Hw Hw' H. injection H as H1 H2 H3 H4 H5 H6 H7. apply (kmap_inj nft_key) in H1. apply (kmap_inj bid_key) in H2.
  assert (forall n n', coin_text (native n) = coin_text (native n') -> n = n') as Hc.
  { intros n n' E. assert (lettered "ustars") as L by (eexists _, _; split; [reflexivity|]; vm_compute; lia).
    apply coin_text_inj in E; [|exact L..]. by injection E. }
  unfold same_book. split; [|split; [|split; [|by split_and!]]].
  - apply (map_told ask_row); [done|]. intros k a a' Ha Ha' E. destruct (wf_ask _ _ Hw _ _ Ha) as (->&_). destruct (wf_ask _ _ Hw' _ _ Ha') as (Ek&_).
    unfold ask_row in E. injection E as E1 E2 E3 E4 E5 E6. apply Hc in E3. apply time_text_inj in E5.
    destruct a as [ta ? ? ? ? ? ? ? ? aa], a' as [tb ? ? ? ? ? ? ? ? ab]. cbn in *. injection Ek as -> ->. unfold told_ask; cbn. subst.
    destruct ta, tb, aa, ab; done.
  - apply (map_told bid_row); [done|]. intros k b b' Hb Hb' E. destruct (wf_bid _ _ Hw _ _ Hb) as (->&_). destruct (wf_bid _ _ Hw' _ _ Hb') as (Ek&_).
    unfold bid_row in E. injection E as E1 E2. apply (inj pretty) in E1. apply time_text_inj in E2.
    destruct b, b'. cbn in *. injection Ek as -> -> ->. unfold told_bid; cbn. by subst.
  - apply (map_told cbid_row); [done|]. intros k b b' Hb Hb' E. destruct (wf_cbid _ _ Hw _ _ Hb) as (->&_). destruct (wf_cbid _ _ Hw' _ _ Hb') as (Ek&_).
    unfold cbid_row in E. injection E as E1 E2. apply (inj pretty) in E1. apply time_text_inj in E2.
    destruct b, b'. cbn in *. injection Ek as -> ->. unfold told_cbid; cbn. by subst.
Qed.
Lemma log_book st0 st0' st st' log : v1_history p x st0 -> v1_history p x st0' -> truth st0 = truth st0' ->
  v1_log p x st0 st log -> v1_log p x st0' st' log -> same_book st st'.
Proof.
  intros H0 H0' E H H'. apply history_wf in H0 as W, H0' as W'. apply truth_same; [exact (log_wf _ _ _ H W)|exact (log_wf _ _ _ H' W')|].
  by rewrite <-(observe_log _ _ _ H0 H), <-(observe_log _ _ _ H0' H'), E.
Qed.
Lemma history_log st : v1_history p x st -> exists m st0 log, instantiate p m = Ok st0 /\ v1_log p x st0 st log.
Proof.
  intros (m&st0&Hi&Hr). exists m, st0. cut (exists log, v1_log p x st0 st log); [naive_solver|]. clear Hi. revert st Hr. apply rtc_ind_r.
  - eexists. apply LogStart.
  - intros st st' _ Hc [log IH]. destruct Hc as [v e sender funds m' msgs Hs H|v e m' msgs H].
    + eexists. by apply (LogCall p x st0 st log v e sender funds m' st' msgs FixedPrice).
    + eexists. by eapply LogSudo.
Qed.
Lemma reachable_log w : v1_reachable p x w -> exists m st0 log, instantiate p m = Ok st0 /\ v1_log p x st0 (w_st w) log.
Proof. intros H%reachable_history. by apply history_log. Qed.
(** What the observer starts from is known from the instantiation message. *)
Lemma truth_start m st0 : instantiate p m = Ok st0 -> exists ops,
  StronglySorted bytes_before ops /\ (forall a, a ∈ ops <-> a ∈ im_operators m) /\
  truth st0 = Index ∅ ∅ ∅ ops [] [] (option_list (im_sale_hook m)).
Proof.
  intros (_&_&_&_&_&ops&Hs&Ho&->)%sets_up_exact. exists ops. split; [done|]. split; [done|]. unfold truth. cbn -[kmap].
  by rewrite !fmap_empty, (kmap_empty nft_key), (kmap_empty bid_key).
Qed.

Lemma removal_form v e s f st ty m st' msgs : v1_history p x st -> execute p x v e s f st m = Ok (st', msgs) ->
  removal_told p v e s st m msgs (call_events p v e s f st ty m).
Proof.
  intros Hst H. pose proof (history_wf _ _ _ Hst) as Hw. destruct (sub_of _ _ _ _ _ _ _ _ H) as (ms&Hsub&Ems).
  pose proof (execute_effect _ _ _ _ _ _ _ _ _ _ Hsub) as Hef.
  destruct Hef as [ty' coll tok price rc rs bps ex a fee|coll tok a Hf Ho|coll tok price a|m ba price b Hba Hbc Hask|m ba price a ci sp Hba Hbc Ha Hop Hty Hp Ho Hci Hfit
    |coll tok b Hf Hb|coll tok who finder b ci sp Hf Ho Ht Hb Hl Hci Hfit|coll tok who b Hf Ho Hb|coll ex bps price b Hv Hf Hpos|coll b Hf Hb
    |coll tok who finder b ci sp Hf Ho Ht Hb Hl Hci Hfit|coll tok a ok|coll tok a Hf Hop Ha Hwhy|coll tok who b reward Hf Hop Hb Hs Hr|coll who b reward Hf Hop Hb Hs Hr];
    try exact I; try (by destruct m).
  - cbn [removal_told call_events]. split; [done|]. by eexists.
  - cbn [removal_told call_events]. unfold events_reject_bid. rewrite Hb. eexists. split; [reflexivity|]. rewrite Ems, map_app. unfold bid_hooks. by rewrite erase_hooks.
  - cbn [removal_told call_events]. unfold events_remove_stale_ask. rewrite Ha. unfold tok_str, is_expired, bool_text. eexists a, _, (bool_decide (q_owner v coll (pretty tok) <> None)), _.
    split; [done|]. unfold live. split; [|split; [|split; [reflexivity|split; [|reflexivity]]]].
    + rewrite N.leb_le. lia.
    + rewrite bool_decide_eq_true. unfold owns. destruct (q_owner v coll (pretty tok)) as [o|]; [|naive_solver]. split; [by exists o|done].
    + rewrite N.leb_le. destruct Hwhy as [Ho|[Hq|Hl]]; [right; left; by rewrite Ho|by right; right|left; unfold live in Hl; lia].
  - cbn [removal_told call_events]. unfold events_remove_stale_bid. rewrite Hb. cbn [load].
    rewrite bind_ok. cbn [execute_sub] in Hsub. apply bind_Ok in Hsub as (?&Hc1&Hsub). apply bind_Ok in Hsub as (?&Hc2&Hsub).
    apply addr_validate_Ok in Hc1 as [-> _], Hc2 as [-> _]. unfold execute_remove_stale_bid in Hsub.
    apply bind_Ok in Hsub as (?&_&Hsub). apply bind_Ok in Hsub as (?&_&Hsub). rewrite Hb in Hsub. cbn [load] in Hsub. rewrite bind_ok in Hsub.
    apply bind_Ok in Hsub as (?&_&Hsub). apply bind_Ok in Hsub as (rw&Hrw&Hsub). rewrite Hrw. apply reward_Ok in Hrw as ->.
    eexists _, reward. split; [reflexivity|]. rewrite Ems, map_app. unfold bid_hooks. rewrite erase_hooks.
    destruct (wf_bid _ _ Hw _ _ Hb) as (Hk&_). injection Hk as _ _ <-. split; [reflexivity|]. cbn. f_equal. lia.
  - cbn [removal_told call_events]. unfold events_remove_stale_collection_bid. rewrite Hb. cbn [load].
    rewrite bind_ok. cbn [execute_sub] in Hsub. apply bind_Ok in Hsub as (?&Hc1&Hsub). apply bind_Ok in Hsub as (?&Hc2&Hsub).
    apply addr_validate_Ok in Hc1 as [-> _], Hc2 as [-> _]. unfold execute_remove_stale_collection_bid in Hsub.
    apply bind_Ok in Hsub as (?&_&Hsub). apply bind_Ok in Hsub as (?&_&Hsub). rewrite Hb in Hsub. cbn [load] in Hsub. rewrite bind_ok in Hsub.
    apply bind_Ok in Hsub as (?&_&Hsub). apply bind_Ok in Hsub as (rw&Hrw&Hsub). rewrite Hrw. apply reward_Ok in Hrw as ->.
    eexists _, reward. split; [reflexivity|]. rewrite Ems, map_app. unfold cbid_hooks. destruct (wf_hooks _ _ Hw) as (_&_&_&->). cbn [map].
    destruct (wf_cbid _ _ Hw _ _ Hb) as (Hk&_). injection Hk as _ <-. split; [reflexivity|]. cbn. f_equal. lia.
Qed.
End Facts.
