(** The events of the reserve auction tell the truth: proofs. *)
From stdpp Require Import relations pretty.
From Verif Require Import Base Common Chain BaseFacts ChainFacts IndexRange IndexFacts SaleFacts
  RAModel RASpec RAFacts RAIndex RAInv RAReach Events EventFacts RAEvents RAEventSpec.

Lemma field_app k l l' : field k (l ++ l') = match field k l with Some x => Some x | None => field k l' end.
Proof. induction l as [|[k' x] l IH]; cbn; [done|]. by destruct (k' =? k)%string. Qed.
Lemma field_opt k k' o : field k (opt_attr k' o) = if (k' =? k)%string then o else None.
Proof. destruct o; cbn; by destruct (k' =? k)%string. Qed.

Fixpoint opt_find (k : string) (l : list (string * option string)) : option string :=
  match l with
  | [] => None
  | (k', o) :: l => if (k' =? k)%string then match o with Some x => Some x | None => opt_find k l end else opt_find k l
  end.
Lemma field_opts k l : field k (List.flat_map (fun x => opt_attr (fst x) (snd x)) l) = opt_find k l.
Proof.
  induction l as [|[k' o] l IH]; [done|]. cbn [List.flat_map fst snd opt_find]. rewrite field_app, field_opt, IH.
  by destruct (k' =? k)%string.
Qed.

Lemma fold_left_pair {A} now (l l' : list event) (f : A -> N * event -> A) a :
  fold_left f (pair now <$> (l ++ l')) a = fold_left f (pair now <$> l') (fold_left f (pair now <$> l) a).
Proof. by rewrite fmap_app, fold_left_app. Qed.

Lemma alter_row (f : row -> row) (k : akey) (a b : auction) (m : gmap akey auction) :
  m !! k = Some a -> f (auction_row a) = auction_row b -> alter f k (auction_row <$> m) = auction_row <$> (<[k := b]> m).
Proof.
  intros Hm Hf. rewrite fmap_insert. apply map_eq. intros j. destruct (decide (j = k)) as [->|Hj].
  - by rewrite lookup_alter, lookup_fmap, Hm, lookup_insert, <-Hf.
  - by rewrite lookup_alter_ne, lookup_insert_ne by congruence.
Qed.

Section Facts.
Context (p : params) (lb : lib).

(** * The observer *)
Lemma see_outcome v now cfg h st a o em :
  s_auctions st !! a_key a = Some a -> phase a -> outcome lb v now cfg h a o em ->
  fold_left see (pair now <$> settle_events now cfg h a) (truth st) = truth (put st (a_key a) o).
Proof.
  intros Hs Hp Ho. destruct Ho as [t Ht Hle Hh Hm|t hb sp Ht Hle Hh Hb Hsp Hr].
  - unfold settle_events. rewrite Ht. apply within_halted in Hh. rewrite Hh.
    assert (forall X : list event, (match a_high a with Some hb => X | None => X end) = X) as -> by (by destruct (a_high a)).
    cbn [fmap list_fmap fold_left]. unfold truth. cbn -[auction_row time_text]. f_equal.
    apply (alter_row _ _ a); [done|]. done.
  - unfold settle_events. rewrite Ht, Hb. assert (within_halt_window h (t_seconds t) = false) as ->.
    { destruct (within_halt_window h (t_seconds t)) eqn:E; [|done]. by apply within_halted in E. }
    cbn [fmap list_fmap fold_left]. unfold truth. cbn -[auction_row]. f_equal. by rewrite fmap_delete.
Qed.

Lemma see_process v now cfg h st l os :
  (forall a, a ∈ l -> s_auctions st !! a_key a = Some a /\ phase a) -> NoDup (a_key <$> l) ->
  Forall2 (fun a o => outcome lb v now cfg h a (fst o) (snd o)) l os ->
  fold_left see (pair now <$> List.flat_map (settle_events now cfg h) l) (truth st) = truth (process st l os).
Proof.
  intros Hin Hnd HF. revert st Hin Hnd. induction HF as [|a o l os Ho HF IH]; intros st Hin Hnd; [done|].
  cbn [List.flat_map]. rewrite fold_left_pair. rewrite process_cons.
  destruct (Hin a ltac:(by left)) as [Ha Hp]. rewrite (see_outcome _ _ _ _ _ _ _ _ Ha Hp Ho).
  cbn in Hnd. apply NoDup_cons in Hnd as [Hna Hnd]. apply IH; [|done].
  intros b Hb. destruct (Hin b ltac:(by right)) as [Hsb Hpb]. split; [|done]. cbn.
  assert (a_key a <> a_key b) as Hne. { intros E. apply Hna. rewrite E. by apply elem_of_list_fmap_1. }
  destruct (fst o); [by rewrite lookup_insert_ne|by rewrite lookup_delete_ne].
Qed.

Lemma see_adds now cs : forall m m' a cf, add_mins m cs = Ok m' ->
  fold_left see (pair now <$> (set_min_event <$> cs)) (Index a cf (pretty <$> m)) = Index a cf (pretty <$> m').
Proof.
  induction cs as [|c cs IH]; intros m m' a cf H; cbn [add_mins] in H; [by injection H as ->|].
  destruct (m !! c_denom c); [done|]. cbn [fmap list_fmap fold_left]. rewrite <-(IH _ _ a cf H). f_equal.
  cbn. by rewrite fmap_insert.
Qed.
Lemma see_drops now ds : forall m m' a cf, remove_mins m ds = Ok m' ->
  fold_left see (pair now <$> (unset_min_event <$> ds)) (Index a cf (pretty <$> m)) = Index a cf (pretty <$> m').
Proof.
  induction ds as [|d ds IH]; intros m m' a cf H; cbn [remove_mins] in H; [by injection H as ->|].
  destruct (m !! d); [|done]. cbn [fmap list_fmap fold_left]. rewrite <-(IH _ _ a cf H). f_equal.
  cbn. by rewrite fmap_delete.
Qed.

Lemma see_params u c fb :
  zip_with (fun k old => default old (field k (ev_attrs (update_params_event u)))) config_keys (config_texts c) =
  config_texts (Config (default fb (u_fair_burn u)) (default (cf_trading_fee c) (u_trading_fee u)) (default (cf_increment c) (u_increment u))
                   (default (cf_min_duration c) (u_min_duration u)) (cf_max_duration c)
                   (default (cf_extend c) (u_extend u)) (default (cf_create_fee c) (u_create_fee u))
                   (default (cf_max_settle c) (u_max_settle u)) (default (cf_halt_threshold c) (u_halt_threshold u))
                   (default (cf_halt_buffer c) (u_halt_buffer u)) (default (cf_halt_postpone c) (u_halt_postpone u))) \/ fb <> cf_fair_burn c.
Proof.
  destruct (decide (fb = cf_fair_burn c)) as [->|]; [left|by right].
  assert (ev_attrs (update_params_event u) = List.flat_map (fun x => opt_attr (fst x) (snd x))
    [("fair_burn", u_fair_burn u); ("trading_fee_percent", dec_text <$> u_trading_fee u);
     ("min_bid_increment_percent", dec_text <$> u_increment u); ("min_duration", pretty <$> u_min_duration u);
     ("extend_duration", pretty <$> u_extend u); ("create_auction_fee", coin_text <$> u_create_fee u);
     ("max_auctions_to_settle_per_block", pretty <$> u_max_settle u);
     ("halt_duration_threshold", pretty <$> u_halt_threshold u); ("halt_buffer_duration", pretty <$> u_halt_buffer u);
     ("halt_postpone_duration", pretty <$> u_halt_postpone u)]) as ->.
  { unfold update_params_event. cbn [ev_attrs List.flat_map fst snd]. by rewrite app_nil_r. }
  destruct u as [u1 u2 u3 u4 u5 u6 u7 u8 u9 u10]. unfold config_keys, config_texts. cbn [zip_with].
  rewrite !field_opts. cbn [opt_find String.eqb Ascii.eqb Bool.eqb u_fair_burn u_trading_fee u_increment u_min_duration u_extend
    u_create_fee u_max_settle u_halt_threshold u_halt_buffer u_halt_postpone cf_fair_burn cf_trading_fee cf_increment
    cf_min_duration cf_extend cf_create_fee cf_max_settle cf_halt_threshold cf_halt_buffer cf_halt_postpone].
  f_equal; [by destruct u1|]. f_equal; [by destruct u2|]. f_equal; [by destruct u3|]. f_equal; [by destruct u4|].
  f_equal; [by destruct u5|]. f_equal; [by destruct u6|]. f_equal; [by destruct u7|]. f_equal; [by destruct u8|].
  f_equal; [by destruct u9|]. f_equal; by destruct u10.
Qed.

Lemma call_seen v e sender funds st m st' msgs : wf p st -> execute p lb v e sender funds st m = Ok (st', msgs) ->
  fold_left see (pair (e_time e) <$> call_events e sender funds st m) (truth st) = truth st'.
Proof.
  intros Hwf H. apply execute_effect in H; [|done].
  destruct H as [coll tok reserve duration recipient a msgs Hv Hr Ho Hap Hn Ht Hp Hd -> Hfee
    |coll tok reserve a _ Ha Hsel Hf Hp|coll tok a _ Ha Hsel Hf|coll tok a n a' msgs Ha Hfu Hb|coll tok a o em _ Ha Ho].
  - cbn [call_events fmap list_fmap fold_left]. unfold truth. cbn -[auction_row coin_text]. f_equal. rewrite fmap_insert. f_equal.
    unfold auction_row. cbn -[coin_text]. f_equal. by destruct recipient.
  - destruct (wf_auction _ _ Hwf _ _ Ha) as [Hk _]. unfold a_key in Hk. injection Hk as <- <-.
    cbn [call_events]. unfold on_auction. rewrite Ha. cbn [fmap list_fmap fold_left]. unfold truth. cbn -[auction_row coin_text].
    f_equal. by apply (alter_row _ _ a).
  - destruct (wf_auction _ _ Hwf _ _ Ha) as [Hk _]. unfold a_key in Hk. injection Hk as <- <-.
    cbn [call_events]. unfold on_auction. rewrite Ha. cbn [fmap list_fmap fold_left]. unfold truth. cbn -[auction_row coin_text].
    f_equal. by rewrite fmap_delete.
  - destruct (wf_auction _ _ Hwf _ _ Ha) as [Hk Hok]. unfold a_key in Hk. injection Hk as <- <-.
    cbn [call_events]. unfold on_auction. rewrite Ha. cbn [fmap list_fmap fold_left].
    destruct Hb as [Bpos Bs Bmin Bopen (f&t'&->&Hmax&Hcase)].
    assert (must_pay funds (a_denom a) = Ok n) as Hpay.
    { subst funds. unfold must_pay, one_coin. cbn [c_amount c_denom]. destruct (N.eqb_spec n 0); [lia|]. cbn -[bool_decide]. by rewrite bool_decide_eq_true_2. }
    unfold place_bid_event. rewrite Hpay.
    destruct Hcase as [(Hf&->&->&->)|(prev&t&Hf&Hh&Ht&_&->&Hc)]; rewrite Hf.
    + unfold truth. cbn -[auction_row coin_text time_text]. f_equal. by apply (alter_row _ _ a).
    + rewrite Hh, Ht. assert ((if t_seconds t - t_seconds (e_time e) <? cf_extend (s_config st) then e_time e + cf_extend (s_config st) * NANOS else t) = t') as ->.
      { destruct Hc as [[Hlt ->]|[Hge ->]]; [by rewrite (proj2 (N.ltb_lt _ _) Hlt)|by rewrite (proj2 (N.ltb_ge _ _) Hge)]. }
      unfold truth. cbn -[auction_row coin_text time_text]. f_equal. apply (alter_row _ _ a); [done|].
      unfold see_bid, auction_row. cbn. by rewrite Hf.
  - destruct (wf_auction _ _ Hwf _ _ Ha) as [Hk Hok]. cbn [call_events]. unfold on_auction. rewrite Ha.
    eapply see_outcome; [|by apply (aok_phase _ _ Hok)|done]. by rewrite Hk.
Qed.

Lemma sudo_seen v e st m st' msgs : wf p st -> sudo p lb v e st m = Ok (st', msgs) ->
  fold_left see (pair (e_time e) <$> sudo_events e st m) (truth st) = truth st'.
Proof.
  intros Hwf H. destruct m as [| |u|cs|ds|]; cbn [sudo sudo_events] in *.
  - unfold sudo_begin_block in H. apply bind_Ok in H as (?&_&H). cbv zeta in H. apply bind_Ok in H as (ws&_&H). injection H as <- <-.
    unfold begin_block_events. destruct (_ && _); done.
  - apply end_block_inv in H as (os&ear&HF&->&_&->); [|done]. unfold end_block_events.
    cbn [fmap list_fmap fold_left]. change (see (truth st) _) with (truth st).
    rewrite (see_process v (e_time e) (s_config st) (s_halt st) st _ os); [| | |done].
    + by destruct (find_stale_halt_info _ _).
    + intros a Ha. apply (due_elem p) in Ha as [Ha _]; [|done]. split; [done|].
      destruct (wf_auction _ _ Hwf _ _ Ha) as [_ Hok]. apply (aok_phase _ _ Hok).
    + by eapply due_nodup.
  - unfold sudo_update_params in H. apply bind_Ok in H as (fb&Hfb&H). apply bind_Ok in H as ([]&Hc&H). injection H as <- <-.
    cbn [fmap list_fmap fold_left]. destruct (see_params u (s_config st) (cf_fair_burn (s_config st))) as [E|]; [|done].
    unfold truth at 1. unfold see. 
    change (ev_type (update_params_event u)) with "sudo-update-params". cbn [String.eqb Ascii.eqb Bool.eqb].
    rewrite E. unfold truth. cbn [s_auctions s_config s_mins]. f_equal.
    destruct (u_fair_burn u) as [s|]; [|by injection Hfb as <-]. by apply addr_validate_Ok in Hfb as [-> _].
  - unfold sudo_set_min_reserve_prices in H. apply bind_Ok in H as (mm&Hm&H). injection H as <- <-. by apply see_adds.
  - unfold sudo_unset_min_reserve_prices in H. apply bind_Ok in H as (mm&Hm&H). injection H as <- <-. by apply see_drops.
  - by injection H as <- <-.
Qed.

Lemma log_wf st evs : ra_log p lb st evs -> wf p st.
Proof.
  induction 1 as [c mins st now H|st evs v e sender funds m st' msgs _ IH Hs H|st evs v e m st' msgs _ IH H].
  - by eapply wf_instantiate.
  - by eapply wf_execute.
  - by eapply wf_sudo.
Qed.
Lemma observe_log st evs : ra_log p lb st evs -> observe evs = truth st.
Proof.
  induction 1 as [c mins st now H|st evs v e sender funds m st' msgs Hl IH Hs H|st evs v e m st' msgs Hl IH H]; unfold observe in *.
  - unfold instantiate in H. apply bind_Ok in H as (?&_&H). apply bind_Ok in H as ([]&Hc&H). apply bind_Ok in H as (m&Hm&H). injection H as <-.
    unfold instantiate_events. rewrite fold_left_pair. unfold truth. cbn [s_auctions s_config s_mins].
    rewrite <-(see_adds now _ _ _ (auction_row <$> ∅) (config_texts c) Hm). f_equal. cbn -[dec_text coin_text pretty]. by rewrite !fmap_empty.
  - rewrite fold_left_app, IH. eapply call_seen; [by eapply log_wf|done].
  - rewrite fold_left_app, IH. eapply sudo_seen; [by eapply log_wf|done].
Qed.

(** * What the observer knows decides the storage, up to durations *)
Lemma option_text_inj {A} (f : A -> string) (x y : option A) : (forall a b, f a = f b -> a = b) -> f <$> x = f <$> y -> x = y.
Proof. intros Hf. destruct x, y; cbn; intros H; try done. injection H as H. by rewrite (Hf _ _ H). Qed.
Lemma truth_same st st' : wf p st -> wf p st' -> bank_denoms st -> bank_denoms st' -> truth st = truth st' -> same_house st st'.
Proof.
  intros Hw Hw' [Ha Hc] [Ha' Hc'] H. injection H as H1 H2 H3 H4 H5 H6 H7 H8 H9 H10 H11 H12. split_and!.
  - intros k. assert ((auction_row <$> s_auctions st) !! k = (auction_row <$> s_auctions st') !! k) as E by (by rewrite H1).
    rewrite !lookup_fmap in E. destruct (s_auctions st !! k) as [a|] eqn:Ea, (s_auctions st' !! k) as [b|] eqn:Eb; try done.
    cbn in E. injection E as E1 E2 E3 E4 E5 E6.
    destruct (wf_auction _ _ Hw _ _ Ea) as [<- Hok]. destruct (wf_auction _ _ Hw' _ _ Eb) as [Hk Hok'].
    unfold a_key in Hk. injection Hk as K1 K2.
    pose proof (Ha _ _ Ea) as L. pose proof (Ha' _ _ Eb) as L'. apply coin_text_inj in E2; [|done..].
    apply (option_text_inj time_text) in E5, E6; [|apply time_text_inj..].
    unfold same_auction. split_and!; try done.
    destruct (a_high a) as [x|] eqn:Ex, (a_high b) as [y|] eqn:Ey; try done. cbn in E4. injection E4 as E7 E8.
    destruct (aok_bid _ _ Hok _ Ex) as [D _]. destruct (aok_bid _ _ Hok' _ Ey) as [D' _].
    apply coin_text_inj in E8; [|by rewrite D|by rewrite D']. destruct x, y; cbn in *. by subst.
  - apply dec_text_inj in H3, H4. apply (inj pretty) in H5, H6, H8, H9, H10, H11. apply coin_text_inj in H7; [|done..].
    by unfold same_config.
  - by apply (inj (fmap pretty)) in H12.
Qed.
Lemma log_house st evs st' : ra_log p lb st evs -> ra_log p lb st' evs -> bank_denoms st -> bank_denoms st' -> same_house st st'.
Proof.
  intros H H' Hd Hd'. apply truth_same; eauto using log_wf. by rewrite <-(observe_log _ _ H), <-(observe_log _ _ H').
Qed.
Lemma history_log st : ra_history p lb st -> exists evs, ra_log p lb st evs.
Proof.
  intros (c&mins&st0&Hi&Hr). revert st Hr. apply rtc_ind_r.
  - eexists. by apply (LogStart p lb c mins st0 0).
  - intros st st' _ Hc [evs IH]. destruct Hc as [v e sender funds m msgs Hs H|v e m msgs H].
    + eexists. by eapply LogCall.
    + eexists. by eapply LogSudo.
Qed.
Lemma reachable_log w : ra_reachable p lb w -> exists evs, ra_log p lb (w_st w) evs.
Proof. intros H%reachable_history. by apply history_log. Qed.

(** * Settlements *)
Lemma told_moves_app l l' : told_moves (l ++ l') = told_moves l ++ told_moves l'.
Proof. unfold told_moves. by rewrite flat_map_app. Qed.
Lemma nft_moves_app l l' : nft_moves (l ++ l') = nft_moves l ++ nft_moves l'.
Proof. unfold nft_moves. by rewrite flat_map_app. Qed.
Lemma outcome_told v now cfg h a o em : outcome lb v now cfg h a o em ->
  nft_moves em = told_moves (settle_events now cfg h a) /\
  ((exists t, o = Some (with_end a t) /\ settle_events now cfg h a = [postponed_report a t]) \/
   (exists hb, o = None /\ a_high a = Some hb /\ settle_events now cfg h a = [settled_report a hb])).
Proof.
  intros Ho. destruct Ho as [t Ht Hle Hh Hm|t hb sp Ht Hle Hh Hb Hsp Hr]; unfold settle_events; rewrite Ht.
  - apply within_halted in Hh. rewrite Hh.
    assert (forall X : list event, (match a_high a with Some hb => X | None => X end) = X) as -> by (by destruct (a_high a)).
    split; [done|]. left. by eexists.
  - rewrite Hb. assert (within_halt_window h (t_seconds t) = false) as ->.
    { destruct (within_halt_window h (t_seconds t)) eqn:E; [|done]. by apply within_halted in E. }
    split; [|right; by eexists]. unfold settlement, burn_part, pay_part. rewrite !nft_moves_app.
    destruct (decide (sp_burn sp = 0)), (decide (sp_royalty sp = 0)), (decide (sp_seller sp = 0)); done.
Qed.
Lemma outcomes_nfts v now cfg h l os : Forall2 (fun a o => outcome lb v now cfg h a (fst o) (snd o)) l os ->
  nft_moves (concat (snd <$> os)) = told_moves (List.flat_map (settle_events now cfg h) l).
Proof.
  induction 1 as [|a o l os Ho HF IH]; [done|]. cbn [fmap list_fmap concat List.flat_map].
  rewrite nft_moves_app, told_moves_app, IH. by destruct (outcome_told _ _ _ _ _ _ _ Ho) as [-> _].
Qed.
Lemma told_moves_keys v now cfg h l os : Forall2 (fun a o => outcome lb v now cfg h a (fst o) (snd o)) l os ->
  NoDup (a_key <$> l) ->
  NoDup (told_moves (List.flat_map (settle_events now cfg h) l)).*1 /\
  forall k, k ∈ (told_moves (List.flat_map (settle_events now cfg h) l)).*1 -> k ∈ a_key <$> l.
Proof.
  induction 1 as [|a o l os Ho HF IH]; [done|]. cbn [fmap list_fmap List.flat_map]. intros [Hn Hnd]%NoDup_cons.
  destruct (IH Hnd) as [IH1 IH2]. rewrite told_moves_app, fmap_app.
  destruct (outcome_told _ _ _ _ _ _ _ Ho) as [_ [(t&_&->)|(hb&_&_&->)]]; cbn.
  - split; [done|]. intros k Hk. right. by apply IH2.
  - split; [constructor; [|done]; intros Hk; by apply Hn, IH2|]. intros k [->|Hk]%elem_of_cons; [by left|]. right. by apply IH2.
Qed.

Lemma process_told v now cfg h st l os st' :
  (forall a, a ∈ l -> s_auctions st !! a_key a = Some a) -> NoDup (a_key <$> l) ->
  Forall2 (fun a o => outcome lb v now cfg h a (fst o) (snd o)) l os -> s_auctions st' = s_auctions (process st l os) ->
  (forall k a, s_auctions st !! k = Some a -> a_key a = k) ->
  told st st' (concat (snd <$> os)) (List.flat_map (settle_events now cfg h) l).
Proof.
  intros Hin Hnd HF Hst Hkey.
  assert (forall k a, s_auctions st !! k = Some a -> s_auctions st' !! k <> Some a ->
    exists o em, a ∈ l /\ outcome lb v now cfg h a o em /\ s_auctions st' !! k = o) as Hch.
  { intros k a Hs Hne. destruct (decide (k ∈ a_key <$> l)) as [Hk|Hk].
    - apply elem_of_list_fmap in Hk as (b&->&Hb). pose proof (Hin _ Hb) as Hsb. rewrite Hs in Hsb. injection Hsb as <-.
      apply elem_of_list_lookup in Hb as Hb'. destruct Hb' as (i&Hi). destruct (Forall2_lookup_l _ _ _ _ _ HF Hi) as ([o em]&Ho&Hout).
      exists o, em. split_and!; [done|done|]. rewrite Hst. by apply (process_at st l os i a (o, em)).
    - exfalso. apply Hne. rewrite Hst, process_other by done. done. }
  split.
  - by eapply outcomes_nfts.
  - by eapply told_moves_keys.
  - intros k a Hs Hn. destruct (Hch k a Hs ltac:(congruence)) as (o&em&Hl&Hout&Ho). rewrite Hn in Ho. subst o.
    destruct (outcome_told _ _ _ _ _ _ _ Hout) as [_ [(t&E&_)|(hb&_&Hb&E)]]; [done|].
    exists hb. split; [done|]. rewrite elem_of_list_In, in_flat_map. exists a. rewrite E, <-elem_of_list_In. split; [done|by left].
  - intros k a a' Hs Hs' Hne. destruct (Hch k a Hs ltac:(congruence)) as (o&em&Hl&Hout&Ho). rewrite Hs' in Ho. subst o.
    destruct (outcome_told _ _ _ _ _ _ _ Hout) as [_ [(t&E'&E)|(hb&E&_)]]; [|done]. injection E' as ->.
    exists t. split; [done|]. rewrite elem_of_list_In, in_flat_map. exists a. rewrite E, <-elem_of_list_In. split; [done|by left].
  - intros ev Hev _. rewrite elem_of_list_In, in_flat_map in Hev. destruct Hev as (a&Hl&Hev). apply elem_of_list_In in Hl, Hev.
    exists a. split; [by apply Hin|]. apply elem_of_list_lookup in Hl as (i&Hi).
    destruct (Forall2_lookup_l _ _ _ _ _ HF Hi) as ([o em]&Ho&Hout). cbn [fst snd] in Hout.
    assert (s_auctions st' !! a_key a = o) as Hs'. { rewrite Hst. by apply (process_at st l os i a (o, em)). }
    destruct (outcome_told _ _ _ _ _ _ _ Hout) as [_ [(t&->&E)|(hb&->&Hb&E)]]; rewrite E in Hev; apply elem_of_list_singleton in Hev as ->.
    + right. by exists t.
    + left. by exists hb.
Qed.
Lemma settle_told st v e sender funds coll tok st' msgs :
  ra_history p lb st -> execute p lb v e sender funds st (SettleAuction coll tok) = Ok (st', msgs) ->
  told st st' msgs (call_events e sender funds st (SettleAuction coll tok)).
Proof.
  intros Hh H. apply history_wf in Hh as Hwf. apply execute_effect in H; [|done].
  inversion H as [| | | |coll' tok' a o em _ Ha Ho]; subst. cbn [call_events]. unfold on_auction. rewrite Ha.
  destruct (wf_auction _ _ Hwf _ _ Ha) as [Hk _].
  pose proof (process_told v (e_time e) (s_config st) (s_halt st) st [a] [(o, msgs)] (put st (a_key a) o)) as T.
  cbn [List.flat_map fmap list_fmap concat snd] in T. rewrite !app_nil_r in T. apply T.
  - intros b ->%elem_of_list_singleton. by rewrite Hk.
  - cbn. repeat constructor. by intros ?%elem_of_nil.
  - by repeat constructor.
  - done.
  - intros k b Hb. by destruct (wf_auction _ _ Hwf _ _ Hb).
Qed.
Lemma end_block_told st v e st' msgs :
  ra_history p lb st -> sudo p lb v e st EndBlock = Ok (st', msgs) -> told st st' msgs (sudo_events e st EndBlock).
Proof.
  intros Hh H. apply history_wf in Hh as Hwf. cbn [sudo] in H. apply end_block_inv in H as (os&ear&HF&->&_&->); [|done].
  cbn [sudo_events]. unfold end_block_events.
  match goal with |- told _ ?s _ _ => set (st' := s) end.
  assert (s_auctions st' = s_auctions (process st (due_auctions st (t_seconds (e_time e) + 1) (cf_max_settle (s_config st))) os)) as Es.
  { subst st'. by destruct (find_stale_halt_info _ _). }
  destruct (process_told v (e_time e) (s_config st) (s_halt st) st (due_auctions st (t_seconds (e_time e) + 1) (cf_max_settle (s_config st))) os st') as [T1 T2 T3 T4 T5]; [| |exact HF|exact Es| |].
  - intros a Ha. by apply (due_elem p) in Ha as [Ha _].
  - by apply (due_nodup p).
  - intros k b Hb. by destruct (wf_auction _ _ Hwf _ _ Hb).
  - split; try done.
    + intros k a Hs Hs'. destruct (T3 k a Hs Hs') as (hb&?&?). exists hb. split; [done|by right].
    + intros k a a' Hs Hs' Hne. destruct (T4 k a a' Hs Hs' Hne) as (t&?&?). exists t. split; [done|by right].
    + intros ev [->|Hev]%elem_of_cons Hty; [done|]. by apply T5.
Qed.

(** * Bids *)
Lemma bid_told st v e sender funds coll tok st' msgs :
  ra_history p lb st -> execute p lb v e sender funds st (PlaceBid coll tok) = Ok (st', msgs) ->
  exists a a' hb t, s_auctions st !! (coll, tok) = Some a /\ s_auctions st' !! (coll, tok) = Some a' /\
    a_high a' = Some hb /\ a_end a' = Some t /\ hb_bidder hb = sender /\ funds = [hb_coin hb] /\
    call_events e sender funds st (PlaceBid coll tok) = [bid_report a hb t] /\ sends msgs = told_refund (bid_report a hb t).
Proof.
  intros Hh H. apply history_wf in Hh as Hwf. apply execute_effect in H; [|done].
  inversion H as [| | |coll' tok' a n a' ms Ha Hfu Hb|]; subst. destruct (wf_auction _ _ Hwf _ _ Ha) as [Hk Hok].
  unfold a_key in Hk. injection Hk as <- <-.
  destruct Hb as [Bpos Bs Bmin Bopen (f&t'&->&Hmax&Hcase)].
  eexists a, _, _, t'. split; [done|]. split; [cbn; by rewrite lookup_insert|]. split; [done|]. split; [done|]. split; [done|].
  split; [done|]. cbn [call_events]. unfold on_auction. rewrite Ha. unfold place_bid_event.
  assert (must_pay [Coin (a_denom a) n] (a_denom a) = Ok n) as ->.
  { unfold must_pay, one_coin. cbn [c_amount c_denom]. destruct (N.eqb_spec n 0); [lia|]. cbn -[bool_decide]. by rewrite bool_decide_eq_true_2. }
  destruct Hcase as [(Hf&->&->&->)|(prev&t&Hf&Hh'&Ht&_&->&Hc)]; rewrite Hf.
  - destruct (aok_phase _ _ Hok) as [_ _ Hhi|]; [|congruence]. unfold bid_report. rewrite Hhi. done.
  - rewrite Hh', Ht. assert ((if t_seconds t - t_seconds (e_time e) <? cf_extend (s_config st) then e_time e + cf_extend (s_config st) * NANOS else t) = t') as ->.
    { destruct Hc as [[Hlt ->]|[Hge ->]]; [by rewrite (proj2 (N.ltb_lt _ _) Hlt)|by rewrite (proj2 (N.ltb_ge _ _) Hge)]. }
    unfold bid_report. rewrite Hh'. done.
Qed.
End Facts.
