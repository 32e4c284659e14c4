(** Reserve auction: the exact effect of bids, openings and governance calls, which halt windows EndBlock drops, and
    the remaining queries. *)
From stdpp Require Import relations.
From Verif Require Import Base BaseFacts Common Chain ChainFacts IndexRange IndexFacts QuerySpec IndexWalk
  RAModel RASpec RAFacts RAIndex RAInv RAReach RAFinal RAQuery.

Section More.
Context (p : params) (lb : lib).
Local Lemma bind_ok {A B} (a : A) (g : A -> result B) : (y ← Ok a; g y) = g a.
Proof. done. Qed.

(** * Bids *)
Lemma bid_exact st v e sender funds coll tok st' msgs :
  ra_history p lb st -> execute p lb v e sender funds st (PlaceBid coll tok) = Ok (st', msgs) ->
  exists a n a', s_auctions st !! (coll, tok) = Some a /\ sender <> a_seller a /\
    funds = [Coin (c_denom (a_reserve a)) n] /\ 0 < n /\
    bid_result (e_time e) (s_config st) sender n a a' msgs /\
    st' = State (s_config st) (s_mins st) (s_halt st) (<[(coll, tok) := a']> (s_auctions st)).
Proof.
  intros Hst H. pose proof (history_wf p lb _ Hst) as Hwf. apply execute_effect in H; [|done].
  inversion H as [| | |c t a n a' ms Ha Hf Hbt|]; subst. destruct (wf_auction _ _ Hwf _ _ Ha) as [Hk Hok].
  destruct Hbt as [Hpos Hs Hmin Hop (first&t&->&Ht&Hr)].
  eexists a, n, _. split; [done|]. split; [congruence|]. split; [done|]. split; [done|]. split; [|by rewrite <-Hk].
  destruct Hr as [(Hf&->&->&->)|(prev&t0&Hf&Hh&He&Hp0&->&Hr)].
  - destruct (aok_phase _ _ Hok) as [_ He Hh|]; [|congruence]. rewrite Hh in Hmin. by apply first_bid.
  - rewrite Hh in Hmin. rewrite ceil_div_scaled in Hmin. specialize (Hop _ He).
    pose proof (later_bid (e_time e) (s_config st) sender n a first prev t0 Hf Hh He Hop Hmin) as Hb.
    destruct Hr as [[Hx ->]|[Hx ->]].
    + rewrite decide_True in Hb by lia. exact Hb.
    + rewrite decide_False in Hb by lia. exact Hb.
Qed.

(** * Opening *)
Lemma has_coins_spec funds c : has_coins funds c = true <->
  exists f1 x f2, funds = f1 ++ x :: f2 /\ Forall (fun y => c_denom y <> c_denom c) f1 /\
    c_denom x = c_denom c /\ c_amount c <= c_amount x.
Proof.
  induction funds as [|y funds IH]; cbn.
  - split; [done|]. intros (f1&?&?&?&_). by destruct f1.
  - case_bool_decide as E.
    + split.
      * intros H. exists [], y, funds. split_and!; [done|constructor|done|lia].
      * intros (f1&x&f2&Ef&HF&Hd&Hle). destruct f1 as [|z f1]; cbn in Ef.
        -- injection Ef as -> ->. lia.
        -- injection Ef as -> ->. apply Forall_cons_1 in HF as [? _]. done.
    + rewrite IH. split.
      * intros (f1&x&f2&->&HF&?&?). exists (y :: f1), x, f2. split_and!; try done. by apply List.Forall_cons.
      * intros (f1&x&f2&Ef&HF&Hd&Hle). destruct f1 as [|z f1]; cbn in Ef; injection Ef as -> ->; [done|].
        apply Forall_cons_1 in HF as [_ ?]. by exists f1, x, f2.
Qed.
Lemma create_exact st v e sender funds coll tok reserve duration recipient st' msgs :
  execute p lb v e sender funds st (CreateAuction coll tok reserve duration recipient) = Ok (st', msgs) <->
  may_open p lb v (e_time e) sender st coll tok reserve duration recipient /\
  pays_fee (cf_create_fee (s_config st)) funds /\
  st' = State (s_config st) (s_mins st) (s_halt st)
          (<[(coll, tok) := Auction coll tok sender reserve duration None recipient None None]> (s_auctions st)) /\
  msgs = fee_burnt (cf_create_fee (s_config st)) ++ [MNft coll tok (p_self p)].
Proof.
  cbn [execute]. split.
  - intros H. apply bind_Ok in H as (c&Hc&H). apply addr_validate_Ok in Hc as [-> Hv].
    apply bind_Ok in H as (r&Hr&H).
    assert (r = recipient /\ forall x, recipient = Some x -> p_valid p x = true) as [-> Hrec].
    { destruct recipient as [x|]; cbn in Hr.
      - apply bind_Ok in Hr as (y&Hy&Hr). apply addr_validate_Ok in Hy as [-> ?]. injection Hr as <-. split; [done|].
        intros ? E. by injection E as <-.
      - injection Hr as <-. done. }
    unfold execute_create_auction in H.
    apply bind_Ok in H as ([]&Ho&H). apply bind_Ok in H as ([]&Hap&H). apply ensure_Ok in Hap.
    apply bind_Ok in H as ([]&Hno&H). unfold only_no_auction in Hno. destruct (s_auctions st !! (coll, tok)) eqn:En; [done|].
    apply bind_Ok in H as ([]&Ht&H). apply bind_Ok in H as (?&Hp&H). apply validate_reserve_price_Ok in Hp.
    apply bind_Ok in H as (?&Hd&H). apply ensure_Ok in Hd. apply bind_Ok in H as (ms&Hms&H). injection H as <- <-.
    apply andb_prop in Hd as [? ?]. split; [|].
    { split; try done.
      - unfold only_owner in Ho. destruct (q_owner v coll tok); [by apply ensure_Ok, bool_decide_eq_true in Ho|].
        by destruct (l_owner_open lb).
      - unfold only_tradable in Ht. destruct (q_info v coll) as [ci|]; [|by destruct (l_info_open lb)].
        intros t E. rewrite E in Ht. destruct (N.ltb_spec (e_time e) t); [done|lia].
      - lia. }
    unfold pays_fee, fee_burnt, transfer_nft. destruct (N.eqb_spec (c_amount (cf_create_fee (s_config st))) 0) as [Ez|Ez].
    + apply bind_Ok in Hms as (?&Hn%nonpayable_Ok&E). injection E as <-. rewrite decide_True by done.
      split; [by left|]. done.
    + apply bind_Ok in Hms as (?&Hn%ensure_Ok&E). injection E as <-. rewrite decide_False by done.
      split; [right; split; [lia|by apply has_coins_spec]|]. done.
  - intros ([Hv Hr Ho Hap Hn Ht (m&Hm&Hle) Hd]&Hfee&->&->). unfold addr_validate. rewrite Hv, bind_ok.
    assert (maybe_addr p recipient = Ok recipient) as ->.
    { destruct recipient as [x|]; [|done]. cbn. unfold addr_validate. by rewrite (Hr x eq_refl). }
    rewrite bind_ok. unfold execute_create_auction.
    assert (only_owner lb v sender coll tok = Ok tt) as ->.
    { unfold only_owner. destruct (q_owner v coll tok) as [o|]; [|by rewrite Ho]. subst o. by rewrite bool_decide_true. }
    rewrite bind_ok. unfold has_approval. rewrite Hap. cbn [ensure]. rewrite bind_ok. unfold only_no_auction. rewrite Hn, bind_ok.
    assert (only_tradable lb v e coll = Ok tt) as ->.
    { unfold only_tradable. destruct (q_info v coll) as [ci|]; [|by rewrite Ht]. destruct (ci_start ci) as [t|]; [|done].
      specialize (Ht t eq_refl). destruct (N.ltb_spec (e_time e) t); [lia|done]. }
    rewrite bind_ok. unfold validate_reserve_price. rewrite Hm. rewrite (proj2 (N.leb_le _ _) Hle). cbn [ensure]. rewrite bind_ok.
    destruct Hd as [Hd1 Hd2]. rewrite (proj2 (N.leb_le _ _) Hd1), (proj2 (N.leb_le _ _) Hd2). cbn [andb ensure]. rewrite bind_ok.
    unfold fee_burnt, transfer_nft. destruct Hfee as [[Hz ->]|[Hpos Hc]].
    + rewrite (proj2 (N.eqb_eq _ _) Hz), decide_True by done. done.
    + rewrite (proj2 (N.eqb_neq _ _)) by lia. rewrite decide_False by lia. apply has_coins_spec in Hc. by rewrite Hc.
Qed.

(** * Governance *)
Lemma config_validate_iff c : config_validate c = Ok tt <-> config_ok c.
Proof.
  unfold config_validate, config_ok. split.
  - intros H. inv_ok. lia.
  - intros ([H1 H1']&H2&H3). rewrite (proj2 (N.eqb_neq (cf_increment c) 0)) by lia. cbn [negb ensure]. rewrite bind_ok.
    rewrite (proj2 (N.ltb_lt _ _) H1'). cbn [ensure]. rewrite bind_ok. rewrite (proj2 (N.ltb_lt _ _) H2). cbn [ensure].
    rewrite bind_ok. by rewrite (proj2 (N.ltb_lt _ _) H3).
Qed.
Lemma add_mins_iff cs : forall m m', add_mins m cs = Ok m' <-> adds_mins m cs m'.
Proof.
  induction cs as [|c cs IH]; intros m m'; cbn [add_mins].
  - unfold adds_mins. split.
    + intros H. injection H as <-. split_and!; [constructor|by intros c ?%elem_of_nil|]. intros d n. rewrite elem_of_nil. tauto.
    + intros (_&_&H). f_equal. apply map_eq. intros d. apply option_eq. intros n. rewrite H, elem_of_nil. tauto.
  - destruct (m !! c_denom c) as [x|] eqn:E.
    + split; [done|]. intros (_&H&_). specialize (H c). rewrite H in E by (by left). done.
    + rewrite IH. unfold adds_mins. rewrite fmap_cons. split.
      * intros (Hn&Hf&Hl).
        assert (c_denom c ∉ (c_denom <$> cs)) as Hc.
        { intros (c'&E'&Hc')%elem_of_list_fmap. specialize (Hf c' Hc'). rewrite <-E', lookup_insert in Hf. done. }
        split; [by apply NoDup_cons|]. split.
        -- intros c' [->|Hc']%elem_of_cons; [done|]. specialize (Hf c' Hc'). rewrite lookup_insert_ne in Hf; [done|].
           intros E'. apply Hc. apply elem_of_list_fmap. eauto.
        -- intros d n. rewrite Hl, elem_of_cons. destruct (decide (c_denom c = d)) as [<-|Hne].
           ++ rewrite lookup_insert. split.
              ** intros [E'|?]; [|by auto]. injection E' as <-. right. left. by destruct c.
              ** intros [E'|[E'|?]]; [congruence| |by auto]. left. by rewrite <-E'.
           ++ rewrite lookup_insert_ne by done. split; [intuition|]. intros [?|[E'|?]]; [by auto| |by auto]. by destruct Hne; rewrite <-E'.
      * intros (Hn&Hf&Hl). apply NoDup_cons in Hn as [Hc Hn]. split; [done|]. split.
        -- intros c' Hc'. rewrite lookup_insert_ne; [apply Hf; by right|]. intros E'. apply Hc, elem_of_list_fmap. eauto.
        -- intros d n. rewrite Hl, elem_of_cons. destruct (decide (c_denom c = d)) as [<-|Hne].
           ++ rewrite lookup_insert. split.
              ** intros [E'|[E'|?]]; [congruence| |by auto]. left. by rewrite <-E'.
              ** intros [E'|?]; [|by auto]. injection E' as <-. right. left. by destruct c.
           ++ rewrite lookup_insert_ne by done. split; [|intuition]. intros [?|[E'|?]]; [by auto| |by auto]. by destruct Hne; rewrite <-E'.
Qed.
Lemma remove_mins_iff ds : forall m m', remove_mins m ds = Ok m' <-> drops_mins m ds m'.
Proof.
  induction ds as [|c ds IH]; intros m m'; cbn [remove_mins].
  - unfold drops_mins. split.
    + intros H. injection H as <-. split_and!; [constructor|by intros c ?%elem_of_nil|]. intros d n. rewrite elem_of_nil. tauto.
    + intros (_&_&H). f_equal. apply map_eq. intros d. apply option_eq. intros n. rewrite H, elem_of_nil. tauto.
  - destruct (m !! c) as [x|] eqn:E.
    2: { split; [done|]. intros (_&H&_). destruct (H c) as [? E']; [by left|congruence]. }
    rewrite IH. unfold drops_mins. split.
    + intros (Hn&Hf&Hl).
      assert (c ∉ ds) as Hc. { intros Hc. destruct (Hf c Hc) as [? E']. by rewrite lookup_delete in E'. }
      split; [by apply NoDup_cons|]. split.
      * intros d [->|Hd]%elem_of_cons; [by eauto|]. destruct (Hf d Hd) as [y E']. apply lookup_delete_Some in E' as [_ E']. eauto.
      * intros d n. rewrite Hl, lookup_delete_Some, not_elem_of_cons. intuition congruence.
    + intros (Hn&Hf&Hl). apply NoDup_cons in Hn as [Hc Hn]. split; [done|]. split.
      * intros d Hd. destruct (Hf d) as [y E']; [by right|]. exists y. apply lookup_delete_Some. split; [|done]. by intros ->.
      * intros d n. rewrite Hl, lookup_delete_Some, not_elem_of_cons. intuition congruence.
Qed.
Lemma governance_exact v e st m st' msgs : m <> BeginBlock -> m <> EndBlock ->
  sudo p lb v e st m = Ok (st', msgs) <-> governs p st m st' /\ msgs = [].
Proof.
  intros H1 H2. destruct m as [| |u|cs|ds|]; try done; cbn [sudo].
  - unfold sudo_update_params. cbv zeta.
    assert (forall fb, Config fb (default (cf_trading_fee (s_config st)) (u_trading_fee u)) (default (cf_increment (s_config st)) (u_increment u))
                   (default (cf_min_duration (s_config st)) (u_min_duration u)) (cf_max_duration (s_config st))
                   (default (cf_extend (s_config st)) (u_extend u)) (default (cf_create_fee (s_config st)) (u_create_fee u))
                   (default (cf_max_settle (s_config st)) (u_max_settle u)) (default (cf_halt_threshold (s_config st)) (u_halt_threshold u))
                   (default (cf_halt_buffer (s_config st)) (u_halt_buffer u)) (default (cf_halt_postpone (s_config st)) (u_halt_postpone u))
             = Config fb (or_old (u_trading_fee u) (cf_trading_fee (s_config st))) (or_old (u_increment u) (cf_increment (s_config st)))
                  (or_old (u_min_duration u) (cf_min_duration (s_config st))) (cf_max_duration (s_config st))
                  (or_old (u_extend u) (cf_extend (s_config st))) (or_old (u_create_fee u) (cf_create_fee (s_config st)))
                  (or_old (u_max_settle u) (cf_max_settle (s_config st))) (or_old (u_halt_threshold u) (cf_halt_threshold (s_config st)))
                  (or_old (u_halt_buffer u) (cf_halt_buffer (s_config st))) (or_old (u_halt_postpone u) (cf_halt_postpone (s_config st))))
      as Eu.
    { intros fb. done. }
    split.
    + intros H. apply bind_Ok in H as (fb&Hfb&H). rewrite Eu in H.
      assert (fb = or_old (u_fair_burn u) (cf_fair_burn (s_config st)) /\ forall s, u_fair_burn u = Some s -> p_valid p s = true) as [-> Hv].
      { destruct (u_fair_burn u) as [s|].
        - apply addr_validate_Ok in Hfb as [-> ?]. split; [done|]. intros ? E. by injection E as <-.
        - by injection Hfb as <-. }
      apply bind_Ok in H as ([]&Hc&H). injection H as <- <-. apply config_validate_iff in Hc. split; [|done]. by apply gov_params.
    + intros [H ->]. inversion H as [u' Hc Hv| | |]; subst.
      assert (match u_fair_burn u with None => Ok (cf_fair_burn (s_config st)) | Some s => addr_validate p s end
              = Ok (or_old (u_fair_burn u) (cf_fair_burn (s_config st)))) as ->.
      { destruct (u_fair_burn u) as [s|]; [|done]. unfold addr_validate. by rewrite Hv. }
      rewrite bind_ok, Eu. apply config_validate_iff in Hc. unfold updated in Hc. rewrite Hc. done.
  - unfold sudo_set_min_reserve_prices. split.
    + intros H. apply bind_Ok in H as (m&Hm&H). injection H as <- <-. split; [|done]. by apply gov_set, add_mins_iff.
    + intros [H ->]. inversion H as [|cs' m Hm| |]; subst. apply add_mins_iff in Hm. by rewrite Hm.
  - unfold sudo_unset_min_reserve_prices. split.
    + intros H. apply bind_Ok in H as (m&Hm&H). injection H as <- <-. split; [|done]. by apply gov_unset, remove_mins_iff.
    + intros [H ->]. inversion H as [| |ds' m Hm|]; subst. apply remove_mins_iff in Hm. by rewrite Hm.
  - split; [intros H; injection H as <- <-; split; [constructor|done]|]. intros [H ->]. by inversion H.
Qed.
Lemma instantiate_exact c mins st :
  instantiate p c mins = Ok st <->
  p_valid p (cf_fair_burn c) = true /\ config_ok c /\
  exists m, adds_mins ∅ mins m /\ st = State c m (HaltManager 0 []) ∅.
Proof.
  unfold instantiate. split.
  - intros H. apply bind_Ok in H as (fb&Hfb&H). apply addr_validate_Ok in Hfb as [_ Hv]. apply bind_Ok in H as ([]&Hc&H).
    apply bind_Ok in H as (m&Hm&H). injection H as <-. split; [done|]. split; [by apply config_validate_iff|].
    exists m. split; [by apply add_mins_iff|done].
  - intros (Hv&Hc&m&Hm&->). unfold addr_validate. rewrite Hv, bind_ok. apply config_validate_iff in Hc. rewrite Hc, bind_ok.
    apply add_mins_iff in Hm. by rewrite Hm.
Qed.

(** * Halt windows at the end of a block *)
Lemma window_exact st v e st' msgs :
  ra_history p lb st -> sudo p lb v e st EndBlock = Ok (st', msgs) -> 0 < cf_max_settle (s_config st) ->
  hm_prev (s_halt st') = hm_prev (s_halt st) /\
  match hm_windows (s_halt st) with
  | [] => hm_windows (s_halt st') = []
  | w :: ws =>
      (hm_windows (s_halt st') = ws /\ forall k a, s_auctions st !! k = Some a -> due (e_time e) a -> hw_end w < end_second a) \/
      (hm_windows (s_halt st') = w :: ws /\ exists k a, s_auctions st !! k = Some a /\ due (e_time e) a /\ end_second a <= hw_end w)
  end.
Proof.
  intros Hst H Hpos. destruct (window_removed p lb _ _ _ _ _ Hst H) as [Hp Hw]. split; [done|].
  pose proof (history_wf p lb _ Hst) as Hwf.
  assert (t_seconds (e_time e) + 1 <= U64_MAX) as Hm.
  { cbn in H. unfold sudo_end_block in H. apply bind_Ok in H as (b&Hb&_). unfold add64 in Hb.
    destruct (N.leb_spec (t_seconds (e_time e) + 1) U64_MAX); [lia|done]. }
  destruct (hm_windows (s_halt st)) as [|w ws] eqn:Ew.
  { destruct Hw as [Hw|(w&Hw&_)]; [done|done]. }
  destruct Hw as [Hw|(w'&Hw&Hall)].
  2: { injection Hw as <- Hws. left. split; [by rewrite <-Hws|]. by apply Hall. }
  right. split; [done|].
  apply end_block_inv in H as (os&ear&HF&->&Hear&->); [|done].
  set (l := due_auctions st (t_seconds (e_time e) + 1) (cf_max_settle (s_config st))) in *.
  destruct (process_config st l os) as (H1&H2&H3).
  assert (first_due st (e_time e) (cf_max_settle (s_config st)) l) as Hfd by (by apply (due_first p)).
  unfold find_stale_halt_info in Hw. rewrite Ew in Hw. destruct l as [|b l'] eqn:El.
  - subst ear. cbn in Hw. exfalso. apply (f_equal length) in Hw. cbn in Hw. lia.
  - subst ear. assert (b ∈ b :: l') as Hb by (apply elem_of_list_here).
    destruct (fd_due _ _ _ _ Hfd b Hb) as [Hbs (t&Ht&Htle)]. rewrite Ht in Hw.
    destruct (hw_end w <? t_seconds t) eqn:Elt.
    + cbn in Hw. exfalso. apply (f_equal length) in Hw. cbn in Hw. lia.
    + exists (a_coll b, a_tok b), b. split; [done|]. split; [by exists t|]. unfold end_second. rewrite Ht. lia.
Qed.
End More.
