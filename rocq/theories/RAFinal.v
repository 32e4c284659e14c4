(** Rules of the reserve auction, for every call in every history. *)
From stdpp Require Import relations.
From Verif Require Import Base Common Chain BaseFacts ChainFacts IndexRange IndexFacts SaleFacts Plain
  RAModel RASpec RAFacts RAIndex RAInv RAReach.

Lemma ceil_div_scaled x inc : ceil_div (x * (DEC_ONE + inc)) DEC_ONE = x + ceil_div (x * inc) DEC_ONE.
Proof.
  unfold ceil_div. rewrite N.mul_add_distr_l, <-N.add_assoc, (N.add_comm (x * DEC_ONE)), N.div_add by done. lia.
Qed.
Lemma ceil_div_positive x y : 0 < x -> 0 < y -> 0 < ceil_div x y.
Proof. intros Hx Hy. unfold ceil_div. apply N.div_str_pos. lia. Qed.

Section Final.
Context (p : params) (lb : lib).
Notation execute := (execute p lb).
Notation sudo := (sudo p lb).

(** * Bids *)
Lemma bid_beats st a n sender e a' msgs : ra_history p lb st -> bid_taken e sender (s_config st) a n a' msgs ->
  forall hb, a_high a = Some hb -> 0 < c_amount (hb_coin hb) ->
  c_amount (hb_coin hb) + ceil_div (c_amount (hb_coin hb) * cf_increment (s_config st)) DEC_ONE <= n /\ c_amount (hb_coin hb) < n.
Proof.
  intros Hst Hbt hb Hh Hpos. destruct Hbt as [_ _ Hmin _ _]. rewrite Hh, ceil_div_scaled in Hmin.
  destruct (history_config _ _ _ Hst) as ((Hi&_)&_). split; [done|].
  assert (0 < ceil_div (c_amount (hb_coin hb) * cf_increment (s_config st)) DEC_ONE); [|lia].
  apply ceil_div_positive; [lia|done].
Qed.

Lemma bid_rule st v e sender funds coll tok st' msgs :
  ra_history p lb st -> execute v e sender funds st (PlaceBid coll tok) = Ok (st', msgs) ->
  exists a n a', s_auctions st !! (coll, tok) = Some a /\ funds = [Coin (c_denom (a_reserve a)) n] /\
    s_auctions st' !! (coll, tok) = Some a' /\
    a_high a' = Some (HighBid (Coin (c_denom (a_reserve a)) n) sender) /\
    (forall k, k <> (coll, tok) -> s_auctions st' !! k = s_auctions st !! k) /\
    bid_taken e sender (s_config st) a n a' msgs.
Proof.
  intros Hst H. pose proof (history_wf _ _ _ Hst) as Hwf. apply execute_effect in H; [|done].
  inversion H as [| | |c t a n a' ms Ha Hf Hb|]; subst. exists a, n, a'.
  destruct (wf_auction _ _ Hwf _ _ Ha) as [Hk _]. pose proof Hb as Hb'. destruct Hb' as [_ _ _ _ (f&t'&->&_&_)].
  assert (forall k, s_auctions (save_auction st (Auction (a_coll a) (a_tok a) (a_seller a) (a_reserve a) (a_duration a) (Some t')
     (a_recipient a) (Some (HighBid (Coin (a_denom a) n) sender)) (Some f))) !! k = if decide (k = (coll, tok)) then Some (Auction (a_coll a) (a_tok a) (a_seller a) (a_reserve a) (a_duration a) (Some t')
     (a_recipient a) (Some (HighBid (Coin (a_denom a) n) sender)) (Some f)) else s_auctions st !! k) as Hput.
  { intros k. rewrite <-Hk. apply (put_key st (a_key a) (Some _)). }
  split_and!; [done|done|rewrite Hput; by rewrite decide_True|done| |done].
  intros k Hne. rewrite Hput. by rewrite decide_False.
Qed.

Lemma bids_rise st st' k a a' hb :
  ra_history p lb st -> ra_call p lb st st' ->
  s_auctions st !! k = Some a -> s_auctions st' !! k = Some a' -> a_high a = Some hb ->
  exists hb', a_high a' = Some hb' /\ c_denom (hb_coin hb') = c_denom (hb_coin hb) /\
    (hb' = hb \/
     c_amount (hb_coin hb) + ceil_div (c_amount (hb_coin hb) * cf_increment (s_config st)) DEC_ONE <= c_amount (hb_coin hb') /\
     c_amount (hb_coin hb) < c_amount (hb_coin hb')).
Proof.
  intros Hst Hc Ha Ha' Hh. pose proof (history_wf _ _ _ Hst) as Hwf.
  destruct (wf_auction _ _ Hwf _ _ Ha) as [_ Hok]. destruct (aok_bid _ _ Hok _ Hh) as (Hd&Hpos&_).
  assert (a_first a <> None) as Hf by (destruct (aok_phase _ _ Hok); congruence).
  destruct Hc as [v e s f m ms Hs H|v e m ms H].
  - pose proof (execute_fate _ _ _ _ _ _ _ _ _ _ _ _ Hwf H Ha) as Hfate. rewrite Ha' in Hfate.
    inversion Hfate as [|r ? ? ?| |n x ms' Em Ef Hb|o em Em Ho]; subst; try done.
    + exists hb. by auto.
    + pose proof (bid_beats _ _ _ _ _ _ _ Hst Hb hb Hh Hpos). destruct Hb as [_ _ _ _ (f'&t'&->&_&_)].
      eexists. split; [done|]. cbn. split; [done|]. right. done.
    + inversion Ho; subst. exists hb. by auto.
  - destruct (sudo_fate _ _ _ _ _ _ _ _ _ _ Hwf H Ha) as [E|(_&em&Ho)].
    + rewrite Ha' in E. injection E as ->. exists hb. by auto.
    + rewrite Ha' in Ho. inversion Ho; subst. exists hb. by auto.
Qed.

Lemma bid_refund st v e sender funds coll tok st' msgs a hb :
  ra_history p lb st -> execute v e sender funds st (PlaceBid coll tok) = Ok (st', msgs) ->
  s_auctions st !! (coll, tok) = Some a -> a_high a = Some hb -> msgs = [MSend (hb_bidder hb) [hb_coin hb]].
Proof.
  intros Hst H Ha Hh. destruct (bid_rule _ _ _ _ _ _ _ _ _ Hst H) as (b&n&a'&Hb&_&_&_&_&Hbt).
  rewrite Ha in Hb. injection Hb as <-. destruct (history_auction _ _ _ _ _ Hst Ha) as [_ Hok].
  destruct Hbt as [_ _ _ _ (f&t&_&_&[(Hf&_)|(prev&t0&_&Hp&_&_&->&_)])].
  - destruct (aok_phase _ _ Hok); congruence.
  - rewrite Hh in Hp. by injection Hp as <-.
Qed.
Lemma first_bid_no_payment st v e sender funds coll tok st' msgs a :
  ra_history p lb st -> execute v e sender funds st (PlaceBid coll tok) = Ok (st', msgs) ->
  s_auctions st !! (coll, tok) = Some a -> a_high a = None -> msgs = [].
Proof.
  intros Hst H Ha Hh. destruct (bid_rule _ _ _ _ _ _ _ _ _ Hst H) as (b&n&a'&Hb&_&_&_&_&Hbt).
  rewrite Ha in Hb. injection Hb as <-. 
  destruct Hbt as [_ _ _ _ (f&t&_&_&[(_&_&_&->)|(prev&t0&_&Hp&_)])]; [done|congruence].
Qed.

(** On the chain: the outbid bidder gets the bid back, the new bid is taken, nobody else's coins move. *)
Lemma bid_refund_world w sender funds coll tok w' a :
  ra_reachable p lb w -> texec p (RAModel.execute p lb) sender funds (PlaceBid coll tok) w w' ->
  s_auctions (w_st w) !! (coll, tok) = Some a ->
  exists n, funds = [Coin (c_denom (a_reserve a)) n] /\
    (forall x d, w_bank w' x d + (if decide (x = sender) then amt funds d else 0) +
                 (if decide (x = p_self p) then owed d a else 0) =
       w_bank w x d + (if decide (x = p_self p) then amt funds d else 0) +
       match a_high a with
       | Some hb => if decide (hb_bidder hb = x) then in_denom d (hb_coin hb) else 0
       | None => 0
       end) /\
    (forall c t, w_nft w' c t = w_nft w c t).
Proof.
  intros Hr H Ha. pose proof (reachable_history _ _ _ Hr) as Hst.
  inversion H as [s f m w1 st' msgs w2 Hs Hc Hx Hd]; subst.
  destruct (bid_rule _ _ _ _ _ _ _ _ _ Hst Hx) as (b&n&a'&Hb&->&Ha'&_&_&_).
  rewrite Ha in Hb. injection Hb as <-. exists n. split; [done|].
  destruct (a_high a) as [hb|] eqn:Eh.
  - pose proof (bid_refund _ _ _ _ _ _ _ _ _ _ _ Hst Hx Ha Eh) as ->.
    destruct (dispatch_plain p (RAModel.execute p lb) _ _ _ Hd) as (_&_&_&_&Hbank&Hnft).
    { by repeat constructor. }
    split.
    + intros x d. specialize (Hbank x d). pose proof (proj1 (covers_spec _ _ _) Hc d) as Hcd.
      cbn [pay_in set_st set_bank w_bank out out_one credit] in Hbank.
      unfold owed. rewrite Eh, in_denom_amt. unfold bank_move, bank_add, bank_sub in Hbank.
      set (A := amt [Coin (c_denom (a_reserve a)) n] d) in *. set (B := amt [hb_coin hb] d) in *.
      repeat case_bool_decide; repeat case_decide; subst; try congruence; lia.
    + intros c t. rewrite Hnft. done.
  - pose proof (first_bid_no_payment _ _ _ _ _ _ _ _ _ _ Hst Hx Ha Eh) as ->.
    destruct (dispatch_plain p (RAModel.execute p lb) _ _ _ Hd) as (_&_&_&_&Hbank&Hnft); [constructor|].
    split.
    + intros x d. specialize (Hbank x d). pose proof (proj1 (covers_spec _ _ _) Hc d) as Hcd.
      cbn [pay_in set_st set_bank w_bank out out_one credit] in Hbank.
      unfold owed. rewrite Eh. unfold bank_move, bank_add, bank_sub in Hbank.
      set (A := amt [Coin (c_denom (a_reserve a)) n] d) in *.
      repeat case_bool_decide; repeat case_decide; subst; try congruence; lia.
    + intros c t. rewrite Hnft. done.
Qed.

(** * End times *)
Lemma bid_end st v e sender funds coll tok st' msgs :
  ra_history p lb st -> execute v e sender funds st (PlaceBid coll tok) = Ok (st', msgs) ->
  exists a a' t', s_auctions st !! (coll, tok) = Some a /\ s_auctions st' !! (coll, tok) = Some a' /\ a_end a' = Some t' /\
    match a_end a with
    | None => t' = e_time e + a_duration a * NANOS
    | Some t => t_seconds (e_time e) < t_seconds t /\ t <= t' /\
                t_seconds (e_time e) + cf_extend (s_config st) <= t_seconds t' /\
                (t_seconds (e_time e) + cf_extend (s_config st) <= t_seconds t -> t' = t) /\
                (t_seconds t < t_seconds (e_time e) + cf_extend (s_config st) -> t' = e_time e + cf_extend (s_config st) * NANOS)
    end.
Proof.
  intros Hst H. destruct (bid_rule _ _ _ _ _ _ _ _ _ Hst H) as (a&n&a'&Ha&_&Ha'&_&_&Hbt).
  destruct (history_auction _ _ _ _ _ Hst Ha) as [_ Hok].
  destruct Hbt as [_ _ _ Hopen (f&t'&->&_&Hcase)]. eexists a, _, t'. split_and!; [done|done|done|].
  destruct Hcase as [(Hf&_&->&_)|(prev&t&Hf&Hp&Ht&_&_&Hc)].
  - destruct (aok_phase _ _ Hok) as [_ -> _|]; [done|congruence].
  - rewrite Ht. pose proof (Hopen _ Ht) as Ho. destruct Hc as [[Hlt ->]|[Hge ->]].
    + split_and!; [done| |rewrite seconds_plus; lia|lia|done]. apply N.lt_le_incl, seconds_lt. rewrite seconds_plus. lia.
    + split_and!; [done|lia|lia|done|lia].
Qed.

Lemma end_rises st st' k a a' t :
  ra_history p lb st -> ra_call p lb st st' ->
  s_auctions st !! k = Some a -> s_auctions st' !! k = Some a' -> a_end a = Some t ->
  exists t', a_end a' = Some t' /\ t <= t'.
Proof.
  intros Hst Hc Ha Ha' Ht. pose proof (history_wf _ _ _ Hst) as Hwf.
  destruct (wf_auction _ _ Hwf _ _ Ha) as [_ Hok].
  assert (a_first a <> None) as Hf by (destruct (aok_phase _ _ Hok); congruence).
  assert (forall v e o em, outcome lb v (e_time e) (s_config st) (s_halt st) a o em -> o = Some a' ->
     exists t', a_end a' = Some t' /\ t <= t') as Hout.
  { intros v e o em Ho Eo. destruct Ho as [t0 Ht0 Hle _ _|]; [|done]. injection Eo as <-. eexists. split; [done|].
    rewrite Ht in Ht0. injection Ht0 as <-. lia. }
  destruct Hc as [v e s f m ms Hs H|v e m ms H].
  - pose proof (execute_fate _ _ _ _ _ _ _ _ _ _ _ _ Hwf H Ha) as Hfate. rewrite Ha' in Hfate.
    inversion Hfate as [|r ? ? ?| |n x ms' Em Ef Hb|o em Em Ho]; subst; try done.
    + exists t. split; [done|lia].
    + destruct Hb as [_ _ _ Hopen (f'&t'&->&_&Hcase)]. exists t'. split; [done|].
      destruct Hcase as [(?&_)|(prev&t0&_&_&Ht0&_&_&Hc)]; [done|]. rewrite Ht in Ht0. injection Ht0 as <-.
      pose proof (Hopen _ Ht). destruct Hc as [[Hlt ->]|[_ ->]]; [|lia].
      apply N.lt_le_incl, seconds_lt. rewrite seconds_plus. lia.
    + by eapply Hout.
  - destruct (sudo_fate _ _ _ _ _ _ _ _ _ _ Hwf H Ha) as [E|(_&em&Ho)].
    + rewrite Ha' in E. injection E as ->. exists t. split; [done|lia].
    + by eapply Hout.
Qed.

(** * Terms *)
Lemma terms_fixed st st' k a a' :
  ra_history p lb st -> ra_call p lb st st' ->
  s_auctions st !! k = Some a -> s_auctions st' !! k = Some a' ->
  a_coll a' = a_coll a /\ a_tok a' = a_tok a /\ a_seller a' = a_seller a /\ a_duration a' = a_duration a /\
  a_recipient a' = a_recipient a /\ (a_first a <> None -> a_first a' = a_first a /\ a_reserve a' = a_reserve a).
Proof.
  intros Hst Hc Ha Ha'. pose proof (history_wf _ _ _ Hst) as Hwf.
  destruct Hc as [v e s f m ms Hs H|v e m ms H].
  - pose proof (execute_fate _ _ _ _ _ _ _ _ _ _ _ _ Hwf H Ha) as Hfate. rewrite Ha' in Hfate.
    inversion Hfate as [|r ? ? ?| |n x ms' Em Ef Hb|o em Em Ho]; subst; try done.
    + destruct Hb as [_ _ _ Hopen (f'&t'&->&_&Hcase)]. cbn. split_and!; try done.
      intros Hn. split; [|done]. destruct Hcase as [(?&_)|(prev&t0&->&_)]; done.
    + by inversion Ho; subst.
  - destruct (sudo_fate _ _ _ _ _ _ _ _ _ _ Hwf H Ha) as [E|(_&em&Ho)].
    + rewrite Ha' in E. by injection E as ->.
    + rewrite Ha' in Ho. by inversion Ho; subst.
Qed.

(** * Cancelling and repricing *)
Lemma cancel_rule st v e sender funds coll tok st' msgs :
  ra_history p lb st -> execute v e sender funds st (CancelAuction coll tok) = Ok (st', msgs) ->
  exists a, s_auctions st !! (coll, tok) = Some a /\ sender = a_seller a /\ a_high a = None /\ funds = [] /\
    st' = State (s_config st) (s_mins st) (s_halt st) (delete (coll, tok) (s_auctions st)) /\
    msgs = [MNft coll tok (a_seller a)].
Proof.
  intros Hst H. pose proof (history_wf _ _ _ Hst) as Hwf. apply execute_effect in H; [|done].
  inversion H as [| |c t a Hf Ha Hs Hfirst| |]; subst. destruct (wf_auction _ _ Hwf _ _ Ha) as [Hk Hok].
  exists a. destruct (aok_phase _ _ Hok); [|congruence]. split_and!; try done. unfold remove_auction. by rewrite Hk.
Qed.
Lemma reprice_rule st v e sender funds coll tok reserve st' msgs :
  ra_history p lb st -> execute v e sender funds st (UpdateReservePrice coll tok reserve) = Ok (st', msgs) ->
  exists a, s_auctions st !! (coll, tok) = Some a /\ sender = a_seller a /\ a_high a = None /\ funds = [] /\ msgs = [] /\
    (exists m, s_mins st !! c_denom reserve = Some m /\ m <= c_amount reserve) /\
    st' = State (s_config st) (s_mins st) (s_halt st)
            (<[(coll, tok) := Auction coll tok (a_seller a) reserve (a_duration a) None (a_recipient a) None None]> (s_auctions st)).
Proof.
  intros Hst H. pose proof (history_wf _ _ _ Hst) as Hwf. apply execute_effect in H; [|done].
  inversion H as [|c t r a Hf Ha Hs Hfirst Hm| | |]; subst. destruct (wf_auction _ _ Hwf _ _ Ha) as [Hk Hok].
  exists a. destruct (aok_phase _ _ Hok) as [H1 H2 H3|]; [|congruence]. split_and!; try done. unfold save_auction, set_auctions.
  unfold a_key in *. cbn. injection Hk as -> ->. by rewrite H1, H2, H3.
Qed.
Lemma create_rule st v e sender funds coll tok reserve duration recipient st' msgs :
  ra_history p lb st -> execute v e sender funds st (CreateAuction coll tok reserve duration recipient) = Ok (st', msgs) ->
  s_auctions st !! (coll, tok) = None /\
  (exists m, s_mins st !! c_denom reserve = Some m /\ m <= c_amount reserve) /\
  cf_min_duration (s_config st) <= duration <= cf_max_duration (s_config st) /\
  (forall o, q_owner v coll tok = Some o -> o = sender) /\ q_approval v coll tok (p_self p) = true /\
  (forall ci t, q_info v coll = Some ci -> ci_start ci = Some t -> t <= e_time e) /\
  st' = State (s_config st) (s_mins st) (s_halt st)
          (<[(coll, tok) := Auction coll tok sender reserve duration None recipient None None]> (s_auctions st)) /\
  let fee := cf_create_fee (s_config st) in
  (c_amount fee = 0 /\ funds = [] /\ msgs = [MNft coll tok (p_self p)]) \/
  (0 < c_amount fee /\ c_amount fee <= amt funds (c_denom fee) /\ msgs = [MFairBurn fee; MNft coll tok (p_self p)]).
Proof.
  intros Hst H. pose proof (history_wf _ _ _ Hst) as Hwf. apply execute_effect in H; [|done].
  inversion H as [c t r d rc a ms Hv Hr Ho Hap Hn Ht Hm Hd Ea Hfee| | | |]; subst. split_and!; try done; try lia.
  - intros o Hq. unfold only_owner in Ho. rewrite Hq in Ho. apply ensure_Ok, bool_decide_eq_true in Ho. done.
  - intros ci t Hq Hci. unfold only_tradable in Ht. rewrite Hq, Hci in Ht. destruct (N.ltb_spec (e_time e) t); [done|lia].
  - destruct Hfee as [(?&?&->)|(?&Hh&->)]; [by left|right]. split_and!; [done| |done].
    clear -Hh. induction funds as [|c funds IH]; cbn in *; [done|]. case_bool_decide; [lia|]. apply IH in Hh. lia.
Qed.

(** * Settlement *)
Lemma settle_rule st v e sender funds coll tok st' msgs :
  ra_history p lb st -> execute v e sender funds st (SettleAuction coll tok) = Ok (st', msgs) ->
  exists a o, s_auctions st !! (coll, tok) = Some a /\ funds = [] /\
    outcome lb v (e_time e) (s_config st) (s_halt st) a o msgs /\
    s_auctions st' !! (coll, tok) = o /\ (forall k, k <> (coll, tok) -> s_auctions st' !! k = s_auctions st !! k).
Proof.
  intros Hst H. pose proof (history_wf _ _ _ Hst) as Hwf. apply execute_effect in H; [|done].
  inversion H as [| | | |c t a o em Hf Ha Ho]; subst. destruct (wf_auction _ _ Hwf _ _ Ha) as [Hk Hok].
  exists a, o. rewrite Hk. split_and!; try done.
  - rewrite put_key. by rewrite decide_True.
  - intros k Hne. rewrite put_key. by rewrite decide_False.
Qed.
Lemma settle_absent st v e sender funds coll tok : s_auctions st !! (coll, tok) = None ->
  forall r, execute v e sender funds st (SettleAuction coll tok) <> Ok r.
Proof.
  intros Hn r H. cbn in H. apply bind_Ok in H as (c&Hc&H). apply addr_validate_Ok in Hc as [-> _].
  unfold execute_settle_auction in H. apply bind_Ok in H as (?&_&H). 
  apply bind_Ok in H as (a&Ha%load_auction_Ok&_). assert (Some a = None) by (rewrite <-Hn; symmetry; exact Ha). done.
Qed.

(** A bid-on auction disappears only at or after its end, and not while its end lies inside a halt window. *)
Lemma removal_rule_execute st v e sender funds m st' msgs k a hb :
  ra_history p lb st -> execute v e sender funds st m = Ok (st', msgs) ->
  s_auctions st !! k = Some a -> a_high a = Some hb -> s_auctions st' !! k = None ->
  m = SettleAuction (a_coll a) (a_tok a) /\ exists t, a_end a = Some t /\ t <= e_time e /\ ~ halted (s_halt st) t.
Proof.
  intros Hst H Ha Hh Hn. pose proof (history_wf _ _ _ Hst) as Hwf.
  destruct (wf_auction _ _ Hwf _ _ Ha) as [_ Hok].
  assert (a_first a <> None) as Hf by (destruct (aok_phase _ _ Hok); congruence).
  pose proof (execute_fate _ _ _ _ _ _ _ _ _ _ _ _ Hwf H Ha) as Hfate. rewrite Hn in Hfate.
  inversion Hfate as [| | | |o em Em Ho]; subst; [done|]. split; [done|]. inversion Ho; subst. by eauto.
Qed.
Lemma removal_rule_sudo st v e m st' msgs k a :
  ra_history p lb st -> sudo v e st m = Ok (st', msgs) ->
  s_auctions st !! k = Some a -> s_auctions st' !! k = None ->
  m = EndBlock /\ exists t, a_end a = Some t /\ t <= e_time e /\ ~ halted (s_halt st) t.
Proof.
  intros Hst H Ha Hn. pose proof (history_wf _ _ _ Hst) as Hwf.
  destruct (sudo_fate _ _ _ _ _ _ _ _ _ _ Hwf H Ha) as [E|(->&em&Ho)]; [congruence|]. split; [done|].
  rewrite Hn in Ho. inversion Ho; subst. by eauto.
Qed.

(** * EndBlock *)
Lemma due_index now a : t_seconds now + 1 <= U64_MAX -> due now a <-> end_second a < t_seconds now + 1.
Proof.
  intros Hm. unfold due, end_second. destruct (a_end a) as [t|].
  - split; [intros (t'&E&H); injection E as <-; lia|]. intros H. exists t. split; [done|lia].
  - split; [by intros (t'&E&_)|]. intros H. lia.
Qed.
Lemma due_first st now limit : wf p st -> t_seconds now + 1 <= U64_MAX ->
  first_due st now limit (due_auctions st (t_seconds now + 1) limit).
Proof.
  intros Hwf Hm. split.
  - intros a Ha. apply (due_elem p) in Ha as [Ha Hb]; [|done]. split; [exact Ha|]. apply due_index; [done|]. exact Hb.
  - by apply (due_sorted p).
  - by apply (due_length).
  - intros a Ha Hd. apply (due_complete p); [done|exact Ha|]. by apply due_index.
Qed.
Lemma end_block_rule st v e st' msgs :
  ra_history p lb st -> sudo v e st EndBlock = Ok (st', msgs) ->
  exists l os, first_due st (e_time e) (cf_max_settle (s_config st)) l /\
    Forall2 (fun a o => outcome lb v (e_time e) (s_config st) (s_halt st) a (fst o) (snd o)) l os /\
    processed st st' l os /\ msgs = concat (snd <$> os).
Proof.
  intros Hst H. pose proof (history_wf _ _ _ Hst) as Hwf.
  assert (t_seconds (e_time e) + 1 <= U64_MAX) as Hm.
  { cbn in H. unfold sudo_end_block in H. apply bind_Ok in H as (b&Hb&_). unfold add64 in Hb.
    destruct (N.leb_spec (t_seconds (e_time e) + 1) U64_MAX); [lia|done]. }
  apply end_block_inv in H as (os&ear&HF&->&_&->); [|done].
  set (l := due_auctions st (t_seconds (e_time e) + 1) (cf_max_settle (s_config st))) in *.
  exists l, os. split_and!; [by apply due_first|done| |done].
  destruct (process_config st l os) as (H1&H2&_). split.
  - by destruct (find_stale_halt_info _ _).
  - by destruct (find_stale_halt_info _ _).
  - intros i a o Ha Ho. assert (NoDup (a_key <$> l)) as Hn by (by apply (due_nodup p)).
    pose proof (process_at st l os i a o Hn Ha Ho) as Hat. by destruct (find_stale_halt_info _ _).
  - intros k Hk. assert (k ∉ (a_key <$> l)) as Hout.
    { intros (a&->&Ha)%elem_of_list_fmap. by apply (Hk a Ha). }
    pose proof (process_other st l os k Hout). by destruct (find_stale_halt_info _ _).
Qed.

(** * Halt windows *)
Lemma begin_block_rule st v e st' msgs :
  sudo v e st BeginBlock = Ok (st', msgs) ->
  msgs = [] /\ s_auctions st' = s_auctions st /\ hm_prev (s_halt st') = t_seconds (e_time e) /\
  hm_prev (s_halt st) <= t_seconds (e_time e) /\
  hm_windows (s_halt st') = hm_windows (s_halt st) ++
    (if decide (0 < hm_prev (s_halt st) /\ hm_prev (s_halt st) + cf_halt_threshold (s_config st) <= t_seconds (e_time e))
     then [HaltWindow (hm_prev (s_halt st)) (t_seconds (e_time e) + cf_halt_buffer (s_config st))] else []).
Proof.
  intros H. cbn in H. unfold sudo_begin_block in H. apply bind_Ok in H as (?&Hp%ensure_Ok&H). cbv zeta in H.
  apply bind_Ok in H as (ws&Hw&H). injection H as <- <-. cbn. split_and!; try done; [lia|].
  destruct ((0 <? hm_prev (s_halt st)) && (cf_halt_threshold (s_config st) <=? t_seconds (e_time e) - hm_prev (s_halt st))) eqn:E.
  - rewrite decide_True by lia. apply bind_Ok in Hw as (t&Ht&Hw). injection Hw as <-. unfold add64 in Ht.
    destruct (_ <=? _) in Ht; [|done]. by injection Ht as <-.
  - rewrite decide_False by lia. injection Hw as <-. by rewrite app_nil_r.
Qed.
Lemma windows_kept st v e m st' msgs :
  ra_history p lb st -> sudo v e st m = Ok (st', msgs) -> m <> EndBlock ->
  exists ws, hm_windows (s_halt st') = hm_windows (s_halt st) ++ ws.
Proof.
  intros Hst H Hm. destruct m as [| |u|cs|ds|]; try done.
  - apply begin_block_rule in H as (_&_&_&_&->). by eexists.
  - cbn in H. unfold sudo_update_params in H. apply bind_Ok in H as (fb&_&H). apply bind_Ok in H as ([]&Hc&H). injection H as <- <-.
    exists []. by rewrite app_nil_r.
  - cbn in H. unfold sudo_set_min_reserve_prices in H. apply bind_Ok in H as (mm&_&H). injection H as <- <-. exists []. by rewrite app_nil_r.
  - cbn in H. unfold sudo_unset_min_reserve_prices in H. apply bind_Ok in H as (mm&_&H). injection H as <- <-. exists []. by rewrite app_nil_r.
  - cbn in H. injection H as <- <-. exists []. by rewrite app_nil_r.
Qed.
Lemma window_removed st v e st' msgs :
  ra_history p lb st -> sudo v e st EndBlock = Ok (st', msgs) ->
  hm_prev (s_halt st') = hm_prev (s_halt st) /\
  (hm_windows (s_halt st') = hm_windows (s_halt st) \/
   exists w, hm_windows (s_halt st) = w :: hm_windows (s_halt st') /\
     (0 < cf_max_settle (s_config st) ->
      forall k a, s_auctions st !! k = Some a -> due (e_time e) a -> hw_end w < end_second a)).
Proof.
  intros Hst H. pose proof (history_wf _ _ _ Hst) as Hwf.
  assert (t_seconds (e_time e) + 1 <= U64_MAX) as Hm.
  { cbn in H. unfold sudo_end_block in H. apply bind_Ok in H as (b&Hb&_). unfold add64 in Hb.
    destruct (N.leb_spec (t_seconds (e_time e) + 1) U64_MAX); [lia|done]. }
  apply end_block_inv in H as (os&ear&HF&->&Hear&->); [|done].
  set (l := due_auctions st (t_seconds (e_time e) + 1) (cf_max_settle (s_config st))) in *.
  destruct (process_config st l os) as (H1&H2&H3).
  assert (first_due st (e_time e) (cf_max_settle (s_config st)) l) as Hfd by (by apply due_first).
  unfold find_stale_halt_info. destruct (hm_windows (s_halt st)) as [|w ws] eqn:Ew; [rewrite H3; split; [done|by left]|].
  destruct l as [|b l'] eqn:El.
  - subst ear. cbn. split; [done|]. right. exists w. split; [done|]. intros Hpos k a Ha Hd. exfalso.
    destruct (wf_auction _ _ Hwf _ _ Ha) as [Hk _]. destruct (fd_complete _ _ _ _ Hfd a) as [Hin|[Hlen _]].
    + rewrite <-Hk in Ha. exact Ha.
    + done.
    + by apply elem_of_nil in Hin.
    + cbn in Hlen. lia.
  - subst ear. assert (b ∈ b :: l') as Hb by (apply elem_of_list_here).
    destruct (fd_due _ _ _ _ Hfd b Hb) as [_ (t&Ht&_)]. rewrite Ht.
    destruct (hw_end w <? t_seconds t) eqn:Elt; [|rewrite H3; split; [done|by left]].
    cbn. split; [done|]. right. exists w. split; [done|]. intros Hpos k a Ha Hd.
    assert (hw_end w < end_second b) as Hwb by (unfold end_second; rewrite Ht; lia).
    assert (forall x, end_before (a_ekey b) (a_ekey x) -> end_second b <= end_second x) as Hle.
    { intros x [Hx|[Hx _]]; cbn in Hx; lia. }
    destruct (wf_auction _ _ Hwf _ _ Ha) as [Hk _]. destruct (fd_complete _ _ _ _ Hfd a) as [Hin|[_ Hbef]].
    + rewrite <-Hk in Ha. exact Ha.
    + done.
    + apply elem_of_cons in Hin as [->|Hin]; [done|]. pose proof (fd_sorted _ _ _ _ Hfd) as Hs.
      apply StronglySorted_inv in Hs as [_ Hs]. rewrite Forall_forall in Hs. specialize (Hle a (Hs a Hin)). lia.
    + specialize (Hle a (Hbef b Hb)). lia.
Qed.

(** * Conservation of coins *)
Lemma conservation_execute st v e sender funds m st' msgs d :
  ra_history p lb st -> execute v e sender funds st m = Ok (st', msgs) ->
  high_total st' d + out msgs d <= high_total st d + amt funds d /\
  ((forall c t r du rc, m <> CreateAuction c t r du rc) -> high_total st' d + out msgs d = high_total st d + amt funds d).
Proof.
  intros Hst%history_wf H%execute_effect; [|done]. rewrite !high_total_liab. by eapply effect_accounting.
Qed.
Lemma conservation_sudo st v e m st' msgs d :
  ra_history p lb st -> sudo v e st m = Ok (st', msgs) -> high_total st' d + out msgs d = high_total st d.
Proof. intros Hst%history_wf H. rewrite !high_total_liab. by eapply sudo_liab. Qed.
End Final.
