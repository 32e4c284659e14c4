(** Proofs for C142 (RARaceSpec): the order of the bids in a block decides nothing. *)
From stdpp Require Import relations.
From Verif Require Import Base BaseFacts Common Chain ChainFacts LedgerSpec TxSpec TxFacts RAModel RASpec RAFacts
  RAInv RAReach RAFinal RALive RAMore RAExactSpec RAExact RATx RARaceSpec.

Section RARace.
Context (p : params) (lb : lib).
Notation execute := (RAModel.execute p lb).

Definition payback (a : auction) : list cmsg := match a_high a with Some hb => [MSend (hb_bidder hb) [hb_coin hb]] | None => [] end.
Lemma bid_led now cfg x n a a' ms : bid_result now cfg x n a a' ms -> enough cfg a n /\ a' = led_by now cfg a (x, n) /\ ms = payback a.
Proof.
  intros H. destruct H as [H1 H2 H3 H4|first hb t H1 H2 H3 H4 H5]; unfold enough, led_by, payback.
  - by rewrite H1, H2, H3.
  - by rewrite H1, H2, H3.
Qed.
Lemma led_bid now cfg x n a : phase a -> (forall t, a_end a = Some t -> t_seconds now < t_seconds t) -> enough cfg a n ->
  bid_result now cfg x n a (led_by now cfg a (x, n)) (payback a).
Proof.
  intros Hp Ho He. unfold enough, led_by, payback in *. destruct Hp as [H1 H2 H3|first t hb H1 H2 H3 _]; rewrite H1, H2, H3 in *; cbn [default].
  - by apply first_bid.
  - apply later_bid; auto.
Qed.

Lemma seconds_later now k : t_seconds (now + k * NANOS) = t_seconds now + k.
Proof. unfold t_seconds. by apply N.div_add. Qed.
Lemma led_twice now cfg a o o' : phase a -> (a_high a = None -> cf_extend cfg <= a_duration a) ->
  led_by now cfg (led_by now cfg a o) o' = led_by now cfg a o'.
Proof.
  intros Hp Hc. unfold led_by. cbn [a_end a_first a_coll a_tok a_seller a_reserve a_duration a_recipient default].
  f_equal. f_equal. destruct Hp as [H1 H2 H3|first t hb H1 H2 H3 _]; rewrite H2.
  - rewrite seconds_later, decide_False; [done|]. specialize (Hc H3). lia.
  - destruct (decide (t_seconds t < t_seconds now + cf_extend cfg)) as [E|E]; [|by rewrite decide_False].
    rewrite seconds_later, decide_False; [done|]. lia.
Qed.

Lemma one_bid w a x n : ra_reachable p lb w -> s_auctions (w_st w) !! (a_coll a, a_tok a) = Some a ->
  (forall t, a_end a = Some t -> t_seconds (w_time w) < t_seconds t) ->
  x <> p_self p -> x <> a_seller a -> 0 < n <= U128_MAX -> n <= w_bank w x (c_denom (a_reserve a)) ->
  (forall hb, a_high a = Some hb -> p_blocked p (hb_bidder hb) = false) ->
  w_time w + a_duration a * NANOS <= U64_MAX -> w_time w + cf_extend (s_config (w_st w)) * NANOS <= U64_MAX ->
  let r := run_tx p execute w x [Coin (c_denom (a_reserve a)) n] (PlaceBid (a_coll a) (a_tok a)) in
  (enough (s_config (w_st w)) a n -> exists w', r = Ok w' /\ ra_reachable p lb w' /\ won_by p w a (x, n) w' /\ w_time w' = w_time w) /\
  (~ enough (s_config (w_st w)) a n -> exists er, r = Err er).
Proof.
  intros Hr Ha Ho Hs Hse [Hn Hm] Hb Hl Ht1 Ht2. cbv zeta.
  destruct (wf_auction _ _ (reachable_wf p lb _ Hr) _ _ Ha) as [_ Hok]. pose proof (aok_phase _ _ Hok) as Hp.
  assert (forall c, c ∈ [Coin (c_denom (a_reserve a)) n] -> c_amount c <= U128_MAX) as Hf by (by intros c ->%elem_of_list_singleton).
  pose proof (bid_tx p lb w x _ _ _ a Hr Hf Ha) as Htx. split.
  - intros He. assert (exists w', run_tx p execute w x [Coin (c_denom (a_reserve a)) n] (PlaceBid (a_coll a) (a_tok a)) = Ok w') as [w' Hrun].
    { apply Htx. split.
      { split; [done|]. intros d. unfold coins_of. cbn [sum_over]. unfold of_denom. cbn. case_decide; [subst d; lia|lia]. }
      split; [done|]. split; [done|]. exists n. split; [done|]. split; [done|]. eexists _, _. split; [by apply led_bid|].
      intros t. unfold led_by. cbn [a_end]. intros [= <-]. destruct (a_end a) as [t0|] eqn:E; [|done]. case_decide; [done|]. by apply (aok_end _ _ Hok). }
    exists w'. split; [done|]. split.
    { destruct Hr as (w0&Hi&Hst). exists w0. split; [done|]. eapply rtc_r; [done|]. eapply step_tx. by apply run_tx_sound. }
    apply (tx_settled p lb) in Hrun as (st'&msgs&Hc&HS); [|done..]. split; [|by apply (sa_time _ _ _ _ _ _ _ HS)].
    inversion Hc as [| | |coll' tok' a0 n0 a' ms Ha0 Hs0 Hfu Hn0 Hbr He0|]; subst. injection Hfu as Hfu1 Hfu2. subst n0.
    pose proof (eq_trans (eq_sym Ha) Ha0) as [= <-]. apply bid_led in Hbr as (_&->&->). split.
    + by rewrite (sa_storage _ _ _ _ _ _ _ HS).
    + intros y d. pose proof (sa_bank _ _ _ _ _ _ _ HS y d) as HB. cbn [fst snd]. unfold led_with.
      assert (leaving d (payback a) = match a_high a with Some hb => of_denom d (hb_coin hb) | None => 0 end) as HL.
      { unfold payback, leaving. destruct (a_high a); [|done]. cbn [sum_over]. unfold coins_of. cbn [sum_over]. rewrite ?N.add_0_r. done. }
      assert (sent_to y d (payback a) = match a_high a with Some hb => if decide (hb_bidder hb = y) then of_denom d (hb_coin hb) else 0 | None => 0 end) as HT.
      { unfold payback, sent_to. destruct (a_high a); [|done]. cbn [sum_over]. unfold coins_of. cbn [sum_over]. rewrite ?N.add_0_r. done. }
      assert (coins_of d [Coin (c_denom (a_reserve a)) n] = of_denom d (Coin (c_denom (a_reserve a)) n)) as HC by (unfold coins_of; cbn [sum_over]; by rewrite N.add_0_r).
      rewrite HL, HT, HC in HB. exact HB.
    + intros c t. rewrite (sa_nft _ _ _ _ _ _ _ HS). unfold payback. by destruct (a_high a).
  - intros He. destruct (run_tx _ _ _ _ _ _) as [w'|er] eqn:E; [|eauto]. exfalso. apply He.
    destruct (proj1 Htx (ex_intro _ w' eq_refl)) as (_&_&_&n0&Hfu&_&a'&ms&Hbr&_). injection Hfu as <-. by apply bid_led in Hbr as [? _].
Qed.

Lemma beats_more cfg m n : config_ok cfg -> 0 < n -> beats cfg m n -> n < m.
Proof.
  intros ([Hi _]&_&_) Hn Hb. unfold beats in Hb. assert (0 < ceil_div (n * cf_increment cfg) DEC_ONE); [|lia].
  assert (0 < n * cf_increment cfg) as Hp by (apply N.mul_pos_pos; done). unfold ceil_div.
  clear -Hp. remember (n * cf_increment cfg) as q. clear Heqq. unfold DEC_ONE.
  apply N.div_str_pos. lia.
Qed.
Lemma enough_dec cfg a n : enough cfg a n \/ ~ enough cfg a n.
Proof. unfold enough, beats. destruct (a_high a); lia. Qed.
Lemma enough_more cfg a n m : enough cfg a n -> n <= m -> enough cfg a m.
Proof. unfold enough, beats. destruct (a_high a); lia. Qed.

Lemma won_again w a o w1 o' w2 : phase a -> (a_high a = None -> cf_extend (s_config (w_st w)) <= a_duration a) ->
  w_time w1 = w_time w -> won_by p w a o w1 -> won_by p w1 (led_by (w_time w) (s_config (w_st w)) a o) o' w2 -> won_by p w a o' w2.
Proof.
  intros Hp Hc Ht H1 H2. split.
  - rewrite (wb_storage _ _ _ _ _ H2), (wb_storage _ _ _ _ _ H1), Ht. cbn [s_config s_mins s_halt s_auctions].
    rewrite led_twice by done. f_equal. apply (insert_insert (s_auctions (w_st w))).
  - intros x d. pose proof (wb_bank _ _ _ _ _ H1 x d) as B1. pose proof (wb_bank _ _ _ _ _ H2 x d) as B2.
    unfold led_with in *. cbn [led_by a_high a_reserve hb_coin hb_bidder] in B2.
    assert ((if decide (fst o = x) then of_denom d (Coin (c_denom (a_reserve a)) (snd o)) else 0) =
            (if decide (x = fst o) then of_denom d (Coin (c_denom (a_reserve a)) (snd o)) else 0)) as E.
    { destruct (decide (x = fst o)) as [->|Hne]; [by rewrite decide_True|by rewrite decide_False]. }
    rewrite E in B2. lia.
  - intros c t. by rewrite (wb_nft _ _ _ _ _ H2), (wb_nft _ _ _ _ _ H1).
Qed.
Lemma won_first w a w1 o w2 : untouched w w1 -> w_time w1 = w_time w -> won_by p w1 a o w2 -> won_by p w a o w2.
Proof.
  intros [U1 U2 U3] Ht [H1 H2 H3]. split.
  - by rewrite H1, U1, Ht.
  - intros x d. rewrite <-(U2 x d). apply H2.
  - intros c t. by rewrite H3, U3.
Qed.

Definition standing (w : world state) (a : auction) (os : list offer) (w' : world state) : Prop :=
  ra_reachable p lb w' /\ w_time w' = w_time w /\
  (((forall o, o ∈ os -> ~ enough (s_config (w_st w)) a (snd o)) /\ untouched w w') \/
   exists o, winner (s_config (w_st w)) a os o /\ won_by p w a o w').

Lemma race_step w a os done o todo w1 : race p w a os -> ra_reachable p lb w -> os = done ++ o :: todo -> standing w a done w1 ->
  standing w a (done ++ [o]) (match run_tx p execute w1 (fst o) [Coin (c_denom (a_reserve a)) (snd o)] (PlaceBid (a_coll a) (a_tok a)) with Ok w' => w' | Err _ => w1 end).
Proof.
  intros HR Hr Hos (Hr1&Ht&Hst). destruct o as [x n]. cbn [fst snd].
  assert ((x, n) ∈ os) as Hin by (rewrite Hos, elem_of_app, elem_of_cons; auto).
  destruct (rc_fit _ _ _ _ HR _ _ Hin) as (Hxs&Hxse&Hxb&[Hn0 Hn1]&Hbal). destruct (rc_time _ _ _ _ HR) as [Ht1 Ht2].
  pose proof (rc_there _ _ _ _ HR) as Ha. pose proof (reachable_wf p lb _ Hr) as Hwf.
  destruct (wf_auction _ _ Hwf _ _ Ha) as [_ Hok]. pose proof (aok_phase _ _ Hok) as Hp.
  assert (config_ok (s_config (w_st w))) as Hcfg by (apply config_validate_iff, Hwf).
  assert (forall y m, (y, m) ∈ done -> (y, m) ∈ os /\ y <> x) as Hdone.
  { intros y m Hy. split; [rewrite Hos, elem_of_app; auto|]. intros ->. pose proof (rc_who _ _ _ _ HR) as Hnd.
    rewrite Hos, fmap_app, fmap_cons in Hnd. apply NoDup_app in Hnd as (_&Hd&_). apply (Hd x); [|left].
    apply elem_of_list_fmap. by exists (x, m). }
  destruct Hst as [[Hno Hun]|([y m]&(Hyin&Hye&Hymax)&Hwon)].
  - pose proof (un_storage _ _ Hun) as Es.
    destruct (one_bid w1 a x n) as [Hyes Hnot]; try done; rewrite ?Ht, ?Es; try done.
    { apply (rc_open _ _ _ _ HR). } { by rewrite (un_bank _ _ Hun). } { apply (rc_leader _ _ _ _ HR). }
    destruct (enough_dec (s_config (w_st w)) a n) as [He|He].
    + destruct Hyes as (w'&->&Hr'&Hw'&Ht'); [by rewrite Es|]. split; [done|]. split; [congruence|]. right. exists (x, n).
      split; [|by eapply won_first]. split; [rewrite elem_of_app, elem_of_list_singleton; auto|]. split; [done|].
      intros [z k] Hz. apply elem_of_app in Hz as [Hz|Hz%elem_of_list_singleton]; [|by injection Hz as -> ->].
      cbn [snd]. destruct (N.le_gt_cases k n) as [|Hgt]; [done|]. exfalso. apply (Hno _ Hz). eapply enough_more; [exact He|cbn [snd]; lia].
    + destruct Hnot as [er ->]; [by rewrite Es|]. split; [done|]. split; [done|]. left. split; [|done].
      intros o Ho. apply elem_of_app in Ho as [Ho| ->%elem_of_list_singleton]; [by apply Hno|done].
  - cbn [snd] in Hye, Hymax. set (a1 := led_by (w_time w) (s_config (w_st w)) a (y, m)) in *.
    pose proof (wb_storage _ _ _ _ _ Hwon) as Es. destruct (Hdone _ _ Hyin) as [Hyos Hyx].
    destruct (rc_fit _ _ _ _ HR _ _ Hyos) as (Hys&Hyse&Hyb&[Hm0 _]&_).
    assert (s_config (w_st w1) = s_config (w_st w)) as Ec by (by rewrite Es).
    assert (s_auctions (w_st w1) !! (a_coll a1, a_tok a1) = Some a1) as Ha1.
    { rewrite Es. cbn [s_auctions]. apply (lookup_insert (s_auctions (w_st w))). }
    destruct (one_bid w1 a1 x n) as [Hyes Hnot]; try done; rewrite ?Ht, ?Ec; try done.
    { intros t. unfold a1, led_by. cbn [a_end]. intros [= <-]. destruct Hcfg as (_&_&Hex). destruct Hp as [_ H2 H3|first t hb _ H2 H3 _]; rewrite H2.
      - rewrite seconds_later. pose proof (rc_clock _ _ _ _ HR H3). lia.
      - case_decide; [rewrite seconds_later; lia|by apply (rc_open _ _ _ _ HR)]. }
    { pose proof (wb_bank _ _ _ _ _ Hwon x (c_denom (a_reserve a))) as HB. cbn [fst snd] in HB.
      rewrite !(decide_False (P := x = p_self p)), (decide_False (P := x = y)) in HB by congruence.
      unfold a1. cbn [led_by a_reserve]. lia. }
    { unfold a1. cbn [led_by a_high]. intros hb [= <-]. done. }
    assert (enough (s_config (w_st w)) a1 n <-> beats (s_config (w_st w)) n m) as Hen by done.
    change (run_tx p execute w1 x [Coin (c_denom (a_reserve a1)) n] (PlaceBid (a_coll a1) (a_tok a1))) with
      (run_tx p execute w1 x [Coin (c_denom (a_reserve a)) n] (PlaceBid (a_coll a) (a_tok a))) in *.
    destruct (rc_apart _ _ _ _ HR x n y m) as [Hb|Hb]; [done|done|congruence| |].
    + destruct Hyes as (w'&->&Hr'&Hw'&Ht'); [by rewrite Ec|]. split; [done|]. split; [congruence|]. right. exists (x, n).
      pose proof (beats_more _ _ _ Hcfg Hm0 Hb) as Hlt.
      split; [|by eapply won_again; try done; apply (rc_clock _ _ _ _ HR)]. split; [rewrite elem_of_app, elem_of_list_singleton; auto|].
      split; [eapply enough_more; [exact Hye|cbn [snd]; lia]|].
      intros [z k] Hz. apply elem_of_app in Hz as [Hz|Hz%elem_of_list_singleton]; [|by injection Hz as -> ->].
      specialize (Hymax _ Hz). cbn [snd] in *. lia.
    + pose proof (beats_more _ _ _ Hcfg Hn0 Hb) as Hlt.
      destruct Hnot as [er ->].
      { rewrite Ec, Hen. intros Hb'. pose proof (beats_more _ _ _ Hcfg Hm0 Hb'). lia. }
      split; [done|]. split; [done|]. right. exists (y, m). split; [|done]. split; [rewrite elem_of_app; auto|]. split; [done|].
      intros [z k] Hz. apply elem_of_app in Hz as [Hz|Hz%elem_of_list_singleton]; [by apply Hymax|]. injection Hz as -> ->. cbn [snd]. lia.
Qed.

Lemma race_run w a os : race p w a os -> ra_reachable p lb w -> forall todo done w1, os = done ++ todo -> standing w a done w1 ->
  standing w a os (attempt_all p lb w1 (map (offer_call a) todo)).
Proof.
  intros HR Hr. induction todo as [|o todo IH]; intros done w1 Hos Hst.
  - rewrite app_nil_r in Hos. by subst done.
  - cbn [map attempt_all offer_call]. apply (IH (done ++ [o])); [by rewrite Hos, <-app_assoc|]. by eapply race_step.
Qed.
Theorem race_result w a os : ra_reachable p lb w -> race p w a os ->
  let w' := attempt_all p lb w (map (offer_call a) os) in
  ((forall o, o ∈ os -> ~ enough (s_config (w_st w)) a (snd o)) /\ untouched w w') \/
  exists o, winner (s_config (w_st w)) a os o /\ won_by p w a o w'.
Proof.
  intros Hr HR. cbv zeta. eapply (race_run w a os HR Hr os []); [done|]. split; [done|]. split; [done|]. left.
  split; [by intros o ?%elem_of_nil|]. done.
Qed.

Lemma winner_unique w a os o o' : ra_reachable p lb w -> race p w a os -> winner (s_config (w_st w)) a os o -> winner (s_config (w_st w)) a os o' -> o = o'.
Proof.
  intros Hr HR (H1&_&H2) (H1'&_&H2'). destruct o as [x n], o' as [y m]. pose proof (H2 _ H1') as L1. pose proof (H2' _ H1) as L2. cbn [snd] in *.
  assert (n = m) as -> by lia. destruct (decide (x = y)) as [->|Hne]; [done|]. exfalso.
  assert (config_ok (s_config (w_st w))) as Hcfg by (apply config_validate_iff, (reachable_wf p lb _ Hr)).
  destruct (rc_fit _ _ _ _ HR _ _ H1) as (_&_&_&[Hn _]&_).
  destruct (rc_apart _ _ _ _ HR x m y m) as [Hb|Hb]; try done; apply beats_more in Hb; try done; lia.
Qed.
Lemma race_perm w a os os' : race p w a os -> os ≡ₚ os' -> race p w a os'.
Proof.
  intros HR HP. destruct HR as [H1 H2 H3 H4 H5 H6 H7 H8]. split; try done.
  - by rewrite <-HP.
  - intros x n Hin. apply H4. by rewrite HP.
  - intros x n y m Hx Hy. apply H5; by rewrite HP.
Qed.
Theorem race_any_order w a os os' : ra_reachable p lb w -> race p w a os -> os ≡ₚ os' ->
  let w1 := attempt_all p lb w (map (offer_call a) os) in let w2 := attempt_all p lb w (map (offer_call a) os') in
  w_st w1 = w_st w2 /\ (forall x d, w_bank w1 x d = w_bank w2 x d) /\ (forall c t, w_nft w1 c t = w_nft w2 c t).
Proof.
  intros Hr HR HP. cbv zeta. pose proof (race_perm _ _ _ _ HR HP) as HR'.
  destruct (race_result w a os Hr HR) as [[Hno [U1 U2 U3]]|(o&Hw&[W1 W2 W3])];
    destruct (race_result w a os' Hr HR') as [[Hno' [U1' U2' U3']]|(o'&Hw'&[W1' W2' W3'])].
  - split_and!; intros; congruence.
  - exfalso. destruct Hw' as (Hin&He&_). apply (Hno o'); [by rewrite HP|done].
  - exfalso. destruct Hw as (Hin&He&_). apply (Hno' o); [by rewrite <-HP|done].
  - assert (o' = o) as ->.
    { apply (winner_unique w a os); try done. destruct Hw' as (H1&H2&H3). split; [by rewrite HP|]. split; [done|]. intros o2 Ho2. apply H3. by rewrite <-HP. }
    split; [congruence|]. split; [|intros; congruence]. intros x d. specialize (W2 x d). specialize (W2' x d). lia.
Qed.
End RARace.
