(** Transactions and block hooks of the reserve auction on the executable chain (TxSpec). *)
From stdpp Require Import relations.
From Verif Require Import Base BaseFacts Common Chain ChainFacts LedgerSpec TxSpec TxFacts QuerySpec RAModel RASpec RAFacts
  RAIndex RAInv RAReach RAFinal RALive RAExactSpec RAExact.

Section RATx.
Context (p : params) (lb : lib).
Notation execute := (RAModel.execute p lb).

Lemma calls_nft v now sender funds st m st' msgs : calls p lb v now sender funds st m st' msgs -> NoDup (honest_out p msgs).
Proof.
  assert (forall c t to, NoDup (honest_out p [MNft c t to])) as H1.
  { intros c t to. unfold honest_out. cbn. destruct (p_honest p c); repeat constructor. apply not_elem_of_nil. }
  intros H. destruct H as [coll tok r du rc Ho Hf| | | coll tok a n a' ms Ha Hs Hf Hn Hb He|coll tok a o ms Hf Ha [Ho Hr]].
  - unfold fee_burnt. case_decide; exact (H1 coll tok (p_self p)).
  - constructor.
  - exact (H1 coll tok sender).
  - destruct Hb; constructor.
  - rewrite (outcome_honest_out p lb _ _ _ _ _ _ _ Ho). destruct o; [constructor|]. destruct (p_honest p (a_coll a)); repeat constructor. apply not_elem_of_nil.
Qed.

Lemma tx_goes w sender funds m : ra_reachable p lb w -> (forall c, c ∈ funds -> c_amount c <= U128_MAX) ->
  (exists w', run_tx p execute w sender funds m = Ok w') <->
  affords p w sender funds /\ exists st' msgs,
    calls p lb (view_of p w) (w_time w) sender funds (w_st w) m st' msgs /\ Forall (goes_through p w) msgs.
Proof.
  intros Hr Hf. pose proof (reachable_wf p lb _ Hr) as Hwf. pose proof (reachable_history p lb _ Hr) as Hst.
  rewrite run_tx_ok.
  - split; intros (Hp&st'&msgs&He&H); (split; [done|]); exists st', msgs; (split; [|done]); by apply (calls_exact p lb _ Hst (view_of p w) (env_of w)).
  - intros st' msgs Hp He. split.
    + apply calls_exact in He; [|done..]. by eapply calls_nft.
    + intros d. pose proof (execute_liab p lb _ _ _ _ _ _ _ _ d Hwf He) as Hl. destruct (reachable_solvent _ _ _ Hr) as [_ Hb]. specialize (Hb d).
      rewrite leaving_out, coins_of_amt. lia.
Qed.
Lemma tx_settled w sender funds m w' : ra_reachable p lb w -> (forall c, c ∈ funds -> c_amount c <= U128_MAX) ->
  run_tx p execute w sender funds m = Ok w' ->
  exists st' msgs, calls p lb (view_of p w) (w_time w) sender funds (w_st w) m st' msgs /\ settled_as p w sender funds st' msgs w'.
Proof.
  intros Hr Hf H. apply run_tx_settled in H as (_&st'&msgs&He&H). exists st', msgs. split; [|done].
  apply calls_exact in He; [done|by apply reachable_history|done].
Qed.

(** ** Block hooks *)
Lemma sudo_nft v e st m st' msgs : wf p st -> sudo p lb v e st m = Ok (st', msgs) -> NoDup (honest_out p msgs).
Proof.
  intros Hwf H. destruct m as [| |u|cs|ds|]; cbn in H.
  - unfold sudo_begin_block in H. apply bind_Ok in H as (?&_&H). cbv zeta in H. apply bind_Ok in H as (ws&_&H). injection H as <- <-. constructor.
  - apply end_block_inv in H as (os&ear&HF&->&_&->); [|done]. destruct (process_honest_out p lb _ _ _ _ _ _ HF) as [Hsub _].
    eapply sublist_nodup; [exact Hsub|]. by apply due_nodup with (p := p).
  - unfold sudo_update_params in H. apply bind_Ok in H as (fb&_&H). apply bind_Ok in H as ([]&Hc&H). injection H as <- <-. constructor.
  - unfold sudo_set_min_reserve_prices in H. apply bind_Ok in H as (mm&_&H). injection H as <- <-. constructor.
  - unfold sudo_unset_min_reserve_prices in H. apply bind_Ok in H as (mm&_&H). injection H as <- <-. constructor.
  - injection H as <- <-. constructor.
Qed.
Lemma sudo_tx_goes w m : ra_reachable p lb w -> t_seconds (w_time w) < U64_MAX ->
  (exists w', run_sudo p lb w m = Ok w') <->
  exists st' msgs, sudo_calls p lb (view_of p w) (w_time w) (w_st w) m st' msgs /\ Forall (goes_through p w) msgs.
Proof.
  intros Hr Hm. pose proof (reachable_wf p lb _ Hr) as Hwf. pose proof (reachable_history p lb _ Hr) as Hst.
  assert (t_seconds (e_time (env_of w)) + 1 <= U64_MAX) as Hmax by (cbn [env_of e_time]; lia).
  assert (forall st' msgs, sudo p lb (view_of p w) (env_of w) (w_st w) m = Ok (st', msgs) ->
    is_Some (match run_msgs p (set_st w st') msgs with Ok w' => Some w' | Err _ => None end) <-> Forall (goes_through p w) msgs) as Hrun.
  { intros st' msgs Hs. rewrite run_msgs_ok; [done|by eapply sudo_nft|]. intros d.
    pose proof (sudo_liab p lb _ _ _ _ _ _ d Hwf Hs) as Hl. destruct (reachable_solvent _ _ _ Hr) as [_ Hb]. specialize (Hb d).
    rewrite leaving_out. cbn [w_bank set_st]. lia. }
  unfold run_sudo. split.
  - intros [w' H]. apply bind_Ok in H as ([st' msgs]&Hs&H). exists st', msgs. split; [by apply sudo_exact in Hs|].
    apply (Hrun st' msgs Hs). cbn [fst snd] in H. rewrite H. eauto.
  - intros (st'&msgs&Hs&Hg). assert (sudo p lb (view_of p w) (env_of w) (w_st w) m = Ok (st', msgs)) as Hs' by by apply sudo_exact.
    apply (Hrun st' msgs Hs') in Hg. rewrite Hs'. cbn [mbind result_bind fst snd]. destruct (run_msgs _ _ _); [eauto|by destruct Hg].
Qed.
Lemma sudo_tx_settled w m w' : ra_reachable p lb w -> t_seconds (w_time w) < U64_MAX -> run_sudo p lb w m = Ok w' ->
  exists st' msgs, sudo_calls p lb (view_of p w) (w_time w) (w_st w) m st' msgs /\ settled_as p w (p_self p) [] st' msgs w'.
Proof.
  intros Hr Hm H. pose proof (reachable_history p lb _ Hr) as Hst.
  assert (t_seconds (e_time (env_of w)) + 1 <= U64_MAX) as Hmax by (cbn [env_of e_time]; lia).
  unfold run_sudo in H. apply bind_Ok in H as ([st' msgs]&Hs&H). exists st', msgs. split; [by apply sudo_exact in Hs|].
  cbn [fst snd] in H. apply run_msgs_settled in H as (H1&H2&H3&H4&H5&H6&H7&H8). constructor; try done.
  intros x d. specialize (H2 x d). cbn [w_bank set_st] in H2. rewrite coins_of_nil. destruct (decide (x = p_self p)); lia.
Qed.

(** ** Single calls *)
Lemma go_send (w : world state) to c : Forall (goes_through p w) [MSend to [c]] <-> 0 < c_amount c /\ p_blocked p to = false.
Proof. rewrite Forall_singleton. cbn. rewrite Forall_singleton. naive_solver. Qed.
Lemma go_nft (w : world state) c t to : Forall (goes_through p w) [MNft c t to] <-> c <> p_self p /\ (p_honest p c = true -> may_move w c t (p_self p)).
Proof. by rewrite Forall_singleton. Qed.
Lemma held_moves w k a : ra_reachable p lb w -> s_auctions (w_st w) !! k = Some a -> a_coll a <> p_self p ->
  a_coll a <> p_self p /\ (p_honest p (a_coll a) = true -> may_move w (a_coll a) (a_tok a) (p_self p)).
Proof.
  intros Hr Ha Hc. split; [done|]. intros Hh. destruct (auction_custody p lb w k a Hr Ha) as [_ H]. exists (p_self p). split; [by apply H|]. by left.
Qed.

Lemma bid_tx w sender funds coll tok a : ra_reachable p lb w -> (forall c, c ∈ funds -> c_amount c <= U128_MAX) ->
  s_auctions (w_st w) !! (coll, tok) = Some a ->
  (exists w', run_tx p execute w sender funds (PlaceBid coll tok) = Ok w') <->
  affords p w sender funds /\ a_seller a <> sender /\
  (forall hb, a_high a = Some hb -> p_blocked p (hb_bidder hb) = false) /\
  exists n, funds = [Coin (c_denom (a_reserve a)) n] /\ 0 < n /\
    exists a' ms, bid_result (w_time w) (s_config (w_st w)) sender n a a' ms /\ forall t, a_end a' = Some t -> t <= U64_MAX.
Proof.
  intros Hr Hf Ha. rewrite tx_goes by done. split.
  - intros (Hp&st'&msgs&Hc&Hg). split; [done|].
    inversion Hc as [| | |coll' tok' a0 n a' ms Ha0 Hs Hfu Hn Hb He|]; subst. assert (a0 = a) as -> by congruence.
    split; [done|]. split; [|naive_solver]. intros hb Hhb. destruct Hb as [|first hb' t H1 H2 H3 H4 H5]; [congruence|].
    assert (hb' = hb) as -> by congruence. by apply go_send in Hg as [_ ?].
  - intros (Hp&Hs&Hbl&n&->&Hn&a'&ms&Hb&He). split; [done|]. exists (put_auction (w_st w) (coll, tok) (Some a')), ms.
    split; [by eapply bids|]. destruct Hb as [|first hb t H1 H2 H3 H4 H5]; [constructor|]. apply go_send. split; [|by apply Hbl].
    destruct (wf_auction _ _ (reachable_wf p lb _ Hr) _ _ Ha) as [_ Hok]. by destruct (aok_bid _ _ Hok _ H2) as (_&?&_).
Qed.
Lemma cancel_tx w sender funds coll tok a : ra_reachable p lb w -> (forall c, c ∈ funds -> c_amount c <= U128_MAX) ->
  s_auctions (w_st w) !! (coll, tok) = Some a -> coll <> p_self p ->
  (exists w', run_tx p execute w sender funds (CancelAuction coll tok) = Ok w') <->
  sender <> p_self p /\ funds = [] /\ sender = a_seller a /\ a_high a = None.
Proof.
  intros Hr Hf Ha Hcs. destruct (auction_custody p lb w _ a Hr Ha) as [Hk _]. injection Hk as -> ->. rewrite tx_goes by done. split.
  - intros ([Hs _]&st'&msgs&Hc&_). inversion Hc; subst. simplify_eq. done.
  - intros (Hs&->&->&Hh). split; [split; [done|intros d; rewrite coins_of_nil; lia]|]. do 2 eexists. split; [by eapply cancels|].
    apply go_nft. by eapply held_moves.
Qed.
Lemma open_tx w sender funds coll tok reserve duration recipient : ra_reachable p lb w -> (forall c, c ∈ funds -> c_amount c <= U128_MAX) ->
  (exists w', run_tx p execute w sender funds (CreateAuction coll tok reserve duration recipient) = Ok w') <->
  affords p w sender funds /\ may_open p lb (view_of p w) (w_time w) sender (w_st w) coll tok reserve duration recipient /\
  pays_fee (cf_create_fee (s_config (w_st w))) funds /\
  coll <> p_self p /\ (p_honest p coll = true -> may_move w coll tok (p_self p)).
Proof.
  intros Hr Hf. rewrite tx_goes by done. split.
  - intros (Hp&st'&msgs&Hc&Hg). inversion Hc; subst. apply Forall_app in Hg as [_ Hg]. apply go_nft in Hg. done.
  - intros (Hp&Ho&Hfee&Hm). split; [done|]. do 2 eexists. split; [by eapply opens|]. apply Forall_app. split; [|by apply go_nft].
    unfold fee_burnt. case_decide; constructor; [cbn; lia|constructor].
Qed.
Lemma pay_part_goes (w : world state) to d n : Forall (goes_through p w) (pay_part to d n) <-> (0 < n -> p_blocked p to = false).
Proof.
  unfold pay_part. case_decide as E.
  - split; [lia|]. constructor.
  - rewrite go_send. cbn. split; [naive_solver|]. intros H. split; [lia|]. apply H. lia.
Qed.
Lemma can_finish_goes w k a : ra_reachable p lb w -> s_auctions (w_st w) !! k = Some a -> a_coll a <> p_self p ->
  can_finish p lb (view_of p w) (w_time w) (s_config (w_st w)) (s_halt (w_st w)) a <->
  exists o ms, handled p lb (view_of p w) (w_time w) (s_config (w_st w)) (s_halt (w_st w)) a o ms /\ Forall (goes_through p w) ms.
Proof.
  intros Hre Ha Hcs. split.
  - intros (t&Ht&Hle&[[Hh Hb]|(Hh&Hr&hb&sp&Hhb&Hs&Hra&Hb1&Hb2)]).
    + exists (Some (with_end a (w_time w + cf_halt_postpone (s_config (w_st w)) * NANOS))), []. split; [|constructor]. split; [|done]. by eapply postponed.
    + exists None, (settlement a hb sp). split; [split; [by eapply sold|done]|]. unfold settlement. rewrite !Forall_app. split_and!.
      * unfold burn_part. case_decide; constructor; [cbn; lia|constructor].
      * by apply pay_part_goes.
      * by apply pay_part_goes.
      * apply go_nft. by eapply held_moves.
  - intros (o&ms&[Ho Hr]&Hp). destruct Ho as [t Ht Hle Hh Hm|t hb sp Ht Hle Hh Hhb Hsp Hra]; exists t.
    + split; [done|]. split; [done|]. by left.
    + split; [done|]. split; [done|]. right. split; [done|]. split; [by apply Hr|]. exists hb, sp. split_and!; try done.
      * unfold settlement in Hp. rewrite !Forall_app in Hp. destruct Hp as (_&Hp&_&_). exact (proj1 (pay_part_goes _ _ _ _) Hp).
      * unfold settlement in Hp. rewrite !Forall_app in Hp. destruct Hp as (_&_&Hp&_). exact (proj1 (pay_part_goes _ _ _ _) Hp).
Qed.
Lemma settle_tx w sender funds coll tok a : ra_reachable p lb w -> (forall c, c ∈ funds -> c_amount c <= U128_MAX) ->
  s_auctions (w_st w) !! (coll, tok) = Some a -> coll <> p_self p ->
  (exists w', run_tx p execute w sender funds (SettleAuction coll tok) = Ok w') <->
  sender <> p_self p /\ funds = [] /\
  can_finish p lb (view_of p w) (w_time w) (s_config (w_st w)) (s_halt (w_st w)) a.
Proof.
  intros Hr Hf Ha Hcs. destruct (auction_custody p lb w _ a Hr Ha) as [Hk _].
  assert (a_coll a <> p_self p) as Hac by (injection Hk as -> ->; done).
  rewrite tx_goes, can_finish_goes by done. split.
  - intros ([Hs _]&st'&msgs&Hc&Hg). inversion Hc; subst. simplify_eq. split_and!; [done..|]. eauto.
  - intros (Hs&->&o&ms&Hh&Hg). split; [split; [done|intros d; rewrite coins_of_nil; lia]|]. exists (put_auction (w_st w) (coll, tok) o), ms.
    split; [by eapply settles|done].
Qed.
End RATx.
