(** The executable chain against TxSpec. *)
From stdpp Require Import relations.
From Verif Require Import Base BaseFacts Common Chain ChainFacts LedgerSpec Ledger TxSpec.

Lemma coins_of_amt d cs : coins_of d cs = amt cs d.
Proof.
  unfold coins_of. induction cs as [|c cs IH]; cbn; [done|]. rewrite IH. unfold of_denom.
  destruct (decide _) as [E|E]; [rewrite bool_decide_eq_true_2 by done|rewrite bool_decide_eq_false_2 by done]; lia.
Qed.
Lemma leaving_out d ms : leaving d ms = out ms d.
Proof.
  unfold leaving. induction ms as [|m ms IH]; cbn; [done|]. rewrite IH. destruct m; cbn; rewrite ?coins_of_amt; try done.
  unfold of_denom. destruct (decide _) as [E|E]; [rewrite bool_decide_eq_true_2 by done|rewrite bool_decide_eq_false_2 by done]; lia.
Qed.

Section Facts.
Context {S M : Type} (p : params).
Context (handler : view -> env -> addr -> list coin -> S -> M -> result (S * list cmsg)).
Implicit Types w : world S.

Lemma may_move_spec w c t who : may_move w c t who <-> can_transfer w c t who = true.
Proof.
  unfold may_move, can_transfer. destruct (w_nft w c t) as [o|]; [|naive_solver].
  rewrite !orb_true_iff, bool_decide_eq_true. naive_solver.
Qed.
Lemma send_ok_spec to cs : send_ok p to cs = true <-> cs <> [] /\ Forall (fun c => 0 < c_amount c) cs /\ p_blocked p to = false.
Proof.
  unfold send_ok. rewrite !andb_true_iff, !negb_true_iff, bool_decide_eq_false, forallb_forall, Forall_forall.
  setoid_rewrite <-elem_of_list_In. setoid_rewrite N.ltb_lt. naive_solver.
Qed.

Lemma moved_to_cons c t m ms : moved_to c t (m :: ms) =
  match moved_to c t ms with
  | Some x => Some x
  | None => match m with MNft c' t' to => if decide (c' = c /\ t' = t) then Some to else None | _ => None end
  end.
Proof.
  unfold moved_to. cbn. destruct (omap _ ms) as [|y l] eqn:E.
  - destruct m; try done. by destruct (decide _).
  - assert (exists z, last (y :: l) = Some z) as [z Hz] by (apply last_is_Some; done). rewrite Hz.
    destruct m; try done. destruct (decide _); [|done]. cbn in *. done.
Qed.

(** The last condition keeps an NFT from being moved twice. *)
Lemma run_msgs_settled w ms w' : run_msgs p w ms = Ok w' ->
  w_st w' = w_st w /\
  (forall x d, w_bank w' x d + (if decide (x = p_self p) then leaving d ms else 0) = w_bank w x d + sent_to x d ms) /\
  (forall c t, w_nft w' c t = match moved_to c t ms with Some to => if p_honest p c then Some to else w_nft w c t | None => w_nft w c t end) /\
  (forall c t x, w_appr w' c t x = match moved_to c t ms with Some to => if p_honest p c then false else w_appr w c t x | None => w_appr w c t x end) /\
  w_oper w' = w_oper w /\ w_ora w' = w_ora w /\ w_height w' = w_height w /\ w_time w' = w_time w.
Proof.
  revert w. induction ms as [|m ms IH]; intros w H.
  { cbn in H. injection H as ->. split_and!; try done. intros x d. cbn. destruct (decide _); lia. }
  destruct m as [to cs|c t to|r c|c|h]; cbn [run_msgs] in H.
  - apply bind_Ok in H as ([]&Hok&H). apply ensure_Ok in Hok. apply andb_prop in Hok as [_ Hc].
    apply IH in H as (H1&H2&H3&H4&H5). split_and!; try apply H5.
    + exact H1.
    + intros x d. specialize (H2 x d). cbn [w_bank set_bank] in H2.
      change (leaving d (MSend to cs :: ms)) with (coins_of d cs + leaving d ms).
      change (sent_to x d (MSend to cs :: ms)) with ((if decide (to = x) then coins_of d cs else 0) + sent_to x d ms).
      pose proof (proj1 (covers_spec _ _ _) Hc d) as Hcd. rewrite <-coins_of_amt in Hcd.
      unfold bank_move, bank_add, bank_sub in H2. rewrite <-coins_of_amt in H2.
      repeat case_decide; repeat case_bool_decide; subst; try done; lia.
    + intros c t. rewrite H3, moved_to_cons. cbn. by destruct (moved_to c t ms).
    + intros c t x. rewrite H4, moved_to_cons. cbn. by destruct (moved_to c t ms).
  - apply bind_Ok in H as ([]&_&H). destruct (p_honest p c) eqn:Hh.
    + apply bind_Ok in H as ([]&_&H). apply IH in H as (H1&H2&H3&H4&H5). split_and!; try apply H5.
      * exact H1.
      * exact H2.
      * intros c' t'. rewrite H3, moved_to_cons. destruct (moved_to c' t' ms) eqn:E.
        -- destruct (p_honest p c') eqn:Hh'; [done|]. cbn. rewrite bool_decide_eq_false_2; [done|]. intros [-> _]. congruence.
        -- cbn. destruct (decide (c = c' /\ t = t')) as [[-> ->]|Hne]; [by rewrite bool_decide_eq_true_2, Hh|].
           rewrite bool_decide_eq_false_2; [done|]. intros [-> ->]. by apply Hne.
      * intros c' t' x. rewrite H4, moved_to_cons. destruct (moved_to c' t' ms) eqn:E.
        -- destruct (p_honest p c') eqn:Hh'; [done|]. cbn. rewrite bool_decide_eq_false_2; [done|]. intros [-> _]. congruence.
        -- cbn. destruct (decide (c = c' /\ t = t')) as [[-> ->]|Hne]; [by rewrite bool_decide_eq_true_2, Hh|].
           rewrite bool_decide_eq_false_2; [done|]. intros [-> ->]. by apply Hne.
    + apply IH in H as (H1&H2&H3&H4&H5). split_and!; try apply H5.
      * exact H1.
      * exact H2.
      * intros c' t'. rewrite H3, moved_to_cons. destruct (moved_to c' t' ms) eqn:E; [done|].
        destruct (decide (c = c' /\ t = t')) as [[-> ->]|Hne]; [by rewrite Hh|done].
      * intros c' t' x. rewrite H4, moved_to_cons. destruct (moved_to c' t' ms) eqn:E; [done|].
        destruct (decide (c = c' /\ t = t')) as [[-> ->]|Hne]; [by rewrite Hh|done].
  - apply IH in H as (H1&H2&H3&H4&H5). split_and!; try apply H5; [exact H1|exact H2| |].
    + intros c' t'. rewrite H3, moved_to_cons. by destruct (moved_to c' t' ms).
    + intros c' t' x. rewrite H4, moved_to_cons. by destruct (moved_to c' t' ms).
  - apply bind_Ok in H as ([]&Hok&H). apply ensure_Ok in Hok. apply andb_prop in Hok as [_ Hc].
    apply IH in H as (H1&H2&H3&H4&H5). split_and!; try apply H5; [exact H1| | |].
    + intros x d. specialize (H2 x d). cbn [w_bank set_bank] in H2.
      change (leaving d (MFairBurn c :: ms)) with (of_denom d c + leaving d ms).
      change (sent_to x d (MFairBurn c :: ms)) with (0 + sent_to x d ms).
      pose proof (proj1 (covers_spec _ _ _) Hc d) as Hcd.
      assert (amt [c] d = of_denom d c) as E by (rewrite <-coins_of_amt; unfold coins_of; cbn; lia).
      unfold bank_sub in H2. rewrite E in H2, Hcd.
      repeat case_decide; repeat case_bool_decide; subst; try done; lia.
    + intros c' t'. rewrite H3, moved_to_cons. by destruct (moved_to c' t' ms).
    + intros c' t' x. rewrite H4, moved_to_cons. by destruct (moved_to c' t' ms).
  - apply IH in H as (H1&H2&H3&H4&H5). split_and!; try apply H5; [exact H1|exact H2| |].
    + intros c' t'. rewrite H3, moved_to_cons. by destruct (moved_to c' t' ms).
    + intros c' t' x. rewrite H4, moved_to_cons. by destruct (moved_to c' t' ms).
Qed.

Lemma may_move_after w c t to c' t' who : (c, t) <> (c', t') -> may_move (nft_transfer w c t to) c' t' who <-> may_move w c' t' who.
Proof.
  intros Hne. unfold may_move. cbn. rewrite !bool_decide_eq_false_2 by (intros [-> ->]; done). done.
Qed.
Lemma goes_through_after w c t to ms : p_honest p c = true -> (c, t) ∉ honest_out p ms ->
  Forall (goes_through p (nft_transfer w c t to)) ms <-> Forall (goes_through p w) ms.
Proof.
  intros Hh Hn. rewrite !Forall_forall. split; intros H m Hm; specialize (H m Hm); destruct m as [| c' t' to' | | |]; try done.
  all: destruct H as [H1 H2]; split; [done|]; intros Hc; specialize (H2 Hc).
  all: assert ((c, t) <> (c', t')) as Hne by (intros [= -> ->]; apply Hn; unfold honest_out; apply elem_of_list_omap; exists (MNft c' t' to'); rewrite Hc; done).
  - by apply (may_move_after w c t to) in H2.
  - by apply may_move_after.
Qed.

Lemma run_msgs_ok w ms : NoDup (honest_out p ms) -> (forall d, leaving d ms <= w_bank w (p_self p) d) ->
  is_Some (match run_msgs p w ms with Ok w' => Some w' | Err _ => None end) <-> Forall (goes_through p w) ms.
Proof.
  revert w. induction ms as [|m ms IH]; intros w Hn Hb.
  { cbn. split; [constructor|eauto]. }
  rewrite Forall_cons. destruct m as [to cs|c t to|r c|c|h]; cbn [run_msgs].
  - assert (covers (w_bank w) (p_self p) cs = true) as Hc.
    { apply covers_spec. intros d. specialize (Hb d). change (leaving d (MSend to cs :: ms)) with (coins_of d cs + leaving d ms) in Hb.
      rewrite coins_of_amt in Hb. lia. }
    rewrite Hc, andb_true_r. destruct (send_ok p to cs) eqn:Hs.
    + pose proof (proj1 (send_ok_spec to cs) Hs) as Hs'. cbn [ensure mbind result_bind]. rewrite IH; [|done|].
      * split; [intros H; split; [done|exact H]|intros [_ H]; exact H].
      * intros d. specialize (Hb d). change (leaving d (MSend to cs :: ms)) with (coins_of d cs + leaving d ms) in Hb.
        rewrite coins_of_amt in Hb. cbn [w_bank set_bank]. unfold bank_move, bank_add, bank_sub.
        rewrite (bool_decide_eq_true_2 (p_self p = p_self p)) by done. case_bool_decide; lia.
    + cbn. split; [intros [? ?]; done|]. intros [Hg _]. apply send_ok_spec in Hg. congruence.
  - destruct (bool_decide (c = p_self p)) eqn:Hs.
    { cbn. apply bool_decide_eq_true in Hs. split; [intros [? ?]; done|intros [[? _] _]; done]. }
    cbn [negb ensure mbind result_bind]. apply bool_decide_eq_false in Hs. destruct (p_honest p c) eqn:Hh.
    + cbn [honest_out omap list_omap] in Hn. unfold honest_out in Hn. cbn in Hn. rewrite Hh in Hn. apply NoDup_cons in Hn as [Hn1 Hn].
      destruct (can_transfer w c t (p_self p)) eqn:Hct.
      * cbn [ensure mbind result_bind]. rewrite IH; [|done|exact Hb]. rewrite goes_through_after by done.
        split; [intros H; split; [|done]|intros [_ H]; done]. split; [done|]. intros _. by apply may_move_spec.
      * cbn. split; [intros [? ?]; done|]. intros [[_ Hg] _]. apply may_move_spec in Hg; [congruence|done].
    + rewrite IH; [|by unfold honest_out in Hn; cbn in Hn; rewrite Hh in Hn|exact Hb].
      split; [intros H; split; [|done]|intros [_ H]; done]. split; [done|]. congruence.
  - rewrite IH; [|done|exact Hb]. split; [done|by intros []].
  - assert (covers (w_bank w) (p_self p) [c] = true) as Hc.
    { apply covers_spec. intros d. specialize (Hb d). change (leaving d (MFairBurn c :: ms)) with (of_denom d c + leaving d ms) in Hb.
      rewrite <-coins_of_amt. unfold coins_of. cbn. lia. }
    rewrite Hc, andb_true_r. destruct (0 <? c_amount c) eqn:Hs.
    + apply N.ltb_lt in Hs. cbn [ensure mbind result_bind]. rewrite IH; [|done|].
      * split; [intros H; split; [done|exact H]|intros [_ H]; exact H].
      * intros d. specialize (Hb d). change (leaving d (MFairBurn c :: ms)) with (of_denom d c + leaving d ms) in Hb.
        assert (amt [c] d = of_denom d c) as E by (rewrite <-coins_of_amt; unfold coins_of; cbn; lia).
        cbn [w_bank set_bank]. unfold bank_sub. rewrite E.
        rewrite (bool_decide_eq_true_2 (p_self p = p_self p)) by done. lia.
    + cbn. apply N.ltb_ge in Hs. split; [intros [? ?]; done|]. intros [Hg _]. cbn in Hg. lia.
  - rewrite IH; [|done|exact Hb]. split; [done|by intros []].
Qed.

(** ** Transactions *)
Lemma run_tx_settled w sender funds m w' : run_tx p handler w sender funds m = Ok w' ->
  affords p w sender funds /\ exists st' msgs,
    handler (view_of p w) (env_of w) sender funds (w_st w) m = Ok (st', msgs) /\ settled_as p w sender funds st' msgs w'.
Proof.
  intros H. unfold run_tx in H. apply bind_Ok in H as ([]&Hok&H). apply ensure_Ok in Hok. apply andb_prop in Hok as [Hs Hc].
  apply negb_true_iff, bool_decide_eq_false in Hs. pose proof (proj1 (covers_spec _ _ _) Hc) as Hcov.
  apply bind_Ok in H as ([st' msgs]&He&H). split.
  { split; [done|]. intros d. rewrite coins_of_amt. apply Hcov. }
  exists st', msgs. split; [exact He|]. apply run_msgs_settled in H as (H1&H2&H3&H4&H5&H6&H7&H8). cbn [fst snd] in *.
  constructor; try done. intros x d. specialize (H2 x d). cbn [w_bank set_st pay_in set_bank] in H2. specialize (Hcov d).
  rewrite coins_of_amt. unfold bank_move, bank_add, bank_sub in H2.
  repeat case_decide; repeat case_bool_decide; subst; try done; lia.
Qed.
Lemma run_tx_ok w sender funds m :
  (forall st' msgs, affords p w sender funds -> handler (view_of p w) (env_of w) sender funds (w_st w) m = Ok (st', msgs) ->
     NoDup (honest_out p msgs) /\ forall d, leaving d msgs <= w_bank w (p_self p) d + coins_of d funds) ->
  (exists w', run_tx p handler w sender funds m = Ok w') <->
  affords p w sender funds /\ exists st' msgs,
    handler (view_of p w) (env_of w) sender funds (w_st w) m = Ok (st', msgs) /\ Forall (goes_through p w) msgs.
Proof.
  intros Hf.
  assert (forall st' msgs, affords p w sender funds -> handler (view_of p w) (env_of w) sender funds (w_st w) m = Ok (st', msgs) ->
    is_Some (match run_msgs p (set_st (pay_in p w sender funds) st') msgs with Ok w' => Some w' | Err _ => None end) <->
    Forall (goes_through p w) msgs) as Hrun.
  { intros st' msgs Hp He. destruct (Hf st' msgs Hp He) as [Hn Hl]. rewrite run_msgs_ok; [done|done|].
    intros d. cbn [w_bank set_st pay_in set_bank]. destruct Hp as [Hs Hc]. rewrite bank_move_self_in by done.
    rewrite <-coins_of_amt. apply Hl. }
  split.
  - intros [w' H]. pose proof H as H'. apply run_tx_settled in H' as (Hp&st'&msgs&He&_). split; [done|]. exists st', msgs. split; [done|].
    apply (Hrun st' msgs); [done..|]. unfold run_tx in H. apply bind_Ok in H as ([]&_&H). apply bind_Ok in H as (r&He'&H).
    change (view_of p (pay_in p w sender funds)) with (view_of p w) in He'. rewrite He in He'. injection He' as <-. cbn [fst snd] in H. rewrite H. eauto.
  - intros [Hp (st'&msgs&He&Hg)]. apply (Hrun st' msgs) in Hg; [|done..]. unfold run_tx. destruct Hp as [Hs Hc].
    rewrite bool_decide_eq_false_2 by done. rewrite (proj2 (covers_spec (w_bank w) sender funds)) by (intros d; rewrite <-coins_of_amt; apply Hc).
    cbn [negb andb ensure mbind result_bind]. change (view_of p (pay_in p w sender funds)) with (view_of p w). rewrite He.
    cbn [mbind result_bind fst snd]. destruct (run_msgs _ _ _) as [w'|]; [eauto|]. by destruct Hg.
Qed.
End Facts.
Lemma coins_of_nil d : coins_of d [] = 0.
Proof. done. Qed.
