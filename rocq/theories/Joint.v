(** A contract on a chain with other contracts sees an execution of its own chain: the others are part of its surroundings. *)
From stdpp Require Import relations.
From Verif Require Import Base BaseFacts Common Chain ChainFacts JointSpec.

Section Joint.
Context {I : Type} {St Msg SMsg : I -> Type} (P : I -> params).
Context (handler : forall i, view -> env -> addr -> list coin -> St i -> Msg i -> result (St i * list cmsg)).
Context (sudo : forall i, view -> env -> St i -> SMsg i -> result (St i * list cmsg)).
Context (Hself : forall i j, p_self (P i) = p_self (P j) -> i = j).
Implicit Types W : joint St.
Local Notation jexec := (j_exec P handler).
Local Notation jdispatch := (j_dispatch P handler).
Local Notation jadv := (j_adv P handler).
Local Notation jstep := (j_step P handler sudo).
Local Notation adv i := (adv (P i) (handler i)).

Lemma adv_trans S M p (h : view -> env -> addr -> list coin -> S -> M -> result (S * list cmsg)) w w1 w2 :
  Chain.adv p h w w1 -> Chain.adv p h w1 w2 -> Chain.adv p h w w2.
Proof.
  intros H H2. induction H as [w|w w1' w' He _ IH|s f m w w1' w' He _ IH]; [done| |].
  - eapply adv_env; [done|auto].
  - eapply adv_call; [done|auto].
Qed.
Lemma adv_one S M p (h : view -> env -> addr -> list coin -> S -> M -> result (S * list cmsg)) w w1 :
  env_step p w w1 -> Chain.adv p h w w1.
Proof. intros. eapply adv_env; [done|constructor]. Qed.
Lemma envs_adv S M p (h : view -> env -> addr -> list coin -> S -> M -> result (S * list cmsg)) w w1 :
  rtc (env_step p) w w1 -> Chain.adv p h w w1.
Proof. induction 1; [constructor|]. by eapply adv_env. Qed.
Lemma adv_steps S M SM p (h : view -> env -> addr -> list coin -> S -> M -> result (S * list cmsg))
    (su : view -> env -> S -> SM -> result (S * list cmsg)) w w1 :
  Chain.adv p h w w1 -> rtc (step p h su) w w1.
Proof.
  induction 1; [constructor| |]; (eapply rtc_l; [|done]); [by apply step_env|by eapply step_tx].
Qed.

Lemma seen_bank i W b : seen i (j_set_bank W b) = set_bank (seen i W) b.
Proof. done. Qed.
Lemma seen_transfer i W c t to : seen i (j_transfer W c t to) = nft_transfer (seen i W) c t to.
Proof. done. Qed.
Lemma envs_seen i W W' : rtc (j_env P) W W' -> rtc (env_step (P i)) (seen i W) (seen i W').
Proof. induction 1 as [|W W1 W' H _ IH]; [constructor|]. eapply rtc_l; [apply H|done]. Qed.

(** What one contract does to the bank leaves the coins of the others alone. *)
Lemma others_move j W from to cs : from <> p_self (P j) ->
  env_step (P j) (seen j W) (seen j (j_set_bank W (bank_move (j_bank W) from to cs))).
Proof.
  intros Hf. rewrite seen_bank. apply ES_bank. intros d. cbn [w_bank seen]. unfold bank_move, bank_add, bank_sub.
  rewrite (bool_decide_eq_false_2 (p_self (P j) = from)) by congruence. case_bool_decide; lia.
Qed.
Lemma others_burn i j W cs : j <> i ->
  env_step (P j) (seen j W) (seen j (j_set_bank W (bank_sub (j_bank W) (p_self (P i)) cs))).
Proof.
  intros Hf. rewrite seen_bank. apply ES_bank. intros d. cbn [w_bank seen]. unfold bank_sub.
  rewrite (bool_decide_eq_false_2 (p_self (P j) = _)); [lia|]. by intros ?%Hself.
Qed.
Lemma others_transfer i j W c t to : j <> i -> can_transfer (seen i W) c t (p_self (P i)) = true ->
  env_step (P j) (seen j W) (seen j (j_transfer W c t to)).
Proof.
  intros Hf Hc. rewrite seen_transfer. apply ES_transfer with (p_self (P i)); [|exact Hc]. by intros ?%Hself.
Qed.

Lemma joint_seen :
  (forall i s f m W W', jexec i s f m W W' ->
     texec (P i) (handler i) s f m (seen i W) (seen i W') /\ forall j, j <> i -> adv j (seen j W) (seen j W')) /\
  (forall i W ms W', jdispatch i W ms W' ->
     dispatch (P i) (handler i) (seen i W) ms (seen i W') /\ forall j, j <> i -> adv j (seen j W) (seen j W')) /\
  (forall W W', jadv W W' -> forall j, adv j (seen j W) (seen j W')).
Proof.
  apply j_mutind.
  - intros i s f m W st' msgs W1 W' Hs Hc paid Hh [H1 H2] _ [IHi IHj]. split.
    + eapply TCall; [apply Hs|exact Hc|exact Hh|]. rewrite H1 in IHi. exact IHi.
    + intros j Hj. eapply adv_trans; [|by apply IHj]. rewrite H2 by done. apply adv_one, others_move. apply Hs.
  - intros i W. split; [constructor|]. intros; constructor.
  - intros i W to cs ms W' Hok Hc _ [IHi IHj]. split.
    + eapply DSend; [done|exact Hc|exact IHi].
    + intros j Hj. eapply adv_trans; [|by apply IHj]. apply adv_one, others_move. by intros ?%Hself.
  - intros i W c t to ms W' Ho Hh Hc _ [IHi IHj]. split.
    + eapply DNft; [apply Ho|done|exact Hc|exact IHi].
    + intros j Hj. eapply adv_trans; [|by apply IHj]. by eapply adv_one, others_transfer.
  - intros i W c t to ms W1 W' Ho Hh _ IHa _ [IHi IHj]. split.
    + eapply DNftRogue; [apply Ho|done|apply IHa|exact IHi].
    + intros j Hj. eapply adv_trans; [apply IHa|by apply IHj].
  - intros i W r c ms W1 W' Hr He _ [IHi IHj]. split.
    + eapply DReg; [done|by apply envs_seen|exact IHi].
    + intros j Hj. eapply adv_trans; [|by apply IHj]. by apply envs_adv, envs_seen.
  - intros i W r c ms W1 W' Hr _ IHa _ [IHi IHj]. split.
    + eapply DRegRe; [done|apply IHa|exact IHi].
    + intros j Hj. eapply adv_trans; [apply IHa|by apply IHj].
  - intros i W c ms W' Hp Hc _ [IHi IHj]. split.
    + eapply DBurn; [done|exact Hc|exact IHi].
    + intros j Hj. eapply adv_trans; [|by apply IHj]. by apply adv_one, others_burn.
  - intros i W h ms W1 W' _ IHa _ [IHi IHj]. split.
    + eapply DHook; [apply IHa|exact IHi].
    + intros j Hj. eapply adv_trans; [apply IHa|by apply IHj].
  - intros W j. constructor.
  - intros W W1 W' He _ IH j. eapply adv_env; [apply He|apply IH].
  - intros i s f m W W1 W' _ [IHi IHj] _ IH j. assert (j = i \/ j <> i) as [->|Hj].
    { destruct (decide (p_self (P j) = p_self (P i))) as [->%Hself|Hn]; [by left|right]. by intros ->. }
    + eapply adv_call; [exact IHi|apply IH].
    + eapply adv_trans; [by apply IHj|apply IH].
Qed.

Lemma same_or (i j : I) : j = i \/ j <> i.
Proof. destruct (decide (p_self (P j) = p_self (P i))) as [->%Hself|Hn]; [by left|right]. by intros ->. Qed.

Lemma step_seen W W' i : jstep W W' -> rtc (step (P i) (handler i) (sudo i)) (seen i W) (seen i W').
Proof.
  intros [k s f m Wa Wb H|Wa Wb H|Wa h t Hh Ht|k m Wa st' msgs W1 Wb Hs [H1 H2] Hd].
  - apply (proj1 joint_seen) in H as [H3 H4]. destruct (same_or k i) as [->|Hi]; [by eapply rtc_once, step_tx|by apply adv_steps, H4].
  - by apply rtc_once, step_env.
  - by apply rtc_once, (step_block _ _ _ (seen i Wa)).
  - apply (proj1 (proj2 joint_seen)) in Hd as [H3 H4]. destruct (same_or k i) as [->|Hi].
    + eapply rtc_once, step_sudo; [exact Hs|]. by rewrite H1 in H3.
    + rewrite <- (H2 i Hi). by apply adv_steps, H4.
Qed.
Lemma steps_seen W W' i : rtc jstep W W' -> rtc (step (P i) (handler i) (sudo i)) (seen i W) (seen i W').
Proof. induction 1 as [|W W1 W' H _ IH]; [constructor|]. etrans; [by apply step_seen|done]. Qed.

(** ** What goes through on the contract's own chain goes through among the others *)
Context `{EqDecision I}.
Lemma put_eq i (st : St i) f : put i st f i = st.
Proof.
  unfold put. destruct (decide (i = i)) as [e|Hn]; [|done]. symmetry. apply Eqdep_dec.eq_rect_eq_dec. intros x y. apply decide. apply _.
Qed.
Lemma put_ne i (st : St i) f j : j <> i -> put i st f j = f j.
Proof. intros Hj. unfold put. destruct (decide (i = j)) as [e|Hn]; [by destruct Hj|done]. Qed.
Lemma merge_stores i W (w : world (St i)) st : stores i st (j_merge i W w) (j_merge i W (set_st w st)).
Proof.
  split.
  - unfold seen, set_st, j_merge. cbn. by rewrite put_eq.
  - intros j Hj. unfold seen, set_st, j_merge. cbn. by rewrite !put_ne.
Qed.
Lemma merge_seen i W b : stores i (j_st W i) (j_set_bank W b) (j_merge i W (set_bank (seen i W) b)).
Proof.
  split.
  - unfold seen, set_st, set_bank, j_merge, j_set_bank. cbn. by rewrite put_eq.
  - intros j Hj. unfold seen, set_bank, j_merge, j_set_bank. cbn. by rewrite !put_ne.
Qed.
Lemma stores_twice i W W1 W2 st st' : stores i st W W1 -> stores i st' W1 W2 -> stores i st' W W2.
Proof.
  intros [H1 H2] [H3 H4]. split; [by rewrite H3, H1|]. intros j Hj. by rewrite H4, H2.
Qed.
Lemma call_joint i s f m W st' msgs W' : outsider P s -> covers (j_bank W) s f = true ->
  handler i (view_of (P i) (pay_in (P i) (seen i W) s f)) (Env (j_height W) (j_time W)) s f (j_st W i) m = Ok (st', msgs) ->
  jdispatch i (j_merge i W (set_st (pay_in (P i) (seen i W) s f) st')) msgs W' -> jexec i s f m W W'.
Proof.
  intros Hs Hc Hh Hd. eapply JCall; [done|exact Hc|exact Hh| |exact Hd]. eapply stores_twice; [apply merge_seen|apply merge_stores].
Qed.
Lemma run_msgs_joint i W ms : (forall c t to, MNft c t to ∈ ms -> outsider P c) ->
  forall w w', run_msgs (P i) w ms = Ok w' -> jdispatch i (j_merge i W w) ms (j_merge i W w').
Proof.
  induction ms as [|m ms IH]; intros Hout w w' H; [injection H as <-; constructor|].
  assert (forall c t to, MNft c t to ∈ ms -> outsider P c) as Hout' by (intros c t to Hin; eapply Hout; right; exact Hin).
  specialize (IH Hout').
  destruct m as [to cs|c t to|r c|c|h]; cbn [run_msgs] in H.
  - apply bind_Ok in H as (u&Hu&H). apply ensure_Ok, andb_prop in Hu as [Hu1 Hu2].
    apply JSend; [done|exact Hu2|]. exact (IH _ _ H).
  - apply bind_Ok in H as (u&_&H). assert (outsider P c) as Hc by (eapply Hout; left). destruct (p_honest (P i) c) eqn:E.
    + apply bind_Ok in H as (u'&Hu&H). apply ensure_Ok in Hu. apply JNft; [done|done|exact Hu|]. exact (IH _ _ H).
    + eapply JNftRogue; [done|done|apply j_nothing|]. exact (IH _ _ H).
  - destruct (p_reg_reenters (P i)) eqn:E.
    + eapply JRegRe; [done|apply j_nothing|]. exact (IH _ _ H).
    + eapply JReg; [done|apply rtc_refl|]. exact (IH _ _ H).
  - apply bind_Ok in H as (u&Hu&H). apply ensure_Ok, andb_prop in Hu as [Hu1 Hu2].
    apply JBurn; [lia|exact Hu2|]. exact (IH _ _ H).
  - eapply JHook; [apply j_nothing|]. exact (IH _ _ H).
Qed.
Lemma run_msgs_ora S p ms : forall (w w' : world S), run_msgs p w ms = Ok w' ->
  w_ora w' = w_ora w /\ w_st w' = w_st w /\ w_height w' = w_height w /\ w_time w' = w_time w.
Proof.
  induction ms as [|m ms IH]; intros w w' H; [by injection H as <-|].
  destruct m as [to cs|c t to|r c|c|h]; cbn [run_msgs] in H.
  - apply bind_Ok in H as (u&_&H). exact (IH _ _ H).
  - apply bind_Ok in H as (u&_&H). destruct (p_honest p c); [apply bind_Ok in H as (u'&_&H)|]; exact (IH _ _ H).
  - exact (IH _ _ H).
  - apply bind_Ok in H as (u&_&H). exact (IH _ _ H).
  - exact (IH _ _ H).
Qed.
Lemma run_tx_joint W i s f m w : run_tx (P i) (handler i) (seen i W) s f m = Ok w -> outsider P s ->
  (forall st' msgs c t to, handler i (view_of (P i) (pay_in (P i) (seen i W) s f)) (Env (j_height W) (j_time W)) s f (j_st W i) m = Ok (st', msgs) ->
     MNft c t to ∈ msgs -> outsider P c) ->
  jexec i s f m W (j_merge i W w) /\ seen i (j_merge i W w) = w /\ forall j, j <> i -> j_st (j_merge i W w) j = j_st W j.
Proof.
  intros H Hs Hm. unfold run_tx in H. apply bind_Ok in H as (u&Hu&H). apply ensure_Ok, andb_prop in Hu as [_ Hu].
  apply bind_Ok in H as ([st' msgs]&Hh&H). cbn [fst snd] in H. pose proof H as Ho.
  split.
  - eapply call_joint; [done|exact Hu|exact Hh|]. apply run_msgs_joint; [|exact H]. intros c t to. by apply (Hm st').
  - apply run_msgs_ora in Ho as (Ho&_). cbn in Ho. split.
    + destruct w as [b n a o ora h t st]. unfold seen, j_merge. cbn in *. rewrite put_eq. by subst ora.
    + intros j Hj. unfold j_merge. cbn. by rewrite put_ne.
Qed.
Lemma run_sudo_joint W i m W' : j_run_sudo P sudo W i m = Ok W' ->
  (forall st' msgs c t to, sudo i (view_of (P i) (seen i W)) (Env (j_height W) (j_time W)) (j_st W i) m = Ok (st', msgs) ->
     MNft c t to ∈ msgs -> outsider P c) -> jstep W W'.
Proof.
  intros H Hm. unfold j_run_sudo in H. apply bind_Ok in H as ([st' msgs]&Hh&H). apply bind_Ok in H as (w&Hr&H). injection H as <-.
  cbn [fst snd] in Hr. eapply j_sudo; [exact Hh| |].
  - eapply stores_twice; [apply (merge_seen i W (j_bank W))|]. apply merge_stores.
  - apply run_msgs_joint; [|exact Hr]. intros c t to. by apply (Hm st').
Qed.
End Joint.
