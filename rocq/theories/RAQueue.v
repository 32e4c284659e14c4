(** Nobody waits for ever in the queue of due auctions (RAQueueSpec). *)
From stdpp Require Import relations.
From Verif Require Import Base BaseFacts Common Chain ChainFacts LedgerSpec IndexRange QuerySpec TxSpec TxFacts RAModel RASpec RAFacts RAIndex
  RAInv RAReach RAFinal RALive RAExamples RAExactSpec RAExact RATx RAQueueSpec.

Section Queue.
Context (p : params) (lb : lib).

Lemma front_exists st a : ra_history p lb st -> exists l, in_front st a l.
Proof.
  intros Hh. assert (forall x, Decision (end_before x (a_ekey a))) as D.
  { intros x. destruct (ekey_leb (a_ekey a) x) eqn:E.
    - right. intros H%ekey_leb_before. congruence.
    - left. by apply ekey_leb_before. }
  assert (forall kb : akey * auction, Decision (end_before (a_ekey kb.2) (a_ekey a))) as D2 by (intros; apply D).
  exists (filter (fun kb : akey * auction => end_before (a_ekey kb.2) (a_ekey a)) (map_to_list (s_auctions st))).*2. split.
  - apply NoDup_fmap_2_strong.
    + intros [k b] [k' b'] H1%elem_of_list_filter H2%elem_of_list_filter E. cbn in E. subst.
      destruct H1 as [_ H1%elem_of_map_to_list], H2 as [_ H2%elem_of_map_to_list].
      destruct (history_auction _ _ _ _ _ Hh H1) as [-> _], (history_auction _ _ _ _ _ Hh H2) as [-> _]. done.
    + apply NoDup_filter, NoDup_map_to_list.
  - intros b. rewrite elem_of_list_fmap. split.
    + intros ([k b']&->&H). apply elem_of_list_filter in H as [H1 H2%elem_of_map_to_list]. cbn.
      destruct (history_auction _ _ _ _ _ Hh H2) as [-> _]. done.
    + intros [H1 H2]. exists (a_coll b, a_tok b, b). split; [done|]. apply elem_of_list_filter. split; [done|]. by apply elem_of_map_to_list.
Qed.

Lemma end_lt t : t <= U64_MAX -> t_seconds t < U64_MAX.
Proof. intros H. unfold t_seconds. unfold U64_MAX in *. apply N.div_lt_upper_bound; unfold NANOS; lia. Qed.
Lemma seconds_add now n : t_seconds now <= t_seconds (now + n).
Proof. unfold t_seconds. apply N.div_le_mono; [done|lia]. Qed.

(** One call or block: whatever is new ends later. *)
Lemma calls_new v now sender funds st m st' msgs s : ra_history p lb st -> calls p lb v now sender funds st m st' msgs ->
  s < t_seconds now -> s < U64_MAX -> forall k b, s_auctions st' !! k = Some b -> s_auctions st !! k = Some b \/ s < end_second b.
Proof.
  intros Hh Hc Hs Hu k b Hb.
  assert (forall k0 o, s_auctions (put_auction st k0 o) !! k = Some b -> s_auctions st !! k = Some b \/ o = Some b) as Hput.
  { intros k0 [x|]; cbn.
    - rewrite lookup_insert_Some. intros [[_ ->]|[_ ?]]; [by right|by left].
    - rewrite lookup_delete_Some. intros [_ ?]. by left. }
  inversion Hc; subst.
  - apply Hput in Hb as [?|[= <-]]; [by left|right]. done.
  - apply Hput in Hb as [?|[= <-]]; [by left|right]. unfold end_second. cbn.
    destruct (history_auction _ _ _ _ _ Hh H0) as [_ Hok]. destruct (aok_phase _ _ Hok) as [_ He _|]; [|congruence]. by rewrite He.
  - apply Hput in Hb as [?|[=]]. by left.
  - apply Hput in Hb as [?|[= <-]]; [by left|right].
    match goal with H : bid_result _ _ _ _ _ _ _ |- _ => inversion H; subst end; unfold end_second; cbn.
    + pose proof (seconds_add now (a_duration a * NANOS)). lia.
    + case_decide; [|lia]. pose proof (seconds_add now (cf_extend (s_config st) * NANOS)). lia.
  - apply Hput in Hb as [?|Hb]; [by left|right]. destruct H1 as [Ho _]. rewrite Hb in Ho. inversion Ho; subst. unfold end_second. cbn.
    pose proof (seconds_add now (cf_halt_postpone (s_config st) * NANOS)). lia.
Qed.
Lemma handled_new v now cfg h a o ms s b : handled p lb v now cfg h a o ms -> s < t_seconds now -> o = Some b -> s < end_second b.
Proof.
  intros [Ho _] Hs ->. inversion Ho; subst. unfold end_second. cbn. pose proof (seconds_add now (cf_halt_postpone cfg * NANOS)). lia.
Qed.
Lemma processed_case st st' l os (k : akey) : processed st st' l os -> length os = length l ->
  (exists i a o, l !! i = Some a /\ os !! i = Some o /\ k = (a_coll a, a_tok a) /\ s_auctions st' !! k = fst o) \/
  ((forall a, a ∈ l -> (a_coll a, a_tok a) <> k) /\ s_auctions st' !! k = s_auctions st !! k).
Proof.
  intros Hp Hl. destruct (decide (Exists (fun a => (a_coll a, a_tok a) = k) l)) as [H|H].
  - left. apply Exists_exists in H as (a&Ha&Hk). apply elem_of_list_lookup in Ha as [i Hi].
    destruct (lookup_lt_is_Some_2 os i) as [o Ho]; [rewrite Hl; by eapply lookup_lt_Some|].
    exists i, a, o. split_and!; try done. subst k. by eapply pr_done.
  - right. assert (forall a, a ∈ l -> (a_coll a, a_tok a) <> k) as H' by (intros a Ha E; apply H, Exists_exists; eauto).
    split; [done|]. by eapply pr_other.
Qed.
Lemma sudo_new v now st m st' msgs s : ra_history p lb st -> sudo_calls p lb v now st m st' msgs -> s < t_seconds now ->
  forall k b, s_auctions st' !! k = Some b -> s_auctions st !! k = Some b \/ s < end_second b.
Proof.
  intros Hh Hc Hs k b Hb. inversion Hc; subst; cbn in Hb; try by left.
  - assert (length os = length l) as Hl by (symmetry; by eapply Forall2_length).
    destruct (processed_case _ _ _ _ k H1 Hl) as [(i&a&o&Hi&Ho&->&Hk)|[_ Hk]]; [|left; rewrite Hk in Hb; exact Hb].
    right. pose proof (Forall2_lookup_lr _ _ _ _ _ _ H0 Hi Ho) as Hd. cbn in Hd. eapply handled_new; [exact Hd|done|congruence].
  - left. by inversion H; subst.
Qed.

(** A due auction is left alone until it is processed. *)
Lemma calls_due v now sender funds st m st' msgs (k : akey) a t : ra_history p lb st -> calls p lb v now sender funds st m st' msgs ->
  s_auctions st !! k = Some a -> a_end a = Some t -> t_seconds t <= t_seconds now ->
  s_auctions st' !! k = Some a \/ exists o ms, outcome lb v now (s_config st) (s_halt st) a o ms /\ s_auctions st' !! k = o.
Proof.
  intros Hh Hc Ha Ht Hd. destruct (history_auction _ _ _ _ _ Hh Ha) as [Hk Hok].
  assert (is_Some (a_high a)) as [hb Hhb] by (destruct (aok_phase _ _ Hok); [congruence|eauto]).
  clear Hk. inversion Hc as [coll tok rs du rc Hm Hf|coll tok rs a0 mn Hf Ha0 Hsl Hhi|coll tok a0 Hf Ha0 Hsl Hhi|coll tok a0 n a' ms Ha0 Hsl Hf Hn Hb|coll tok a0 o ms Hf Ha0 Hd0]; subst; cbn.
  - left. rewrite lookup_insert_ne; [done|]. intros <-. pose proof (mo_free _ _ _ _ _ _ _ _ _ _ _ Hm) as Hno. discriminate (eq_trans (eq_sym Ha) Hno).
  - left. rewrite lookup_insert_ne; [done|]. intros <-. pose proof (eq_trans (eq_sym Ha) Ha0) as [= <-]. congruence.
  - left. rewrite lookup_delete_ne; [done|]. intros <-. pose proof (eq_trans (eq_sym Ha) Ha0) as [= <-]. congruence.
  - left. rewrite lookup_insert_ne; [done|]. intros <-. pose proof (eq_trans (eq_sym Ha) Ha0) as [= <-].
    inversion Hb; subst; [congruence|]. simplify_eq. lia.
  - destruct (decide ((coll, tok) = k)) as [<-|E].
    + right. pose proof (eq_trans (eq_sym Ha) Ha0) as [= <-]. destruct Hd0 as [Ho _]. exists o, msgs. split; [done|].
      destruct o; [by rewrite lookup_insert|by rewrite lookup_delete].
    + left. destruct o; [rewrite lookup_insert_ne by done|rewrite lookup_delete_ne by done]; done.
Qed.
Lemma sudo_due v now st m st' msgs (k : akey) a : ra_history p lb st -> sudo_calls p lb v now st m st' msgs ->
  s_auctions st !! k = Some a ->
  s_auctions st' !! k = Some a \/ exists o ms, outcome lb v now (s_config st) (s_halt st) a o ms /\ s_auctions st' !! k = o.
Proof.
  intros Hh Hc Ha. inversion Hc; subst; cbn; try by left.
  - assert (length os = length l) as Hl by (symmetry; by eapply Forall2_length).
    destruct (processed_case _ _ _ _ k H1 Hl) as [(i&b&o&Hi&Ho&->&Hk)|[_ Hk]]; [|left; rewrite Hk; exact Ha].
    right. pose proof (Forall2_lookup_lr _ _ _ _ _ _ H0 Hi Ho) as Hd. cbn in Hd.
    destruct (fd_due _ _ _ _ H b) as [Hb _]; [by eapply elem_of_list_lookup_2|]. pose proof (eq_trans (eq_sym Hb) Ha) as [= ->].
    exists (fst o), (snd o). split; [apply Hd|done].
  - left. by inversion H; subst.
Qed.
(** Behind a due auction nothing new gets in front. *)
Lemma front_keeps st st' a l l' s : (forall k b, s_auctions st' !! k = Some b -> s_auctions st !! k = Some b \/ s < end_second b) ->
  end_second a <= s -> in_front st a l -> in_front st' a l' -> l' ⊆ l.
Proof.
  intros Hnew Hs [_ Hl] [_ Hl'] b Hb. apply Hl' in Hb as [Hb He]. apply Hl. split; [|done].
  destruct (Hnew _ _ Hb) as [?|Hlt]; [done|]. exfalso. destruct He as [He|[He _]]; cbn in He; lia.
Qed.
(** EndBlock reaches [a], or takes as many auctions from in front of it as it has room for. *)
Lemma end_takes v now st st' msgs a l l' : ra_history p lb st -> sudo_calls p lb v now st EndBlock st' msgs ->
  end_second a < t_seconds now -> (exists t, a_end a = Some t) ->
  s_auctions st !! (a_coll a, a_tok a) = Some a -> s_auctions st' !! (a_coll a, a_tok a) = Some a ->
  in_front st a l -> in_front st' a l' -> (length l' + N.to_nat (cf_max_settle (s_config st)) <= length l)%nat.
Proof.
  intros Hh Hc Hs [t Ht] Ha Ha' Hl Hl'. pose proof (sudo_new _ _ _ _ _ _ _ Hh Hc Hs) as Hnew.
  pose proof (front_keeps _ _ _ _ _ _ Hnew (N.le_refl _) Hl Hl') as Hsub.
  inversion Hc as [| |l0 os ? Hfd HF Hp Hprev Hw|]; subst; [|by inversion H].
  assert (length os = length l0) as Hlen by (symmetry; by eapply Forall2_length).
  assert (forall b, b ∈ l0 -> s_auctions st' !! (a_coll b, a_tok b) = Some b -> end_second a < end_second b) as Hlate.
  { intros b Hb Hb'. apply elem_of_list_lookup in Hb as [i Hi].
    destruct (lookup_lt_is_Some_2 os i) as [o Ho]; [rewrite Hlen; by eapply lookup_lt_Some|].
    pose proof (Forall2_lookup_lr _ _ _ _ _ _ HF Hi Ho) as Hd. cbn in Hd. pose proof (pr_done _ _ _ _ Hp _ _ _ Hi Ho) as Hd'.
    eapply handled_new; [exact Hd|done|congruence]. }
  destruct (fd_complete _ _ _ _ Hfd a Ha) as [Hin|[Hfull Hbefore]].
  { exists t. split; [done|]. unfold end_second in Hs. rewrite Ht in Hs. lia. }
  { pose proof (Hlate _ Hin Ha'). lia. }
  rewrite <-Hfull. destruct Hl as [Hnd Hl], Hl' as [Hnd' Hl'].
  rewrite Nat.add_comm, <-app_length. apply submseteq_length, NoDup_submseteq.
  - apply NoDup_app. split_and!; [|intros b Hb [Hb' He]%Hl'|done].
    + eapply sorted_nodup; [|exact (fd_sorted _ _ _ _ Hfd)]. intros b. apply end_before_irrefl.
    + pose proof (Hlate _ Hb Hb'). destruct He as [He|[He _]]; cbn in He; lia.
  - intros b [Hb|Hb]%elem_of_app; [|by apply Hsub]. apply Hl. split; [by apply (fd_due _ _ _ _ Hfd)|by apply Hbefore].
Qed.

(** ** Any number of calls and blocks *)
Lemma history_user st v e sender funds m st1 msgs : ra_history p lb st -> sender <> p_self p ->
  execute p lb v e sender funds st m = Ok (st1, msgs) -> ra_call p lb st st1 /\ ra_history p lb st1.
Proof.
  intros (c&mins&st0&Hi&Hr) Hs H. assert (ra_call p lb st st1) as Hc by (by eapply call_execute). split; [done|].
  exists c, mins, st0. split; [done|]. by eapply rtc_r.
Qed.
Lemma history_sudo st v e m st1 msgs : ra_history p lb st -> sudo p lb v e st m = Ok (st1, msgs) -> ra_call p lb st st1 /\ ra_history p lb st1.
Proof.
  intros (c&mins&st0&Hi&Hr) H. assert (ra_call p lb st st1) as Hc by (by eapply call_sudo). split; [done|].
  exists c, mins, st0. split; [done|]. by eapply rtc_r.
Qed.
Definition ended (a : auction) (s : N) : Prop := exists t, a_end a = Some t /\ t_seconds t = s.
Lemma ended_second a s : ended a s -> end_second a = s.
Proof. intros (t&Ht&<-). unfold end_second. by rewrite Ht. Qed.

(** What one call or block with room for [k] auctions does to the queue. *)
Record good_step (s : N) (st : state) (k : nat) (st1 : state) : Prop := {
  gs_call : ra_call p lb st st1;
  gs_history : ra_history p lb st1;
  gs_new : forall key b, s_auctions st1 !! key = Some b -> s_auctions st !! key = Some b \/ s < end_second b;
  gs_due : forall a, ended a s -> s_auctions st !! (a_coll a, a_tok a) = Some a ->
    (s_auctions st1 !! (a_coll a, a_tok a) = Some a /\ forall l l', in_front st a l -> in_front st1 a l' -> (length l' + k <= length l)%nat) \/
    exists v now o ms, s < t_seconds now /\ outcome lb v now (s_config st) (s_halt st) a o ms /\ s_auctions st1 !! (a_coll a, a_tok a) = o;
}.
Lemma keeps_length s st st1 a l l' : (forall key b, s_auctions st1 !! key = Some b -> s_auctions st !! key = Some b \/ s < end_second b) ->
  end_second a = s -> in_front st a l -> in_front st1 a l' -> (length l' + 0 <= length l)%nat.
Proof.
  intros Hnew Hes Hl Hl'. rewrite Nat.add_0_r. apply submseteq_length, NoDup_submseteq; [apply Hl'|].
  eapply front_keeps; [exact Hnew| |done..]. lia.
Qed.
Inductive walks (s : N) : state -> nat -> state -> Prop :=
  | walks_none st : walks s st 0 st
  | walks_step st k st1 n st' : good_step s st k st1 -> walks s st1 n st' -> walks s st (k + n) st'.
Lemma passes_walks s st n st' : s < U64_MAX -> passes p lb s st n st' -> ra_history p lb st -> walks s st n st'.
Proof.
  intros Hu. induction 1 as [st|st v e sender funds m st1 msgs n st' Hsd Hs He Hn IH|st v e st1 msgs n st' Hs He Hn IH|st v e m st1 msgs n st' Hm Hs He Hn IH];
    intros Hh; [constructor|..].
  - destruct (history_user _ _ _ _ _ _ _ _ Hh Hsd He) as [Hca Hh1]. apply calls_sound in He; [|done].
    pose proof (calls_new _ _ _ _ _ _ _ _ s Hh He Hs Hu) as Hnew. apply (walks_step s st 0 st1); [|by apply IH]. split; try done.
    intros a Hea Ha. pose proof (ended_second _ _ Hea) as Hes. destruct Hea as (t&Ht&Hts).
    destruct (calls_due _ _ _ _ _ _ _ _ _ _ t Hh He Ha Ht) as [Ha1|(o&ms&Ho&Hk)]; [lia| |right; eauto 8].
    left. split; [done|]. intros l l'. by eapply keeps_length.
  - destruct (history_sudo _ _ _ _ _ _ Hh He) as [Hca Hh1]. apply sudo_sound in He; [|done].
    pose proof (sudo_new _ _ _ _ _ _ s Hh He Hs) as Hnew. apply (walks_step s st _ st1); [|by apply IH]. split; try done.
    intros a Hea Ha. pose proof (ended_second _ _ Hea) as Hes.
    destruct (sudo_due _ _ _ _ _ _ _ _ Hh He Ha) as [Ha1|(o&ms&Ho&Hk)]; [|right; eauto 8].
    left. split; [done|]. intros l l' Hl Hl'. eapply end_takes; try done; [lia|]. destruct Hea as (t&Ht&_). eauto.
  - destruct (history_sudo _ _ _ _ _ _ Hh He) as [Hca Hh1]. apply sudo_sound in He; [|done].
    pose proof (sudo_new _ _ _ _ _ _ s Hh He Hs) as Hnew. apply (walks_step s st 0 st1); [|by apply IH]. split; try done.
    intros a Hea Ha. pose proof (ended_second _ _ Hea) as Hes.
    destruct (sudo_due _ _ _ _ _ _ _ _ Hh He Ha) as [Ha1|(o&ms&Ho&Hk)]; [|right; eauto 8].
    left. split; [done|]. intros l l'. by eapply keeps_length.
Qed.
Lemma walks_calls s st n st' : walks s st n st' -> rtc (ra_call p lb) st st'.
Proof. induction 1; [done|]. eapply rtc_l; [|done]. by eapply gs_call. Qed.
(** An auction that is gone does not come back the same. *)
Lemma stays_gone s st n st' a : walks s st n st' -> ended a s ->
  s_auctions st !! (a_coll a, a_tok a) <> Some a -> s_auctions st' !! (a_coll a, a_tok a) <> Some a.
Proof.
  intros H Hea. pose proof (ended_second _ _ Hea) as Hes. induction H as [st|st k st1 n st' Hg Hn IH]; intros Hno; [done|].
  apply IH. intros Hk. destruct (gs_new _ _ _ _ Hg _ _ Hk); [done|lia].
Qed.
Lemma outcome_leaves v now cfg h a o ms s : outcome lb v now cfg h a o ms -> ended a s -> s < t_seconds now -> o <> Some a.
Proof.
  intros Ho Hea Hs E. pose proof (ended_second _ _ Hea) as Hes. assert (s < end_second a); [|lia]. subst o.
  inversion Ho as [t Ht Hle Hhalt Hmax Heq|]; subst. rewrite <-Heq at 2. unfold end_second at 2. cbn.
  pose proof (seconds_add now (cf_halt_postpone cfg * NANOS)). lia.
Qed.
Lemma no_starvation st n st' a t l : ra_history p lb st -> s_auctions st !! (a_coll a, a_tok a) = Some a -> a_end a = Some t ->
  passes p lb (t_seconds t) st n st' -> in_front st a l -> (length l < n)%nat ->
  (exists st1 st2 v now o ms, rtc (ra_call p lb) st st1 /\ s_auctions st1 !! (a_coll a, a_tok a) = Some a /\ t_seconds t < t_seconds now /\
     outcome lb v now (s_config st1) (s_halt st1) a o ms /\ s_auctions st2 !! (a_coll a, a_tok a) = o /\ rtc (ra_call p lb) st2 st') /\
  s_auctions st' !! (a_coll a, a_tok a) <> Some a.
Proof.
  intros Hh Ha Ht H. remember (t_seconds t) as s eqn:Es.
  assert (ended a s) as Hea by (exists t; done).
  assert (s < U64_MAX) as Hu by (subst s; apply end_lt; destruct (history_auction _ _ _ _ _ Hh Ha) as [_ Hok]; by eapply aok_end).
  apply passes_walks in H; [|done..]. revert l Ha. clear Hh. induction H as [st|st k st1 n st' Hg Hn IH]; intros l Ha Hl Hlt; [lia|].
  destruct (gs_due _ _ _ _ Hg a Hea Ha) as [[Ha1 Hfr]|(v&now&o&ms&Hs&Ho&Hk)].
  - destruct (front_exists st1 a (gs_history _ _ _ _ Hg)) as [l1 Hl1]. specialize (Hfr _ _ Hl Hl1).
    destruct (IH l1 Ha1 Hl1 ltac:(lia)) as [(sta&stb&v&now&o&ms&H1&H2)  Hgone]. split; [|done]. exists sta, stb, v, now, o, ms. split; [|done].
    eapply rtc_l; [by eapply gs_call|done].
  - split.
    + exists st, st1, v, now, o, ms. split_and!; try done. by eapply walks_calls.
    + eapply stays_gone; [done..|]. rewrite Hk. by eapply outcome_leaves.
Qed.

(** ** On the chain: EndBlocks in a row *)
Lemma end_block_goes w : ra_reachable p lb w -> t_seconds (w_time w) < U64_MAX ->
  (forall k a, s_auctions (w_st w) !! k = Some a -> due (w_time w) a -> a_coll a <> p_self p) ->
  (exists w', run_sudo p lb w EndBlock = Ok w') <->
  exists l, first_due (w_st w) (w_time w) (cf_max_settle (s_config (w_st w))) l /\
    forall a, a ∈ l -> can_finish p lb (view_of p w) (w_time w) (s_config (w_st w)) (s_halt (w_st w)) a.
Proof.
  intros Hr Ht Hself. pose proof (reachable_history _ _ _ Hr) as Hh. rewrite sudo_tx_goes by done. split.
  - intros (st'&msgs&Hc&Hg). inversion Hc as [| |l os ? Hfd HF Hp Hprev Hw|]; subst; [|by inversion H]. exists l. split; [done|].
    intros a Ha. destruct (fd_due _ _ _ _ Hfd a Ha) as [Hk Hd]. apply (can_finish_goes _ _ _ _ _ Hr Hk); [by eapply Hself|].
    apply elem_of_list_lookup in Ha as [i Hi]. destruct (Forall2_lookup_l _ _ _ _ _ HF Hi) as (o&Ho&Hd'). exists (fst o), (snd o). split; [done|].
    apply Forall_concat in Hg. rewrite Forall_fmap, Forall_lookup in Hg. by apply (Hg i).
  - intros (l&Hfd&Hall). destruct (sudo p lb (view_of p w) (env_of w) (w_st w) EndBlock) as [[st' msgs]|er] eqn:E.
    + apply sudo_sound in E; [|done]. cbn [env_of e_time] in E. exists st', msgs. split; [done|].
      inversion E as [| |l' os ? Hfd' HF Hp Hprev Hw|]; subst; [|by inversion H].
      assert (l' = l) as -> by (by eapply first_due_unique). apply Forall_concat. rewrite Forall_fmap. apply Forall_lookup. intros i o Ho.
      destruct (Forall2_lookup_r _ _ _ _ _ HF Ho) as (a&Hi&[Hd _]). assert (a ∈ l) as Ha by (by eapply elem_of_list_lookup_2).
      destruct (fd_due _ _ _ _ Hfd a Ha) as [Hk Hdu]. specialize (Hall a Ha). apply (can_finish_goes _ _ _ _ _ Hr Hk) in Hall as (o'&ms'&[Hd' _]&Hg); [|by eapply Hself].
      cbn. by destruct (outcome_unique _ _ _ _ _ _ _ _ _ _ Hd Hd') as [_ ->].
    + exfalso. destruct (proj1 (end_fails p lb (w_st w) Hh (view_of p w) (env_of w) ltac:(cbn [env_of e_time]; lia)) (ex_intro _ er E)) as (l'&a&Hfd'&Ha&Hno).
      cbn [env_of e_time] in Hfd', Hno. assert (l' = l) as -> by (by eapply first_due_unique). apply Hno.
      destruct (fd_due _ _ _ _ Hfd a Ha) as [Hk Hdu]. specialize (Hall a Ha). apply (can_finish_goes _ _ _ _ _ Hr Hk) in Hall as (o'&ms'&Hd'&_); [|by eapply Hself].
      apply can_handle_iff. eauto.
Qed.

Lemma moved_to_app c t ms ns : moved_to c t (ms ++ ns) = match moved_to c t ns with Some y => Some y | None => moved_to c t ms end.
Proof.
  induction ms as [|m ms IH]; cbn [app]; [by destruct (moved_to c t ns)|]. rewrite !moved_to_cons, IH. by destruct (moved_to c t ns).
Qed.
Lemma moved_to_settlement a hb sp c t :
  moved_to c t (settlement a hb sp) = if decide (a_coll a = c /\ a_tok a = t) then Some (hb_bidder hb) else None.
Proof.
  unfold settlement. cbv zeta. rewrite !moved_to_app.
  assert (moved_to c t (burn_part (c_denom (hb_coin hb)) (sp_burn sp)) = None) as -> by (unfold burn_part; by case_decide).
  assert (forall to d n, moved_to c t (pay_part to d n) = None) as Hp by (intros; unfold pay_part; by case_decide). rewrite !Hp.
  unfold moved_to. cbn. by case_decide.
Qed.
(** Nothing stands in the way: no halt is on record, and every due auction can be finished. *)
Definition calm (w : world state) : Prop :=
  ra_reachable p lb w /\ t_seconds (w_time w) < U64_MAX /\ hm_windows (s_halt (w_st w)) = [] /\
  forall k a, s_auctions (w_st w) !! k = Some a -> due (w_time w) a ->
    a_coll a <> p_self p /\ can_finish p lb (view_of p w) (w_time w) (s_config (w_st w)) (s_halt (w_st w)) a.
Lemma not_halted h t : hm_windows h = [] -> ~ halted h t.
Proof. intros E (w&Hw&_). rewrite E in Hw. by apply elem_of_nil in Hw. Qed.
Definition all_sold (l : list auction) (os : list (option auction * list cmsg)) : Prop :=
  Forall2 (fun a o => exists hb sp, a_high a = Some hb /\ fst o = None /\ snd o = settlement a hb sp) l os.
Lemma sold_still l os c t : all_sold l os -> (forall a, a ∈ l -> (a_coll a, a_tok a) <> (c, t)) -> moved_to c t (concat (snd <$> os)) = None.
Proof.
  induction 1 as [|a o l os (hb&sp&_&_&E) _ IH]; intros Hno; [done|]. cbn. rewrite moved_to_app, IH by (intros; apply Hno; by right).
  rewrite E, moved_to_settlement. case_decide as E'; [|done]. destruct (Hno a); [by left|]. destruct E'; congruence.
Qed.
Lemma sold_moved l os a hb : all_sold l os -> NoDup ((fun a => (a_coll a, a_tok a)) <$> l) -> a ∈ l -> a_high a = Some hb ->
  moved_to (a_coll a) (a_tok a) (concat (snd <$> os)) = Some (hb_bidder hb).
Proof.
  induction 1 as [|b o l os (hb'&sp&Hb&_&E) Hl IH]; intros Hnd Ha Hhb; [by apply elem_of_nil in Ha|]. cbn in Hnd |- *.
  apply NoDup_cons in Hnd as [Hbl Hnd]. rewrite moved_to_app. apply elem_of_cons in Ha as [->|Ha].
  - rewrite (sold_still l os) by (try done; intros a Ha E'; apply Hbl; rewrite <-E'; apply elem_of_list_fmap; by exists a).
    rewrite E, moved_to_settlement, decide_True by done. congruence.
  - by rewrite IH.
Qed.
Lemma calm_block w : calm w -> exists w1 l, run_sudo p lb w EndBlock = Ok w1 /\ calm w1 /\
  first_due (w_st w) (w_time w) (cf_max_settle (s_config (w_st w))) l /\
  (forall a, a ∈ l -> s_auctions (w_st w1) !! (a_coll a, a_tok a) = None /\
     (p_honest p (a_coll a) = true -> exists hb, a_high a = Some hb /\ w_nft w1 (a_coll a) (a_tok a) = Some (hb_bidder hb))) /\
  (forall c t, (forall a, a ∈ l -> (a_coll a, a_tok a) <> (c, t)) -> s_auctions (w_st w1) !! (c, t) = s_auctions (w_st w) !! (c, t) /\ w_nft w1 c t = w_nft w c t) /\
  s_config (w_st w1) = s_config (w_st w) /\ w_time w1 = w_time w /\
  exists msgs, sudo_calls p lb (view_of p w) (w_time w) (w_st w) EndBlock (w_st w1) msgs.
Proof.
  intros (Hr&Ht&Hw&Hdue). pose proof (reachable_history _ _ _ Hr) as Hh. pose proof (reachable_wf _ _ _ Hr) as Hwf.
  assert (first_due (w_st w) (w_time w) (cf_max_settle (s_config (w_st w))) (due_auctions (w_st w) (t_seconds (w_time w) + 1) (cf_max_settle (s_config (w_st w))))) as Hfd0
    by (apply (due_first p); [done|lia]).
  destruct (proj2 (end_block_goes w Hr Ht ltac:(intros k a Ha Hd; by eapply Hdue))) as [w1 Hrun].
  { eexists. split; [exact Hfd0|]. intros a Ha. destruct (fd_due _ _ _ _ Hfd0 a Ha) as [Hk Hd]. by eapply Hdue. }
  pose proof Hrun as Hset. apply sudo_tx_settled in Hset as (st'&msgs&Hc&[H1 H2 H3 H4 H5 H6 H7 H8]); [|done..].
  pose proof Hc as Hc0. inversion Hc0 as [| |l os ? Hfd HF Hp Hprev Hwin|]; subst; [|by inversion H].
  assert (length os = length l) as Hlen by (symmetry; by eapply Forall2_length).
  assert (forall i a o, l !! i = Some a -> os !! i = Some o -> exists hb sp, a_high a = Some hb /\ fst o = None /\ snd o = settlement a hb sp) as Hsold.
  { intros i a o Hi Ho. pose proof (Forall2_lookup_lr _ _ _ _ _ _ HF Hi Ho) as [Hd _]. inversion Hd as [t E1 E2 E3|t hb sp E1 E2 E3 E4 E5 E6 E7 E8].
    - by eapply not_halted in E3.
    - eauto 8. }
  assert (NoDup ((fun a => (a_coll a, a_tok a)) <$> l)) as Hnd.
  { apply NoDup_fmap_2_strong.
    - intros a b Ha Hb E. apply (fd_due _ _ _ _ Hfd) in Ha as [Ha _], Hb as [Hb _]. cbv beta in E. rewrite E in Ha. pose proof (eq_trans (eq_sym Ha) Hb). congruence.
    - eapply sorted_nodup; [|exact (fd_sorted _ _ _ _ Hfd)]. intros b. apply end_before_irrefl. }
  assert (all_sold l os) as Hall.
  { apply Forall2_same_length_lookup_2; [done|]. exact Hsold. }
  assert (forall a, a ∈ l -> s_auctions (w_st w1) !! (a_coll a, a_tok a) = None) as Hgone.
  { intros a Ha. apply elem_of_list_lookup in Ha as [i Hi]. destruct (lookup_lt_is_Some_2 os i) as [o Ho]; [rewrite Hlen; by eapply lookup_lt_Some|].
    rewrite (pr_done _ _ _ _ Hp _ _ _ Hi Ho). by destruct (Hsold _ _ _ Hi Ho) as (hb&sp&_&->&_). }
  exists w1, l. split; [done|].
  assert (s_config (w_st w1) = s_config (w_st w)) as Hcfg by apply Hp.
  assert (hm_windows (s_halt (w_st w1)) = []) as Hw1 by (rewrite Hw in Hwin; by inversion Hwin).
  split; [|split; [done|split; [|split; [|split; [done|split; [done|eauto]]]]]].
  - split_and!; [|by rewrite H8|done|].
    + destruct Hr as (w0&Hi&Hr). exists w0. split; [done|]. eapply rtc_r; [exact Hr|]. by apply run_sudo_step in Hrun.
    + intros k a Ha Hd. rewrite H8 in Hd |- *. rewrite Hcfg.
      assert (s_auctions (w_st w) !! k = Some a) as Ha0.
      { destruct (processed_case _ _ _ _ k Hp Hlen) as [(i&b&o&Hi&Ho&->&Hk)|[_ Hk]]; [|by rewrite <-Hk].
        destruct (Hsold _ _ _ Hi Ho) as (hb&sp&_&Hn&_). rewrite Hn in Hk. discriminate (eq_trans (eq_sym Hk) Ha). }
      destruct (Hdue k a Ha0 Hd) as [Hs (t&Hte&Hle&Hcase)]. split; [done|]. exists t. split; [done|]. split; [done|]. right.
      destruct Hcase as [[Hha _]|(Hha&Hro&hb&sp&Hhb&Hsp&Hra&Hb1&Hb2)]; [by eapply not_halted in Hha|].
      split; [by apply not_halted|]. unfold royalty_known, rates in *. cbn [q_info view_of] in *. rewrite H6. split; [done|]. exists hb, sp. split; [done|]. split; [done|]. split; [rewrite ?H6; done|]. split; done.
  - intros a Ha. split; [by apply Hgone|]. intros Hho. pose proof Ha as Ha'. apply elem_of_list_lookup in Ha' as [i Hi].
    destruct (Forall2_lookup_l _ _ _ _ _ Hall Hi) as (o&Ho&hb&sp&Hhb&_). exists hb. split; [done|].
    rewrite H3, (sold_moved l os a hb) by done. by rewrite Hho.
  - intros c t Hno. split; [by apply Hp|]. rewrite H3. by rewrite (sold_still l os).
Qed.

Lemma stay_gone n : forall w c t, calm w -> s_auctions (w_st w) !! (c, t) = None ->
  exists w', end_blocks p lb n w = Ok w' /\ s_auctions (w_st w') !! (c, t) = None /\ w_nft w' c t = w_nft w c t.
Proof.
  induction n as [|n IH]; intros w c t Hcalm Hno; [by exists w|].
  destruct (calm_block w Hcalm) as (w1&l&Hrun&Hcalm1&Hfd&Hdone&Hother&_). cbn [end_blocks]. rewrite Hrun.
  destruct (Hother c t) as [Hk Hnf].
  { intros a Ha E. destruct (fd_due _ _ _ _ Hfd a Ha) as [Ha1 _]. rewrite E in Ha1. discriminate (eq_trans (eq_sym Ha1) Hno). }
  destruct (IH w1 c t Hcalm1) as (w'&Hr&Hg&Hn); [by rewrite Hk|]. exists w'. split_and!; [done..|congruence].
Qed.
Lemma all_settled n : forall w a l, calm w -> s_auctions (w_st w) !! (a_coll a, a_tok a) = Some a -> due (w_time w) a -> in_front (w_st w) a l ->
  (length l < n * N.to_nat (cf_max_settle (s_config (w_st w))))%nat ->
  exists w', end_blocks p lb n w = Ok w' /\ s_auctions (w_st w') !! (a_coll a, a_tok a) = None /\
    (p_honest p (a_coll a) = true -> exists hb, a_high a = Some hb /\ w_nft w' (a_coll a) (a_tok a) = Some (hb_bidder hb)).
Proof.
  induction n as [|n IH]; intros w a l Hcalm Ha Hd Hl Hlt; [lia|].
  destruct (calm_block w Hcalm) as (w1&l0&Hrun&Hcalm1&Hfd&Hdone&Hother&Hcfg&Htime&msgs&Hc). cbn [end_blocks]. rewrite Hrun.
  destruct (fd_complete _ _ _ _ Hfd a Ha Hd) as [Hin|[Hfull Hbefore]].
  - destruct (Hdone a Hin) as [Hg Hn]. destruct (stay_gone n w1 _ _ Hcalm1 Hg) as (w'&Hr&Hg'&Hn'). exists w'. split; [done|]. split; [done|].
    intros Hho. destruct (Hn Hho) as (hb&?&?). exists hb. split; [done|congruence].
  - assert (forall b, b ∈ l0 -> (a_coll b, a_tok b) <> (a_coll a, a_tok a)) as Hne.
    { intros b Hb E. destruct (fd_due _ _ _ _ Hfd b Hb) as [Hb1 _]. rewrite E in Hb1. pose proof (eq_trans (eq_sym Ha) Hb1) as [= ->].
      apply Hbefore in Hb. by apply end_before_irrefl in Hb. }
    destruct (Hother _ _ Hne) as [Hk Hnf]. assert (s_auctions (w_st w1) !! (a_coll a, a_tok a) = Some a) as Ha1 by (by rewrite Hk).
    destruct (front_exists (w_st w1) a) as [l1 Hl1]; [by apply reachable_history; destruct Hcalm1|].
    destruct (IH w1 a l1 Hcalm1 Ha1) as (w'&Hr&Hg&Hn); [by rewrite Htime|done| |by exists w'].
    rewrite Hcfg. assert (length l1 + length l0 <= length l)%nat; [|lia].
    destruct Hl as [Hnd Hl], Hl1 as [Hnd1 Hl1]. rewrite Nat.add_comm, <-app_length. apply submseteq_length, NoDup_submseteq.
    + apply NoDup_app. split_and!; [|intros b Hb [Hb' _]%Hl1|done].
      * eapply sorted_nodup; [|exact (fd_sorted _ _ _ _ Hfd)]. intros b. apply end_before_irrefl.
      * destruct (Hdone b Hb) as [Hb0 _]. discriminate (eq_trans (eq_sym Hb0) Hb').
    + intros b [Hb|Hb]%elem_of_app; apply Hl.
      * split; [by apply (fd_due _ _ _ _ Hfd)|by apply Hbefore].
      * apply Hl1 in Hb as [Hb He]. split; [|done]. destruct (Hother (a_coll b) (a_tok b)) as [Hk' _]; [|by rewrite <-Hk'].
        intros b' Hb' E. destruct (Hdone b' Hb') as [Hb0 _]. rewrite E in Hb0. discriminate (eq_trans (eq_sym Hb0) Hb).
Qed.
End Queue.
