(** Proofs for C147 (RABlockSpec): EndBlock is nothing but settlements. *)
From stdpp Require Import relations.
From Verif Require Import Base BaseFacts Common Chain ChainFacts QuerySpec RAModel RASpec RAFacts RAIndex RAInv RAReach RAFinal RAExactSpec
  RAExact RABlockSpec.

Section Block.
Context (p : params) (lb : lib).

Lemma history_call st who v e m st1 ms : ra_history p lb st -> who <> p_self p ->
  execute p lb v e who [] st m = Ok (st1, ms) -> ra_history p lb st1.
Proof.
  intros (c&mins&st0&Hi&Hr) Hw He. exists c, mins, st0. split; [done|]. eapply rtc_r; [exact Hr|].
  by eapply call_execute.
Qed.
Lemma settle_call st who v e a st1 ms : ra_history p lb st -> s_auctions st !! a_key a = Some a ->
  execute p lb v e who [] st (SettleAuction (a_coll a) (a_tok a)) = Ok (st1, ms) <->
  exists o, st1 = put_auction st (a_key a) o /\ handled p lb v (e_time e) (s_config st) (s_halt st) a o ms.
Proof.
  intros Hh Ha. rewrite (calls_exact p lb st Hh); [|intros c Hc; by apply elem_of_nil in Hc]. split.
  - intros H. inversion H as [| | | |? ? a' o ? Hf Ha' Hd]; subst. exists o. split; [done|].
    pose proof (eq_trans (eq_sym Ha) Ha') as E. injection E as E. by subst a'.
  - intros (o&->&Hd). by eapply settles.
Qed.
Lemma settling_iff v e l : forall whos st st2 ms,
  ra_history p lb st -> NoDup (a_key <$> l) -> (forall a, a ∈ l -> s_auctions st !! a_key a = Some a) ->
  length whos = length l -> p_self p ∉ whos ->
  settling p lb v e whos l st st2 ms <->
  exists os, Forall2 (fun a o => handled p lb v (e_time e) (s_config st) (s_halt st) a (fst o) (snd o)) l os /\
    st2 = process st l os /\ ms = concat (snd <$> os).
Proof.
  induction l as [|a l IH]; intros whos st st2 ms Hh Hn Hl Hlen Hs.
  - destruct whos; [|done]. split.
    + intros H. inversion H; subst. exists []. done.
    + intros (os&HF&->&->). inversion HF; subst. constructor.
  - destruct whos as [|who whos]; [done|]. cbn [fmap list_fmap] in Hn. apply NoDup_cons in Hn as [Hna Hn].
    apply not_elem_of_cons in Hs as [Hw Hs]. cbn in Hlen. injection Hlen as Hlen.
    assert (s_auctions st !! a_key a = Some a) as Ha by (apply Hl; left).
    assert (forall o b, b ∈ l -> s_auctions (put_auction st (a_key a) o) !! a_key b = Some b) as Hl'.
    { intros o b Hb. unfold put_auction. cbn [s_auctions]. assert (a_key a <> a_key b) as Hne.
      { intros E. apply Hna. apply elem_of_list_fmap. by exists b. }
      destruct o; [rewrite lookup_insert_ne by done|rewrite lookup_delete_ne by done]; apply Hl; by right. }
    split.
    + intros H. inversion H as [|? ? ? ? ? st1 ? m1 m2 He H2]; subst.
      assert (ra_history p lb st1) as Hh1 by (eapply history_call; [exact Hh| |exact He]; done).
      apply settle_call in He as (o&->&Hd); [|done..].
      apply IH in H2 as (os&HF&->&->); [|done|done|by apply Hl'|done|done].
      exists ((o, m1) :: os). split; [by constructor|]. split; [|done]. rewrite process_cons. by destruct o.
    + intros (os&HF&->&->). inversion HF as [|? [o em] ? os' Ho HF']; subst. cbn [fst snd] in Ho.
      assert (execute p lb v e who [] st (SettleAuction (a_coll a) (a_tok a)) = Ok (put_auction st (a_key a) o, em)) as He.
      { apply settle_call; [done..|]. by exists o. }
      eapply (settled_next _ _ _ _ who whos a l st _ _ em); [exact He|].
      apply IH; [eapply history_call; [exact Hh| |exact He]; done|done|by apply Hl'|done|done|].
      exists os'. split; [done|]. split; [|done]. rewrite process_cons. by destruct o.
Qed.

Lemma windows_after_total l ws : exists ws', windows_after l ws ws'.
Proof.
  destruct ws as [|w ws]; [eexists; constructor|].
  destruct (decide (Forall (fun a => hw_end w < end_second a) l)) as [H|H].
  - exists ws. apply window_dropped. by apply Forall_forall.
  - apply not_Forall_Exists in H; [|apply _]. apply Exists_exists in H as (a&Ha&H). exists (w :: ws).
    eapply window_kept; [exact Ha|]. apply N.nlt_ge. exact H.
Qed.

Lemma block_settles v e whos l st st2 ms :
  ra_history p lb st -> t_seconds (e_time e) + 1 <= U64_MAX -> first_due st (e_time e) (cf_max_settle (s_config st)) l ->
  length whos = length l -> p_self p ∉ whos ->
  settling p lb v e whos l st st2 ms <->
  s_halt st2 = s_halt st /\ exists st', sudo p lb v e st EndBlock = Ok (st', ms) /\ same_but_windows st' st2.
Proof.
  intros Hh Hmax Hfd Hlen Hs.
  pose proof (history_wf p lb _ Hh) as Hwf.
  assert (l = due_auctions st (t_seconds (e_time e) + 1) (cf_max_settle (s_config st))) as El.
  { eapply first_due_unique; [exact Hfd|]. by eapply due_first. }
  assert (NoDup (a_key <$> l)) as Hn by (rewrite El; by eapply due_nodup).
  assert (forall a, a ∈ l -> s_auctions st !! a_key a = Some a) as Hl by (intros a Ha; by apply (fd_due _ _ _ _ Hfd)).
  rewrite settling_iff by done. split.
  - intros (os&HF&->&->). destruct (process_config st l os) as (H1&H2&H3). split; [done|].
    destruct (windows_after_total l (hm_windows (s_halt st))) as [ws Hws].
    set (st' := State (s_config st) (s_mins st) (HaltManager (hm_prev (s_halt st)) ws) (s_auctions (process st l os))).
    exists st'. split.
    + apply (sudo_exact p lb st Hh); [done|]. apply (ends p lb v (e_time e) st l os st'); try done. split; try done.
      * intros i a o Ha Ho. by apply (process_at st l os i a o Hn Ha Ho).
      * intros k Hk. apply process_other. intros (a&->&Ha)%elem_of_list_fmap. by apply (Hk a Ha).
    + unfold same_but_windows. cbn [st' s_config s_mins s_auctions s_halt hm_prev]. by rewrite H1, H2, H3.
  - intros (Hhalt&st'&He&(E1&E2&E3&E4)). apply (sudo_exact p lb st Hh) in He; [|done].
    inversion He as [| |l' os ? Hfd' HF Hpr Hprev Hw|? ? Hg]; subst; [|by inversion Hg].
    assert (l' = due_auctions st (t_seconds (e_time e) + 1) (cf_max_settle (s_config st))) as -> by (eapply first_due_unique; [exact Hfd'|exact Hfd]).
    exists os. split; [done|]. split; [|done].
    destruct (processed_is st st' _ os Hn (Forall2_length _ _ _ HF) Hpr) as (F1&F2&F3).
    destruct (process_config st (due_auctions st (t_seconds (e_time e) + 1) (cf_max_settle (s_config st))) os) as (_&_&F4).
    destruct st2 as [c2 m2 h2 a2], (process st _ os) as [c3 m3 h3 a3]. cbn in *. congruence.
Qed.

(** The order of the callers does not matter either: whoever they are, the result is the same. *)
Lemma settling_anybody v e whos whos' l st st2 ms :
  ra_history p lb st -> NoDup (a_key <$> l) -> (forall a, a ∈ l -> s_auctions st !! a_key a = Some a) ->
  length whos = length l -> length whos' = length l -> p_self p ∉ whos -> p_self p ∉ whos' ->
  settling p lb v e whos l st st2 ms -> settling p lb v e whos' l st st2 ms.
Proof. intros ??????? H. apply settling_iff; [done..|]. by apply settling_iff in H. Qed.
End Block.
