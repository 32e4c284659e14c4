(** The books of the reserve auction balance over every history. *)
From stdpp Require Import relations.
From Verif Require Import Base BaseFacts Common Chain ChainFacts QuerySpec SaleFacts LedgerSpec Ledger RAModel RASpec RAFacts RAInv
  RAReach RAExactSpec RAExact RALedgerSpec.

Section RALedger.
Context (p : params) (lb : lib).

Lemma recorded_call st st' h : recorded p lb st st' h -> ra_call p lb st st'.
Proof. intros [v e s f m ms Hs H|v e m ms H]; [by eapply call_execute|by eapply call_sudo]. Qed.
Lemma trace_history st l : trace p lb st l -> ra_history p lb st.
Proof.
  induction 1 as [c mins st H|st l h st' _ IH H]; [by exists c, mins, st|].
  destruct IH as (c&mins&st0&H0&Hr). exists c, mins, st0. split; [done|].
  eapply rtc_r; [done|]. by eapply recorded_call.
Qed.
Lemma history_trace st : ra_history p lb st -> exists l, trace p lb st l.
Proof.
  intros (c&mins&st0&H0&Hr). assert (exists l, trace p lb st0 l) as Ht by (exists []; by eapply tr_start). clear H0.
  induction Hr as [|s s' s'' Hc _ IH]; [done|]. apply IH. destruct Ht as [l Hl].
  destruct Hc as [v e sender f m ms Hs H|v e m ms H]; (eexists; eapply tr_next; [exact Hl|]); [by eapply rec_user|by eapply rec_chain].
Qed.
Lemma entry_recorded st l h : trace p lb st l -> h ∈ l ->
  ra_history p lb (e_before h) /\ recorded p lb (e_before h) (e_after h) h.
Proof.
  induction 1 as [c mins st H|st l h0 st' Ht IH H]; [by intros ?%elem_of_nil|].
  intros [Hh|Hh%elem_of_list_singleton]%elem_of_app; [by apply IH|]. subst h.
  destruct H; cbn; (split; [by eapply trace_history|by econstructor]).
Qed.

(** ** One step: a generic account of the high bids *)
Section Step.
Context (d : denom) (who : addr -> bool).
Definition share (a : auction) : N :=
  match a_high a with Some hb => if who (hb_bidder hb) then of_denom d (hb_coin hb) else 0 | None => 0 end.
Definition shares (st : state) : N := total (fun _ a => share a) (s_auctions st).
Definition shares_gone (st st' : state) : N := gone (fun _ a => share a) (s_auctions st) (s_auctions st').

Lemma put_same st k a a' : s_auctions st !! k = Some a -> a_high a' = a_high a ->
  shares (put_auction st k (Some a')) = shares st /\ shares_gone st (put_auction st k (Some a')) = 0.
Proof.
  intros Ha He. unfold shares, shares_gone, put_auction. cbn [s_auctions]. split; [|apply gone_insert].
  pose proof (total_put (fun _ a => share a) _ k a a' Ha) as H. cbv beta in H. unfold share in H at 2 4. rewrite He in H. lia.
Qed.
Lemma put_some st k a a' : s_auctions st !! k = Some a ->
  shares (put_auction st k (Some a')) + share a = shares st + share a' /\ shares_gone st (put_auction st k (Some a')) = 0.
Proof.
  intros Ha. split; [|apply gone_insert]. exact (total_put (fun _ a => share a) _ k a a' Ha).
Qed.
Lemma put_none st k a : s_auctions st !! k = Some a ->
  shares st = shares (put_auction st k None) + shares_gone st (put_auction st k None) /\
  shares_gone st (put_auction st k None) = share a.
Proof.
  intros Ha. unfold shares, shares_gone, put_auction. cbn [s_auctions].
  rewrite (gone_delete _ _ _ _ Ha), (total_delete _ _ _ _ Ha). lia.
Qed.
Lemma outcome_put v now cfg h st k a o ms : s_auctions st !! k = Some a -> outcome lb v now cfg h a o ms ->
  shares st = shares (put_auction st k o) + shares_gone st (put_auction st k o).
Proof.
  intros Ha [t Ht Hle Hh Hm|t hb sp Ht Hle Hn Hh Hsp Hr].
  - destruct (put_same st k a (with_end a (now + cf_halt_postpone cfg * NANOS)) Ha) as [-> ->]; [done|lia].
  - by eapply put_none.
Qed.
Lemma processed_shares v now cfg h st st' l os :
  (forall a, a ∈ l -> s_auctions st !! (a_coll a, a_tok a) = Some a) ->
  Forall2 (fun a o => handled p lb v now cfg h a (fst o) (snd o)) l os -> processed st st' l os ->
  shares st = shares st' + shares_gone st st'.
Proof.
  intros Hl HF [_ _ Hdone Hother]. 
  assert (forall k : string * string, match s_auctions st !! k, s_auctions st' !! k with
                    | Some x, Some y => share x = share y | None, Some _ => False | _, None => True end) as Hk;
    [|exact (gone_split (fun _ a => share a) _ _ Hk)].
  intros k. destruct (decide (Exists (fun a => (a_coll a, a_tok a) = k) l)) as [HE|HE].
  - apply Exists_exists in HE as (a&Ha&Hk). pose proof (Hl a Ha) as E. rewrite Hk in E. rewrite E.
    apply elem_of_list_lookup in Ha as [i Hi]. destruct (Forall2_lookup_l _ _ _ _ _ HF Hi) as ([o ms]&Ho&[Hout _]).
    cbn [fst snd] in Hout. pose proof (Hdone i a (o, ms) Hi Ho) as E'. rewrite Hk in E'. rewrite E'. cbn [fst]. by destruct Hout.
  - rewrite (Hother k).
    + by destruct (s_auctions st !! k).
    + intros a Ha Hk. apply HE, Exists_exists. eauto.
Qed.
Lemma sudo_shares v now st m st' msgs : sudo_calls p lb v now st m st' msgs ->
  shares st = shares st' + shares_gone st st'.
Proof.
  intros [Hp _ _|Hp _|l os st1 Hfd HF Hpr _ _|m0 st1 Hg].
  - unfold shares, shares_gone. cbn [s_auctions]. rewrite gone_same. lia.
  - unfold shares, shares_gone. cbn [s_auctions]. rewrite gone_same. lia.
  - eapply processed_shares; [|done|done]. intros a Ha. by apply (fd_due _ _ _ _ Hfd).
  - assert (s_auctions st1 = s_auctions st) as He by (by destruct Hg).
    unfold shares, shares_gone. rewrite He, gone_same. lia.
Qed.
End Step.

Lemma total_shares_lead u d st : leading u d st = shares d (fun x => bool_decide (x = u)) st.
Proof.
  apply total_ext. intros k a _. unfold lead, share. destruct (a_high a) as [hb|]; [|done].
  case_decide; case_bool_decide; done.
Qed.
Lemma gone_shares_lead u d h : won u d h = shares_gone d (fun x => bool_decide (x = u)) (e_before h) (e_after h).
Proof.
  apply total_ext. intros k a _. destruct (_ !! k); [done|]. unfold lead, share. destruct (a_high a) as [hb|]; [|done].
  case_decide; case_bool_decide; done.
Qed.
Lemma total_shares_all d st : all_leads d st = shares d (fun _ => true) st.
Proof. done. Qed.
Lemma gone_shares_all d h : all_won d h = shares_gone d (fun _ => true) (e_before h) (e_after h).
Proof. done. Qed.

(** ** One step for one bidder *)
Lemma step_books u d st st' h : ra_history p lb st -> recorded p lb st st' h ->
  bid_in u d h + leading u d st = bid_back u d h + leading u d st' + won u d h.
Proof.
  intros Hst H. rewrite gone_shares_lead, !total_shares_lead. set (who := fun x => bool_decide (x = u)).
  destruct H as [v e s f m ms Hs H|v e m ms H]; cbn [e_before e_after].
  - apply (calls_sound p lb st Hst) in H.
    destruct H as [coll tok reserve duration recipient Hmo Hpf|coll tok reserve a mn -> Ha Hse Hhi Hmn Hle
      |coll tok a -> Ha Hse Hhi|coll tok a n a' ms Ha Hse -> Hn Hb Hend|coll tok a o ms -> Ha [Hout _]]; cbn [bid_in bid_back].
    + unfold shares, shares_gone, put_auction. cbn [s_auctions]. rewrite gone_insert.
      rewrite total_insert_new by apply Hmo. unfold share at 2. cbn [a_high]. lia.
    + destruct (put_same d who st _ a (with_reserve a reserve) Ha) as [-> ->]; [done|]. lia.
    + destruct (put_none d who st _ a Ha) as [H1 H2]. lia.
    + destruct (put_some d who st (coll, tok) a a' Ha) as [H ->].
      assert (forall x hb, a_high x = Some hb -> share d who x = if decide (hb_bidder hb = u) then of_denom d (hb_coin hb) else 0) as Hsh.
      { intros x hb Hx. unfold share, who. rewrite Hx. case_decide; case_bool_decide; done. }
      rewrite (Hsh a' (HighBid (Coin (c_denom (a_reserve a)) n) s)) in H by (by destruct Hb). cbn [hb_bidder hb_coin] in H.
      unfold sent_to, coins_of. destruct Hb as [Hf Hh He Hr|first hb t Hf Hh He Hlt Hr]; cbn [sum_over].
      * assert (share d who a = 0) as H0 by (unfold share; by rewrite Hh). rewrite H0 in H.
        destruct (decide (s = u)); lia.
      * rewrite (Hsh a hb Hh) in H. destruct (decide (s = u)), (decide (hb_bidder hb = u)); lia.
    + rewrite (outcome_put d who _ _ _ _ _ _ _ _ _ Ha Hout). lia.
  - apply (sudo_sound p lb st Hst) in H. cbn [bid_in bid_back].
    rewrite (sudo_shares d who _ _ _ _ _ _ H). lia.
Qed.
Lemma books u d st l : trace p lb st l ->
  sum_over (bid_in u d) l = sum_over (bid_back u d) l + leading u d st + sum_over (won u d) l.
Proof.
  induction 1 as [c mins st H|st l h st' Ht IH H].
  - cbn [sum_over]. unfold leading. rewrite total_zero; [done|]. intros k a Ha.
    unfold instantiate in H. apply bind_Ok in H as (?&_&H). apply bind_Ok in H as ([]&Hc&H). apply bind_Ok in H as (m&_&H).
    injection H as <-. cbn in Ha. by rewrite lookup_empty in Ha.
  - rewrite !sum_over_app. cbn [sum_over]. pose proof (step_books u d st st' h (trace_history _ _ Ht) H). lia.
Qed.

(** ** The whole contract *)
Lemma all_leads_liab d st : all_leads d st = liab st d.
Proof.
  rewrite <- high_total_liab. unfold high_total. change (all_leads d st = total (fun _ a => owed d a) (s_auctions st)).
  apply total_ext. intros k a _. unfold owed. by destruct (a_high a).
Qed.
Lemma effect_liab_create v e s f st c t r du rc st' ms d :
  ra_effect p lb v e s f st (CreateAuction c t r du rc) st' ms -> liab st' d = liab st d.
Proof.
  intros H. inversion H; subst. unfold liab. cbn [save_auction set_auctions s_auctions a_key a_coll a_tok].
  rewrite esc_insert_new by done. cbn [a_price a_high amt c_amount c_denom]. destruct (bool_decide _); lia.
Qed.
Lemma step_contract d st st' h : ra_history p lb st -> recorded p lb st st' h ->
  comes_in d h + all_leads d st = goes_out d h + all_leads d st' + overpaid d h.
Proof.
  intros Hst H. rewrite !all_leads_liab. apply history_wf in Hst.
  destruct H as [v e s f m ms Hs H|v e m ms H]; unfold goes_out; cbn [comes_in e_msgs overpaid]; rewrite leaving_out.
  - apply execute_effect in H; [|done]. pose proof (effect_accounting p lb v e s f st m st' ms d Hst H) as [H1 H2]. rewrite coins_amt.
    destruct m; try (specialize (H2 ltac:(congruence)); lia).
    pose proof (effect_liab_create _ _ _ _ _ _ _ _ _ _ _ _ d H). lia.
  - apply (sudo_liab p lb _ _ _ _ _ _ d Hst) in H. lia.
Qed.
Lemma contract_books d st l : trace p lb st l ->
  sum_over (comes_in d) l = sum_over (goes_out d) l + all_leads d st + sum_over (overpaid d) l.
Proof.
  induction 1 as [c mins st H|st l h st' Ht IH H].
  - cbn [sum_over]. unfold all_leads. rewrite total_zero; [done|]. intros k a Ha.
    unfold instantiate in H. apply bind_Ok in H as (?&_&H). apply bind_Ok in H as ([]&Hc&H). apply bind_Ok in H as (m&_&H).
    injection H as <-. cbn in Ha. by rewrite lookup_empty in Ha.
  - rewrite !sum_over_app. cbn [sum_over]. pose proof (step_contract d st st' h (trace_history _ _ Ht) H). lia.
Qed.

(** ** Auctions that are over *)
Lemma step_all d st st' h : ra_history p lb st -> recorded p lb st st' h -> brings h = false ->
  all_leads d st = all_leads d st' + all_won d h /\ comes_in d h = 0.
Proof.
  intros Hst H Hb. rewrite gone_shares_all, !total_shares_all.
  destruct H as [v e s f m ms Hs H|v e m ms H]; cbn [e_before e_after].
  - apply (calls_sound p lb st Hst) in H.
    destruct H as [coll tok reserve duration recipient Hmo Hpf|coll tok reserve a mn -> Ha Hse Hhi Hmn Hle
      |coll tok a -> Ha Hse Hhi|coll tok a n a' ms Ha Hse -> Hn Hr Hend|coll tok a o ms -> Ha [Hout _]]; try done; split; try done.
    + destruct (put_same d (fun _ => true) st _ a (with_reserve a reserve) Ha) as [-> ->]; [done|]. lia.
    + by eapply put_none.
    + by eapply outcome_put.
  - apply (sudo_sound p lb st Hst) in H. split; [by eapply sudo_shares|done].
Qed.
Lemma won_paid d st l h : trace p lb st l -> h ∈ l -> brings h = false -> goes_out d h = all_won d h.
Proof.
  intros Ht Hh Hb. destruct (entry_recorded _ _ _ Ht Hh) as [Hst H].
  destruct (step_all d _ _ _ Hst H Hb) as [H1 H2]. pose proof (step_contract d _ _ _ Hst H) as H3.
  assert (overpaid d h = 0) as H4 by (by destruct h as [s f [] ? ? ?|]). lia.
Qed.
Lemma settlement_nft a hb sp : MNft (a_coll a) (a_tok a) (hb_bidder hb) ∈ settlement a hb sp.
Proof. unfold settlement. set_solver. Qed.
Lemma won_delivered st l h k hb : trace p lb st l -> h ∈ l -> over h k hb -> MNft k.1 k.2 (hb_bidder hb) ∈ e_msgs h.
Proof.
  intros Ht Hh (a&Ha&Ho&Hhi). destruct (entry_recorded _ _ _ Ht Hh) as [Hst H].
  clear Ht Hh. revert Ha Ho Hst. remember (e_before h) as st0 eqn:E1. remember (e_after h) as st1 eqn:E2. clear E1 E2. intros Ha Ho Hst.
  destruct H as [v e s f m ms Hs H|v e m ms H]; cbn [e_msgs].
  - apply (calls_sound p lb st0 Hst) in H.
    destruct H as [coll tok reserve duration recipient Hmo Hpf|coll tok reserve b mn -> Hb Hse Hbi Hmn Hle
      |coll tok b -> Hb Hse Hbi|coll tok b n a' ms Hb Hse -> Hn Hr Hend|coll tok b o ms -> Hb [Hout _]];
      unfold put_auction in Ho; cbn [s_auctions] in Ho.
    + apply lookup_insert_None in Ho as [Ho _]. congruence.
    + apply lookup_insert_None in Ho as [Ho _]. congruence.
    + apply lookup_delete_None in Ho as [<-|Ho]; [|congruence]. pose proof (eq_trans (eq_sym Hb) Ha) as [= ->]. congruence.
    + apply lookup_insert_None in Ho as [Ho _]. congruence.
    + destruct o as [b'|]; [apply lookup_insert_None in Ho as [Ho _]; congruence|].
      apply lookup_delete_None in Ho as [<-|Ho]; [|congruence].
      pose proof (eq_trans (eq_sym Hb) Ha) as [= ->]. destruct (stored p lb st0 Hst _ _ Ha) as [Hk _]. unfold a_key in Hk.
      injection Hk as <- <-. inversion Hout; subst. assert (hb0 = hb) as -> by congruence. apply settlement_nft.
  - apply (sudo_sound p lb st0 Hst) in H.
    destruct H as [Hp _ _|Hp _|l0 os st1 Hfd HF [_ _ Hdone Hother] _ _|m0 st1 Hg]; try (cbn [s_auctions] in Ho; congruence).
    + destruct (decide (Exists (fun b => (a_coll b, a_tok b) = k) l0)) as [HE|HE].
      * apply Exists_exists in HE as (b&Hb&Hk). pose proof (proj1 (fd_due _ _ _ _ Hfd b Hb)) as E. rewrite Hk in E.
        pose proof (eq_trans (eq_sym E) Ha) as [= ->].
        apply elem_of_list_lookup in Hb as [i Hi]. destruct (Forall2_lookup_l _ _ _ _ _ HF Hi) as ([o ms]&Hos&[Hout _]).
        cbn [fst snd] in Hout. pose proof (Hdone i a (o, ms) Hi Hos) as E'. rewrite Hk in E'. cbn [fst] in E'.
        pose proof (eq_trans (eq_sym E') Ho) as ->. inversion Hout; subst.
        assert (hb0 = hb) as -> by congruence. cbn [fst snd].
        apply elem_of_list_In, in_concat. exists (settlement a hb sp). split; apply elem_of_list_In; [|apply settlement_nft].
        apply elem_of_list_fmap. exists (None, settlement a hb sp). split; [done|]. by eapply elem_of_list_lookup_2.
      * assert (s_auctions st1 !! k = s_auctions st0 !! k) as E.
        { apply Hother. intros b Hb Hk. apply HE, Exists_exists. eauto. }
        pose proof (eq_trans (eq_trans (eq_sym Ho) E) Ha). done.
    + assert (s_auctions st1 = s_auctions st0) as He by (by destruct Hg). congruence.
Qed.
End RALedger.
