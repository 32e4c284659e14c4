(** Reachable worlds and histories of the reserve auction. *)
From stdpp Require Import relations.
From Verif Require Import Base Common Chain BaseFacts ChainFacts IndexRange IndexFacts SaleFacts Plain
  RAModel RASpec RAFacts RAIndex RAInv.

Section Reach.
Context (p : params) (lb : lib).
Notation wf := (wf p).

(** * Histories *)
Lemma hstep_call st st' : hstep p (execute p lb) st st' -> ra_call p lb st st'.
Proof. intros (v&e&s&f&m&ms&Hs&H). by eapply call_execute. Qed.
Lemma call_wf st st' : ra_call p lb st st' -> wf st -> wf st'.
Proof. intros [v e s f m ms Hs H|v e m ms H] Hwf; [by eapply wf_execute|by eapply wf_sudo]. Qed.
Lemma calls_wf st st' : rtc (ra_call p lb) st st' -> wf st -> wf st'.
Proof. induction 1; eauto using call_wf. Qed.
Lemma history_wf st : ra_history p lb st -> wf st.
Proof. intros (c&mins&st0&Hi&H). eapply calls_wf; [done|]. by eapply wf_instantiate. Qed.

Lemma hsteps_calls st st' : rtc (hstep p (execute p lb)) st st' -> rtc (ra_call p lb) st st'.
Proof. induction 1; [done|]. eapply rtc_l; [by apply hstep_call|done]. Qed.
Lemma step_calls w w' : ra_step p lb w w' -> rtc (ra_call p lb) (w_st w) (w_st w').
Proof.
  destruct 1 as [s f m w w' H|w w' H|w h t|m w st' msgs w' Hs H].
  - apply hsteps_calls. by apply exec_hsteps in H.
  - apply env_step_st in H. by rewrite H.
  - done.
  - eapply rtc_l; [by eapply call_sudo|]. apply exec_hsteps in H. by apply hsteps_calls in H.
Qed.
Lemma reachable_history w : ra_reachable p lb w -> ra_history p lb (w_st w).
Proof.
  intros (w0&[(c&mins&Hi) _]&H). exists c, mins, (w_st w0). split; [done|]. clear Hi.
  induction H as [|w0 w1 w Hs _ IH]; [done|]. etrans; [by apply step_calls|done].
Qed.
Lemma reachable_wf w : ra_reachable p lb w -> wf (w_st w).
Proof. intros H. by apply history_wf, reachable_history. Qed.

(** * Solvency *)
Lemma step_solvent w w' : ra_step p lb w w' ->
  solvent p liab wf (fun _ => 0) w -> solvent p liab wf (fun _ => 0) w'.
Proof.
  assert (forall v e s f st m st' msgs, s <> p_self p -> wf st ->
            execute p lb v e s f st m = Ok (st', msgs) -> wf st') as HI by (intros; by eapply wf_execute).
  assert (forall v e s f st m st' msgs d, s <> p_self p -> wf st ->
            execute p lb v e s f st m = Ok (st', msgs) -> liab st' d + out msgs d <= liab st d + amt f d) as HL.
  { intros. by eapply execute_liab. }
  destruct (exec_solvent p (execute p lb) liab wf HI HL) as (H1&H2&H3).
  destruct 1 as [s f m w w' H|w w' H|w h t|m w st' msgs w' Hs H]; intros Hsol.
  - by eapply H1.
  - destruct Hsol as [Hi Hb]. split; [by rewrite (env_step_st _ _ _ H)|]. intros d.
    rewrite (env_step_st _ _ _ H). etrans; [apply Hb|]. by apply env_step_bank.
  - done.
  - eapply H2; [done|]. destruct Hsol as [Hi Hb]. split; [by eapply wf_sudo|]. intros d. cbn.
    pose proof (sudo_liab p lb _ _ _ _ _ _ d Hi Hs). specialize (Hb d). lia.
Qed.
Lemma reachable_solvent w : ra_reachable p lb w -> solvent p liab wf (fun _ => 0) w.
Proof.
  intros (w0&[(c&mins&Hi) _]&H).
  assert (solvent p liab wf (fun _ => 0) w0) as H0.
  { split; [by eapply wf_instantiate|]. intros d. unfold instantiate in Hi.
    apply bind_Ok in Hi as (?&_&Hi). apply bind_Ok in Hi as (?&_&Hi). apply bind_Ok in Hi as (?&_&Hi). injection Hi as <-.
    unfold liab. cbn. rewrite !esc_empty. lia. }
  clear Hi. induction H as [|w0 w1 w Hs _ IH]; [done|]. apply IH. by eapply step_solvent.
Qed.
Lemma reachable_funded w d : ra_reachable p lb w -> high_total (w_st w) d <= w_bank w (p_self p) d.
Proof. intros [_ H]%reachable_solvent. rewrite high_total_liab. specialize (H d). lia. Qed.

(** * Custody *)
Lemma step_custody w w' : ra_step p lb w w' ->
  custody p held wf (fun _ _ => False) w -> custody p held wf (fun _ _ => False) w'.
Proof.
  assert (forall v e s f st m st' msgs, s <> p_self p -> wf st ->
            execute p lb v e s f st m = Ok (st', msgs) -> wf st') as HI by (intros; by eapply wf_execute).
  assert (forall v e s f st m st' msgs, s <> p_self p -> wf st ->
            execute p lb v e s f st m = Ok (st', msgs) ->
            single_move p held st st' v msgs \/ releases p held st st' msgs) as HL.
  { intros. by eapply execute_custody. }
  destruct (exec_custody p (execute p lb) held wf HI HL) as (H1&H2&H3).
  destruct 1 as [s f m w w' H|w w' H|w h t|m w st' msgs w' Hs H]; intros Hc.
  - by eapply H1.
  - eapply H3; [|done]. eapply adv_env; [done|constructor].
  - done.
  - eapply H2; [done|]. left. destruct Hc as (Hi&Hn&Hh&HP).
    destruct (sudo_custody p lb _ _ _ _ _ _ Hi Hs) as (R1&R2&R3). split_and!; [split_and!|done|].
    + by eapply wf_sudo.
    + exact Hn.
    + intros c t Hhon Hheld. cbn. apply Hh; [done|]. by apply R3.
    + intros c t [].
    + intros c t Hin. destruct (R2 c t Hin) as [Hb Ha]. split_and!; [|done|auto]. cbn. apply Hh; [|done].
      by eapply honest_out_honest.
Qed.
Lemma reachable_custody w : ra_reachable p lb w -> custody p held wf (fun _ _ => False) w.
Proof.
  intros (w0&[(c&mins&Hi) Hn]&H).
  assert (custody p held wf (fun _ _ => False) w0) as H0.
  { split_and!; [by eapply wf_instantiate|done| |done]. unfold instantiate in Hi.
    apply bind_Ok in Hi as (?&_&Hi). apply bind_Ok in Hi as (?&_&Hi). apply bind_Ok in Hi as (?&_&Hi). injection Hi as <-.
    intros c0 t _ (a&Ha). cbn in Ha. by rewrite lookup_empty in Ha. }
  clear Hi Hn. induction H as [|w0 w1 w Hs _ IH]; [done|]. apply IH. by eapply step_custody.
Qed.
Lemma auction_custody w k a : ra_reachable p lb w -> s_auctions (w_st w) !! k = Some a ->
  k = (a_coll a, a_tok a) /\ (p_honest p (a_coll a) = true -> w_nft w (a_coll a) (a_tok a) = Some (p_self p)).
Proof.
  intros Hr Ha. destruct (wf_auction _ _ (reachable_wf _ Hr) _ _ Ha) as [Hk _]. split; [done|]. intros Hh.
  destruct (reachable_custody _ Hr) as (_&_&Hc&_). apply Hc; [done|]. exists a. rewrite <-Hk in Ha. exact Ha.
Qed.

(** * The phases, seller and bidder of every auction *)
Lemma history_auction st k a : ra_history p lb st -> s_auctions st !! k = Some a ->
  k = (a_coll a, a_tok a) /\ aok p a.
Proof. intros H Ha. destruct (wf_auction _ _ (history_wf _ H) _ _ Ha) as [Hk Hok]. done. Qed.
Lemma history_config st : ra_history p lb st ->
  0 < cf_increment (s_config st) < DEC_ONE /\ 0 < cf_min_duration (s_config st) /\ 0 < cf_extend (s_config st).
Proof.
  intros H%history_wf%wf_config. unfold config_validate in H.
  apply bind_Ok in H as (?&H1%ensure_Ok&H). apply bind_Ok in H as (?&H2%ensure_Ok&H).
  apply bind_Ok in H as (?&H3%ensure_Ok&H). apply ensure_Ok in H. lia.
Qed.
Lemma execute_config v e s f st m st' msgs : wf st -> execute p lb v e s f st m = Ok (st', msgs) ->
  s_config st' = s_config st /\ s_mins st' = s_mins st /\ s_halt st' = s_halt st.
Proof. intros Hwf H%execute_effect; [|done]. by destruct H. Qed.
Lemma block_config v e st m st' msgs : wf st -> m = BeginBlock \/ m = EndBlock ->
  sudo p lb v e st m = Ok (st', msgs) -> s_config st' = s_config st /\ s_mins st' = s_mins st.
Proof.
  intros Hwf [-> | ->] H.
  - cbn in H. unfold sudo_begin_block in H. apply bind_Ok in H as (?&_&H). cbv zeta in H. apply bind_Ok in H as (ws&_&H).
    by injection H as <- <-.
  - apply end_block_inv in H as (os&ear&HF&->&_&->); [|done].
    destruct (process_config st (due_auctions st (t_seconds (e_time e) + 1) (cf_max_settle (s_config st))) os) as (H1&H2&_).
    by destruct (find_stale_halt_info _ _).
Qed.

(** * The effect of one call on one auction *)
Lemma put_key st k o k' : s_auctions (put st k o) !! k' = if decide (k' = k) then o else s_auctions st !! k'.
Proof.
  cbn. case_decide as E; [subst k'|]; destruct o; try rewrite lookup_insert; try rewrite lookup_delete; try done.
  - by rewrite lookup_insert_ne.
  - by rewrite lookup_delete_ne.
Qed.

(** What can happen to an existing auction in one execute call. *)
Inductive fate_execute (v : view) (e : env) (sender : addr) (funds : list coin) (st : state) (m : msg) (a : auction)
    : option auction -> Prop :=
  | fate_same : fate_execute v e sender funds st m a (Some a)
  | fate_reprice reserve :
      m = UpdateReservePrice (a_coll a) (a_tok a) reserve -> sender = a_seller a -> a_first a = None ->
      fate_execute v e sender funds st m a
        (Some (Auction (a_coll a) (a_tok a) (a_seller a) reserve (a_duration a) (a_end a)
                    (a_recipient a) (a_high a) (a_first a)))
  | fate_cancel : m = CancelAuction (a_coll a) (a_tok a) -> sender = a_seller a -> a_first a = None ->
      fate_execute v e sender funds st m a None
  | fate_bid n a' ms : m = PlaceBid (a_coll a) (a_tok a) -> funds = [Coin (a_denom a) n] ->
      bid_taken e sender (s_config st) a n a' ms -> fate_execute v e sender funds st m a (Some a')
  | fate_settle o em : m = SettleAuction (a_coll a) (a_tok a) ->
      outcome lb v (e_time e) (s_config st) (s_halt st) a o em -> fate_execute v e sender funds st m a o.

Lemma execute_fate v e sender funds st m st' msgs k a :
  wf st -> execute p lb v e sender funds st m = Ok (st', msgs) -> s_auctions st !! k = Some a ->
  fate_execute v e sender funds st m a (s_auctions st' !! k).
Proof.
  intros Hwf H%execute_effect Ha; [|done]. destruct (wf_auction _ _ Hwf _ _ Ha) as [Hk Hok].
  assert (forall coll tok b, s_auctions st !! (coll, tok) = Some b -> (coll, tok) = k -> b = a /\ coll = a_coll a /\ tok = a_tok a) as Hsame.
  { intros coll tok b Hb E. rewrite E in Hb. assert (Some b = Some a) as Eb by (rewrite <-Hb; exact Ha). injection Eb as ->.
    split; [done|]. rewrite <-Hk in E. by injection E. }
  destruct H as [coll tok reserve duration recipient b msgs Hv Hr Ho Hap Hn Ht Hp Hd -> Hfee
    |coll tok reserve b _ Hb Hsel Hf Hp|coll tok b _ Hb Hsel Hf|coll tok b n a' msgs Hb Hfu Hbt|coll tok b o em _ Hb Ho].
  - match goal with |- context [save_auction st ?x] => change (save_auction st x) with (put st (coll, tok) (Some x)) end.
    rewrite put_key. case_decide as E; [|rewrite Ha; constructor]. rewrite E in Ha. exfalso. assert (Some a = None) by (rewrite <-Ha; exact Hn). done.
  - destruct (wf_auction _ _ Hwf _ _ Hb) as [Hkb _].
    match goal with |- context [save_auction st ?x] => change (save_auction st x) with (put st (a_key b) (Some x)) end.
    rewrite put_key, Hkb. case_decide as E; [|rewrite Ha; constructor].
    destruct (Hsame _ _ _ Hb (eq_sym E)) as (->&->&->). by eapply fate_reprice.
  - destruct (wf_auction _ _ Hwf _ _ Hb) as [Hkb _]. change (remove_auction st b) with (put st (a_key b) None).
    rewrite put_key, Hkb. case_decide as E; [|rewrite Ha; constructor].
    destruct (Hsame _ _ _ Hb (eq_sym E)) as (->&->&->). by eapply fate_cancel.
  - destruct (wf_auction _ _ Hwf _ _ Hb) as [Hkb _]. pose proof Hbt as Hbt'. destruct Hbt' as [_ _ _ _ (f&t'&->&_&_)].
    match goal with |- context [save_auction st ?x] => change (save_auction st x) with (put st (a_key b) (Some x)) end.
    rewrite put_key, Hkb. case_decide as E; [|rewrite Ha; constructor].
    destruct (Hsame _ _ _ Hb (eq_sym E)) as (->&->&->). by eapply fate_bid.
  - destruct (wf_auction _ _ Hwf _ _ Hb) as [Hkb _]. rewrite put_key, Hkb.
    case_decide as E; [|rewrite Ha; constructor].
    destruct (Hsame _ _ _ Hb (eq_sym E)) as (->&->&->). by eapply fate_settle.
Qed.

Lemma sudo_fate v e st m st' msgs k a :
  wf st -> sudo p lb v e st m = Ok (st', msgs) -> s_auctions st !! k = Some a ->
  s_auctions st' !! k = Some a \/
  (m = EndBlock /\ exists em, outcome lb v (e_time e) (s_config st) (s_halt st) a (s_auctions st' !! k) em).
Proof.
  intros Hwf H Ha. destruct (wf_auction _ _ Hwf _ _ Ha) as [Hk Hok]. destruct m as [| |u|cs|ds|]; cbn in H.
  - unfold sudo_begin_block in H. apply bind_Ok in H as (?&_&H). cbv zeta in H. apply bind_Ok in H as (ws&_&H). injection H as <- <-. by left.
  - apply end_block_inv in H as (os&ear&HF&->&_&->); [|done].
    set (l := due_auctions st (t_seconds (e_time e) + 1) (cf_max_settle (s_config st))) in *.
    assert (s_auctions match find_stale_halt_info (s_halt st) ear with Some h => set_halt (process st l os) h
              | None => process st l os end = s_auctions (process st l os)) as -> by (by destruct (find_stale_halt_info _ _)).
    destruct (decide (k ∈ (a_key <$> l))) as [Hin|Hout]; [|left; by rewrite process_other].
    right. split; [done|]. apply elem_of_list_fmap in Hin as (b&->&Hb). pose proof (due_stored p st (t_seconds (e_time e) + 1) (cf_max_settle (s_config st)) Hwf) as Hst.
    rewrite Forall_forall in Hst. specialize (Hst b Hb). assert (b = a) as -> by congruence.
    apply elem_of_list_lookup in Hb as [i Hi]. destruct (Forall2_lookup_l _ _ _ _ _ HF Hi) as ([o em]&Ho&Hout).
    cbn [fst snd] in Hout. exists em. rewrite (process_at st l os i a (o, em)); [exact Hout| |exact Hi|exact Ho]. by apply (due_nodup p).
  - unfold sudo_update_params in H. apply bind_Ok in H as (fb&_&H). apply bind_Ok in H as ([]&Hc&H). injection H as <- <-. by left.
  - unfold sudo_set_min_reserve_prices in H. apply bind_Ok in H as (mm&_&H). injection H as <- <-. by left.
  - unfold sudo_unset_min_reserve_prices in H. apply bind_Ok in H as (mm&_&H). injection H as <- <-. by left.
  - injection H as <- <-. by left.
Qed.

(** An auction appears only by [CreateAuction], from nothing. *)
Lemma new_auction v e sender funds st m st' msgs (k : akey) a' :
  wf st -> execute p lb v e sender funds st m = Ok (st', msgs) -> s_auctions st !! k = None ->
  s_auctions st' !! k = Some a' ->
  exists coll tok reserve duration recipient, k = (coll, tok) /\ m = CreateAuction coll tok reserve duration recipient /\
    a' = Auction coll tok sender reserve duration None recipient None None.
Proof.
  intros Hwf H%execute_effect Hn Ha'; [|done].
  destruct H as [coll tok reserve duration recipient b msgs Hv Hr Ho Hap Hn' Ht Hp Hd -> Hfee
    |coll tok reserve b _ Hb Hsel Hf Hp|coll tok b _ Hb Hsel Hf|coll tok b n a msgs Hb Hfu Hbt|coll tok b o em _ Hb Ho].
  - match type of Ha' with context [save_auction st ?x] => change (save_auction st x) with (put st (coll, tok) (Some x)) in Ha' end.
    rewrite put_key in Ha'. case_decide as E; [|by rewrite Hn in Ha']. injection Ha' as <-. subst k. by eauto 10.
  - destruct (wf_auction _ _ Hwf _ _ Hb) as [Hkb _].
    match type of Ha' with context [save_auction st ?x] => change (save_auction st x) with (put st (a_key b) (Some x)) in Ha' end.
    rewrite put_key, Hkb in Ha'. case_decide as E; [|by rewrite Hn in Ha']. subst k. assert (Some b = None) by (rewrite <-Hn; symmetry; exact Hb). done.
  - destruct (wf_auction _ _ Hwf _ _ Hb) as [Hkb _]. change (remove_auction st b) with (put st (a_key b) None) in Ha'.
    rewrite put_key, Hkb in Ha'. case_decide as E; [done|by rewrite Hn in Ha'].
  - destruct (wf_auction _ _ Hwf _ _ Hb) as [Hkb _]. destruct Hbt as [_ _ _ _ (f&t'&->&_&_)].
    match type of Ha' with context [save_auction st ?x] => change (save_auction st x) with (put st (a_key b) (Some x)) in Ha' end.
    rewrite put_key, Hkb in Ha'. case_decide as E; [|by rewrite Hn in Ha']. subst k. assert (Some b = None) by (rewrite <-Hn; symmetry; exact Hb). done.
  - destruct (wf_auction _ _ Hwf _ _ Hb) as [Hkb _]. rewrite put_key, Hkb in Ha'.
    case_decide as E; [|by rewrite Hn in Ha']. subst k. assert (Some b = None) by (rewrite <-Hn; symmetry; exact Hb). done.
Qed.
Lemma new_auction_sudo v e st m st' msgs k :
  wf st -> sudo p lb v e st m = Ok (st', msgs) -> s_auctions st !! k = None -> s_auctions st' !! k = None.
Proof.
  intros Hwf H Hn. destruct (s_auctions st' !! k) as [a|] eqn:E; [|done]. exfalso.
  assert (forall k, is_Some (s_auctions st' !! k) -> is_Some (s_auctions st !! k)) as Hd.
  { clear -Hwf H. intros k Hk. destruct m as [| |u|cs|ds|]; cbn in H.
    - unfold sudo_begin_block in H. apply bind_Ok in H as (?&_&H). cbv zeta in H. apply bind_Ok in H as (ws&_&H). by injection H as <- <-.
    - apply end_block_inv in H as (os&ear&HF&->&_&->); [|done]. eapply process_dom; [by apply (due_stored p)|exact HF|].
      by destruct (find_stale_halt_info _ _).
    - unfold sudo_update_params in H. apply bind_Ok in H as (fb&_&H). apply bind_Ok in H as ([]&Hc&H). by injection H as <- <-.
    - unfold sudo_set_min_reserve_prices in H. apply bind_Ok in H as (mm&_&H). by injection H as <- <-.
    - unfold sudo_unset_min_reserve_prices in H. apply bind_Ok in H as (mm&_&H). by injection H as <- <-.
    - by injection H as <- <-. }
  destruct (Hd k) as [x Hx]; [by rewrite E|]. congruence.
Qed.
End Reach.
