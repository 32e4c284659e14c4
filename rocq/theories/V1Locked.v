(** What marketplace v1 holds beyond its books stays with it for ever.  It holds no NFTs for anybody. *)
From stdpp Require Import relations pretty.
From Verif Require Import Base Common Chain BaseFacts ChainFacts SaleFacts Plain V1Model V1Spec V1Facts V1Inv V1Reach.

Section Locked.
Context (p : params) (x : ext).

Lemma step_solvent_any pend w w' : v1_step p x w w' -> solvent p liab (wf p) pend w -> solvent p liab (wf p) pend w'.
Proof.
  destruct (v1_exec_solvent p x) as (H1&H2&H3).
  destruct 1 as [s f m w w' H|w w' H|w h t|m w st' msgs w' Hs H]; intros Hsol.
  - by eapply H1.
  - destruct Hsol as [Hi Hb]. split; [by rewrite (env_step_st _ _ _ H)|]. intros d.
    rewrite (env_step_st _ _ _ H). etrans; [apply Hb|]. by apply env_step_bank.
  - done.
  - eapply H2; [done|]. destruct Hsol as [Hi Hb]. split; [by eapply wf_sudo|]. intros d. cbn.
    destruct (sudo_orders _ _ _ _ _ _ _ Hs) as (_&Eb&Ec&->). specialize (Hb d). unfold liab in *. rewrite Eb, Ec. cbn. lia.
Qed.
Lemma owed_kept w w' : v1_reachable p x w -> rtc (v1_step p x) w w' -> forall d,
  w_bank w (p_self p) d + liab (w_st w') d <= w_bank w' (p_self p) d + liab (w_st w) d.
Proof.
  intros Hr H d. destruct (reachable_solvent _ _ _ Hr) as [Hi Hb].
  set (pend := fun d => w_bank w (p_self p) d - liab (w_st w) d).
  assert (solvent p liab (wf p) pend w) as Hs.
  { split; [done|]. intros d'. specialize (Hb d'). unfold pend. lia. }
  assert (solvent p liab (wf p) pend w') as [_ Hs'].
  { clear Hr Hi Hb. clearbody pend. induction H as [|w0 w1 w Hst _ IH]; [done|]. apply IH. by eapply step_solvent_any. }
  specialize (Hs' d). specialize (Hb d). unfold pend in Hs'. lia.
Qed.

Lemma esc_other {K} `{Countable K} {A} (price : A -> N) (m : gmap K A) d : d <> "ustars" -> esc (fun y => native (price y)) m d = 0.
Proof.
  intros Hd. induction m as [|k y m Hk IH] using map_ind; [apply esc_empty|].
  rewrite esc_insert_new, IH by done. rewrite amt_native. by rewrite bool_decide_eq_false_2 by done.
Qed.
Lemma surplus_kept w w' : v1_reachable p x w -> rtc (v1_step p x) w w' ->
  (w_bank w (p_self p) "ustars" + (bids_total (w_st w') + cbids_total (w_st w')) <=
   w_bank w' (p_self p) "ustars" + (bids_total (w_st w) + cbids_total (w_st w))) /\
  (forall d, d <> "ustars" -> w_bank w (p_self p) d <= w_bank w' (p_self p) d).
Proof.
  intros Hr H. pose proof (owed_kept _ _ Hr H) as Ho. split.
  - specialize (Ho "ustars"). by rewrite !liab_total in Ho.
  - intros d Hd. specialize (Ho d). unfold liab, b_coin, cb_coin in Ho. rewrite !esc_other in Ho by done. lia.
Qed.

Definition nothing (_ : state) (_ : addr) (_ : token) : Prop := False.
Lemma no_out (ms : list cmsg) : (forall c t to, MNft c t to ∉ ms) -> honest_out p ms = [].
Proof.
  intros H. destruct (honest_out p ms) as [|[c t] l] eqn:E; [done|]. exfalso.
  assert ((c, t) ∈ honest_out p ms) as (m&Hm&Ho)%elem_of_list_omap by (rewrite E; left).
  destruct m; try discriminate Ho. by apply H in Hm.
Qed.
Lemma effect_moves v e s f st m st' ms : s <> p_self p -> wf p st -> effect p x v e s f st m st' ms ->
  single_move p nothing st st' v (map erase ms) \/ releases p nothing st st' (map erase ms).
Proof.
  intros Hs Hw H.
  assert (forall ms, honest_out p ms = [] -> releases p nothing st st' ms) as Hrel.
  { intros ms0 E. split_and!; [rewrite E; constructor| |by intros ? ? _ []]. intros c t. rewrite E. by intros ?%elem_of_nil. }
  assert (forall pre c tok to hs seller, Forall (quiet p) pre -> owns v seller c tok -> seller <> p_self p ->
    single_move p nothing st st' v (pre ++ [MNft c (pretty tok) to] ++ hook_msgs hs) \/
    releases p nothing st st' (pre ++ [MNft c (pretty tok) to] ++ hook_msgs hs)) as Hone.
  { intros pre c tok to hs seller Hq Ho Hne.
    assert (honest_out p (hook_msgs hs) = []) as Hh by (apply no_out; intros; apply hooks_no_nft).
    destruct (p_honest p c) eqn:Ec.
    - left. exists c, (pretty tok), to, pre, (hook_msgs hs). split_and!; try done.
      right. unfold owns in Ho. rewrite Ho. by intros [= ?].
    - right. apply Hrel. rewrite !honest_out_app, Hh, app_nil_r.
      assert (honest_out p pre = []) as ->.
      { apply no_out. intros c' t' to' Hin. rewrite Forall_forall in Hq. by apply Hq in Hin. }
      unfold honest_out. cbn. by rewrite Ec. }
  assert (forall sp finder to, Forall (quiet p) (split_msgs x sp finder to)) as Hsp.
  { intros sp finder to. unfold split_msgs. repeat apply Forall_app_2.
    - destruct (_ && _); [constructor|]. constructor; [exact I|constructor].
    - destruct finder; [|constructor]. destruct (_ =? _); [constructor|]. constructor; [exact I|constructor].
    - destruct (x_royalty sp) as [[? ?]|]; [|constructor]. constructor; [exact I|constructor].
    - constructor; [exact I|constructor]. }
  assert (forall coll tok w, Forall (quiet p) (refund_of st coll tok w)) as Hrf.
  { intros. unfold refund_of. destruct (s_bids _ !! _); [|constructor]. constructor; [exact I|constructor]. }
  destruct H.
  5: { rewrite ?map_app, ?erase_plain; unfold sold_smsgs, sale_hooks; rewrite ?erase_hooks;
       change (map SPlain) with plain_msgs; rewrite ?erase_plain.
       rewrite <-(app_assoc _ [_] _), app_assoc. apply Hone with (k_seller a); [|done|].
       - apply Forall_app_2; [apply Hrf|apply Hsp].
       - by destruct (wf_ask _ _ Hw _ _ H1) as (_&_&?&_). }
  6: { rewrite ?map_app, ?erase_plain; unfold sold_smsgs, sale_hooks; rewrite ?erase_hooks;
       change (map SPlain) with plain_msgs; rewrite ?erase_plain.
       rewrite <-app_assoc. by apply Hone with s. }
  9: { rewrite ?map_app, ?erase_plain; unfold sold_smsgs, sale_hooks; rewrite ?erase_hooks;
       change (map SPlain) with plain_msgs; rewrite ?erase_plain.
       rewrite <-app_assoc. by apply Hone with s. }
  all: right; apply Hrel, no_out; intros c0 t0 who Hin.
  all: rewrite ?map_app, ?erase_plain in Hin; rewrite ?elem_of_app in Hin;
    repeat match type of Hin with _ \/ _ => destruct Hin as [Hin|Hin] end;
    try (unfold ask_hooks, bid_hooks, cbid_hooks, sale_hooks in Hin; rewrite erase_hooks in Hin; by apply hooks_no_nft in Hin);
    try (by apply refund_no_nft in Hin); try (by apply elem_of_list_singleton in Hin).
  - destruct (fee =? 0); [by apply elem_of_nil in Hin|]. by apply elem_of_list_singleton in Hin.
  - destruct (s_cbids st !! (coll, s)); [by apply elem_of_list_singleton in Hin|by apply elem_of_nil in Hin].
  - apply elem_of_cons in Hin as [?|Hin]; [done|]. by apply elem_of_list_singleton in Hin.
  - apply elem_of_cons in Hin as [?|Hin]; [done|]. by apply elem_of_list_singleton in Hin.
Qed.

Lemma step_custody_any P w w' : v1_step p x w w' -> custody p nothing (wf p) P w -> custody p nothing (wf p) P w'.
Proof.
  assert (forall v e s f st m st' msgs, s <> p_self p -> wf p st ->
            execute p x v e s f st m = Ok (st', msgs) -> wf p st') as HI by (intros; by eapply wf_execute).
  assert (forall v e s f st m st' msgs, s <> p_self p -> wf p st ->
            execute p x v e s f st m = Ok (st', msgs) ->
            single_move p nothing st st' v msgs \/ releases p nothing st st' msgs) as HL.
  { intros v e s f st m st' msgs Hs Hw H. unfold execute in H. apply bind_Ok in H as ([st1 ms]&H&Hr). injection Hr as <- <-.
    eapply effect_moves; [done|done|]. by eapply execute_effect. }
  destruct (exec_custody p (execute p x) nothing (wf p) HI HL) as (H1&H2&H3).
  destruct 1 as [s f m w w' H|w w' H|w h t|m w st' msgs w' Hs H]; intros Hc.
  - by eapply H1.
  - eapply H3; [|done]. eapply adv_env; [done|constructor].
  - done.
  - eapply H2; [done|]. left. destruct Hc as (Hi&Hn&Hh&HP).
    destruct (sudo_orders _ _ _ _ _ _ _ Hs) as (_&_&_&->). split_and!; [split_and!| |].
    + by eapply wf_sudo.
    + exact Hn.
    + by intros c t _ [].
    + exact HP.
    + constructor.
    + intros c t Hin. by apply elem_of_nil in Hin.
Qed.
Lemma nft_locked w w' c t : v1_reachable p x w -> rtc (v1_step p x) w w' ->
  p_honest p c = true -> w_nft w c t = Some (p_self p) -> w_nft w' c t = Some (p_self p).
Proof.
  intros Hr H Hh Ho. pose proof (reachable_wf _ _ _ Hr) as Hi.
  set (P := fun c' t' => c' = c /\ t' = t).
  assert (custody p nothing (wf p) P w) as Hs.
  { split_and!; [done| |by intros ? ? _ []|].
    - destruct Hr as (w0&[(m&Hm) Hn]&Hsteps).
      assert (custody p nothing (wf p) (fun _ _ => False) w) as (_&?&_); [|done].
      assert (custody p nothing (wf p) (fun _ _ => False) w0) as H0.
      { split_and!; [by eapply wf_instantiate|done|by intros ? ? _ []|by intros ? ? []]. }
      clear H Hi Hm Hn Ho P. induction Hsteps as [|w1 w2 w Hst _ IH]; [done|]. apply IH. by eapply step_custody_any.
    - intros c' t' [-> ->]. split_and!; [done..|]. by intros []. }
  assert (custody p nothing (wf p) P w') as (_&_&_&Hs').
  { clear Hr Hi Ho. clearbody P. induction H as [|w0 w1 w Hst _ IH]; [done|]. apply IH. by eapply step_custody_any. }
  by apply (Hs' c t).
Qed.
End Locked.
