(** What the reserve auction holds beyond its books stays with it for ever. *)
From stdpp Require Import relations.
From Verif Require Import Base Common Chain BaseFacts ChainFacts RAModel RASpec RAFacts RAInv RAReach.

Section Locked.
Context (p : params) (lb : lib).

Lemma step_solvent_any pend w w' : ra_step p lb w w' -> solvent p liab (wf p) pend w -> solvent p liab (wf p) pend w'.
Proof.
  assert (forall v e s f st m st' msgs, s <> p_self p -> wf p st ->
            execute p lb v e s f st m = Ok (st', msgs) -> wf p st') as HI by (intros; by eapply wf_execute).
  assert (forall v e s f st m st' msgs d, s <> p_self p -> wf p st ->
            execute p lb v e s f st m = Ok (st', msgs) -> liab st' d + out msgs d <= liab st d + amt f d) as HL.
  { intros. by eapply execute_liab. }
  destruct (exec_solvent p (execute p lb) liab (wf p) HI HL) as (H1&H2&H3).
  destruct 1 as [s f m w w' H|w w' H|w h t|m w st' msgs w' Hs H]; intros Hsol.
  - by eapply H1.
  - destruct Hsol as [Hi Hb]. split; [by rewrite (env_step_st _ _ _ H)|]. intros d.
    rewrite (env_step_st _ _ _ H). etrans; [apply Hb|]. by apply env_step_bank.
  - done.
  - eapply H2; [done|]. destruct Hsol as [Hi Hb]. split; [by eapply wf_sudo|]. intros d. cbn.
    pose proof (sudo_liab p lb _ _ _ _ _ _ d Hi Hs). specialize (Hb d). lia.
Qed.
Lemma surplus_kept w w' d : ra_reachable p lb w -> rtc (ra_step p lb) w w' ->
  w_bank w (p_self p) d + high_total (w_st w') d <= w_bank w' (p_self p) d + high_total (w_st w) d.
Proof.
  intros Hr H. rewrite !high_total_liab. destruct (reachable_solvent _ _ _ Hr) as [Hi Hb].
  set (pend := fun d => w_bank w (p_self p) d - liab (w_st w) d).
  assert (solvent p liab (wf p) pend w) as Hs.
  { split; [done|]. intros d'. specialize (Hb d'). unfold pend. lia. }
  assert (solvent p liab (wf p) pend w') as [_ Hs'].
  { clear Hr Hi Hb. clearbody pend. induction H as [|w0 w1 w Hst _ IH]; [done|]. apply IH. by eapply step_solvent_any. }
  specialize (Hs' d). specialize (Hb d). unfold pend in Hs'. lia.
Qed.

Lemma step_custody_any P w w' : ra_step p lb w w' -> custody p held (wf p) P w -> custody p held (wf p) P w'.
Proof.
  assert (forall v e s f st m st' msgs, s <> p_self p -> wf p st ->
            execute p lb v e s f st m = Ok (st', msgs) -> wf p st') as HI by (intros; by eapply wf_execute).
  assert (forall v e s f st m st' msgs, s <> p_self p -> wf p st ->
            execute p lb v e s f st m = Ok (st', msgs) ->
            single_move p held st st' v msgs \/ releases p held st st' msgs) as HL.
  { intros. by eapply execute_custody. }
  destruct (exec_custody p (execute p lb) held (wf p) HI HL) as (H1&H2&H3).
  destruct 1 as [s f m w w' H|w w' H|w h t|m w st' msgs w' Hs H]; intros Hc.
  - by eapply H1.
  - eapply H3; [|done]. eapply adv_env; [done|constructor].
  - done.
  - eapply H2; [done|]. left. destruct Hc as (Hi&Hn&Hh&HP).
    destruct (sudo_custody p lb _ _ _ _ _ _ Hi Hs) as (R1&R2&R3). split_and!; [split_and!|done|].
    + by eapply wf_sudo.
    + exact Hn.
    + intros c t Hhon Hheld. cbn. apply Hh; [done|]. by apply R3.
    + intros c t Hpc. destruct (HP _ _ Hpc) as (E1&E2&E3). split_and!; [done|exact E2|].
      intros Hheld. apply E3. by apply R3.
    + intros c t Hin. destruct (R2 c t Hin) as [Hb Ha]. split_and!; [|done|].
      * cbn. apply Hh; [|done]. by eapply honest_out_honest.
      * intros Hpc. by destruct (HP _ _ Hpc) as (_&_&E3).
Qed.
Lemma nft_locked w w' c t : ra_reachable p lb w -> rtc (ra_step p lb) w w' ->
  p_honest p c = true -> w_nft w c t = Some (p_self p) -> ~ held (w_st w) c t ->
  w_nft w' c t = Some (p_self p) /\ ~ held (w_st w') c t.
Proof.
  intros Hr H Hh Ho Hn. destruct (reachable_custody _ _ _ Hr) as (Hi&Hw&Hc&_).
  set (P := fun c' t' => c' = c /\ t' = t).
  assert (custody p held (wf p) P w) as Hs.
  { split_and!; [done..|]. intros c' t' [-> ->]. done. }
  assert (custody p held (wf p) P w') as (_&_&_&Hs').
  { clear Hr Hi Hw Hc Ho Hn. clearbody P. induction H as [|w0 w1 w Hst _ IH]; [done|]. apply IH. by eapply step_custody_any. }
  apply (Hs' c t). done.
Qed.
End Locked.
