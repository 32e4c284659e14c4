(** What marketplace v2 holds beyond its books stays with it for ever. *)
From stdpp Require Import relations.
From Verif Require Import Base Common Chain BaseFacts ChainFacts V2Model V2Spec V2Facts V2Inv V2Match V2Sale V2Trade V2Reach.

Section Locked.
Context (p : params).

Lemma exec_solvent_any pend w w' : v2_step p w w' -> solvent p liab (wf p) pend w -> solvent p liab (wf p) pend w'.
Proof.
  assert (forall v e s f st m st' msgs, s <> p_self p -> wf p st ->
            execute p v e s f st m = Ok (st', msgs) -> wf p st') as HI by (intros; by eapply wf_execute).
  assert (forall v e s f st m st' msgs d, s <> p_self p -> wf p st ->
            execute p v e s f st m = Ok (st', msgs) -> liab st' d + out msgs d <= liab st d + amt f d) as HL.
  { intros. by eapply execute_liab. }
  destruct (exec_solvent p (execute p) liab (wf p) HI HL) as (H1&H2&H3).
  destruct 1 as [s f m w w' H|w w' H|w h t|m w st' msgs w' Hs H]; intros Hsol.
  - by eapply H1.
  - destruct Hsol as [Hi Hb]. split; [by rewrite (env_step_st _ _ _ H)|]. intros d.
    rewrite (env_step_st _ _ _ H). etrans; [apply Hb|]. by apply env_step_bank.
  - done.
  - unfold v2_sudo, migrate in Hs. cbn in Hs. injection Hs as <- <-. eapply H2; [done|].
    destruct Hsol as [Hi Hb]. split; [done|]. intros d. specialize (Hb d). cbn. lia.
Qed.
Lemma surplus_kept w w' d : reachable p w -> rtc (v2_step p) w w' ->
  w_bank w (p_self p) d + escrow (w_st w') d <= w_bank w' (p_self p) d + escrow (w_st w) d.
Proof.
  intros Hr H. rewrite !escrow_liab. destruct (reachable_solvent _ _ Hr) as [Hi Hb].
  set (pend := fun d => w_bank w (p_self p) d - liab (w_st w) d).
  assert (solvent p liab (wf p) pend w) as Hs.
  { split; [done|]. intros d'. specialize (Hb d'). unfold pend. lia. }
  assert (solvent p liab (wf p) pend w') as [_ Hs'].
  { clear Hr Hi Hb. clearbody pend. induction H as [|w0 w1 w Hst _ IH]; [done|]. apply IH. by eapply exec_solvent_any. }
  specialize (Hs' d). specialize (Hb d). unfold pend in Hs'. lia.
Qed.

Lemma step_custody_any P w w' : p_reg_reenters p = false -> v2_step p w w' ->
  custody p held (wf p) P w -> custody p held (wf p) P w'.
Proof.
  intros Hreg.
  assert (forall v e s f st m st' msgs, s <> p_self p -> wf p st ->
            execute p v e s f st m = Ok (st', msgs) -> wf p st') as HI by (intros; by eapply wf_execute).
  assert (forall v e s f st m st' msgs, s <> p_self p -> wf p st ->
            execute p v e s f st m = Ok (st', msgs) ->
            single_move p held st st' v msgs \/ releases p held st st' msgs) as HL.
  { intros. eapply custody_effect; eauto using execute_effect. }
  destruct (exec_custody p (execute p) held (wf p) HI HL) as (H1&H2&H3).
  destruct 1 as [s f m w w' H|w w' H|w h t|m w st' msgs w' Hs H]; intros Hc.
  - by eapply H1.
  - eapply H3; [|done]. eapply adv_env; [done|constructor].
  - done.
  - unfold v2_sudo, migrate in Hs. cbn in Hs. injection Hs as <- <-. eapply H2; [done|].
    left. split_and!; [by destruct w|constructor|]. intros ? ? Hin. by apply elem_of_nil in Hin.
Qed.
Lemma nft_locked w w' c t : p_reg_reenters p = false -> reachable p w -> rtc (v2_step p) w w' ->
  p_honest p c = true -> w_nft w c t = Some (p_self p) -> ~ held (w_st w) c t ->
  w_nft w' c t = Some (p_self p) /\ ~ held (w_st w') c t.
Proof.
  intros Hreg Hr H Hh Ho Hn. destruct (reachable_custody _ _ Hreg Hr) as (Hi&Hw&Hc&_).
  set (P := fun c' t' => c' = c /\ t' = t).
  assert (custody p held (wf p) P w) as Hs.
  { split_and!; [done..|]. intros c' t' [-> ->]. done. }
  assert (custody p held (wf p) P w') as (_&_&_&Hs').
  { clear Hr Hi Hw Hc Ho Hn. clearbody P. induction H as [|w0 w1 w Hst _ IH]; [done|]. apply IH. by eapply step_custody_any. }
  apply (Hs' c t). done.
Qed.
End Locked.
