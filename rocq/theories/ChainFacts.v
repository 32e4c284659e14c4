(** Generic facts about the chain semantics: solvency and custody transfer from handler-level conditions to all
    executions, including re-entrant ones. *)
From Verif Require Import Base Common Chain BaseFacts.

Lemma covers_spec b a cs : covers b a cs = true <-> forall d, amt cs d <= b a d.
Proof.
  unfold covers. rewrite forallb_forall. split.
  - intros H d. destruct (decide (d ∈ c_denom <$> cs)) as [Hc|Hn].
    + apply elem_of_list_fmap in Hc as (c&->&Hc). apply elem_of_list_In, H in Hc. lia.
    + rewrite amt_notin; [lia|]. intros c Hc Hd. apply Hn. rewrite <-Hd.
      apply elem_of_list_In, in_map, Hc.
  - intros H c _. specialize (H (c_denom c)). lia.
Qed.

(** Coins leaving the contract in a list of messages. *)
Definition out_one (m : cmsg) (d : denom) : N :=
  match m with
  | MSend _ cs => amt cs d
  | MFairBurn c => amt [c] d
  | _ => 0
  end.
Fixpoint out (ms : list cmsg) (d : denom) : N :=
  match ms with [] => 0 | m :: ms => out_one m d + out ms d end.

Lemma out_app ms1 ms2 d : out (ms1 ++ ms2) d = out ms1 d + out ms2 d.
Proof. induction ms1 as [|m ms1 IH]; cbn; lia. Qed.

Section Bank.
Lemma bank_move_self_in b from self cs d :
  from <> self -> bank_move b from self cs self d = b self d + amt cs d.
Proof.
  intros H. unfold bank_move, bank_add, bank_sub.
  rewrite bool_decide_eq_true_2 by done. rewrite bool_decide_eq_false_2 by done. done.
Qed.
Lemma bank_move_out_ge b self to cs d :
  b self d - amt cs d <= bank_move b self to cs self d.
Proof.
  unfold bank_move, bank_add, bank_sub. rewrite (bool_decide_eq_true_2 (self = self)) by done.
  case_bool_decide; lia.
Qed.
End Bank.

Section EnvFacts.
Context {S : Type} (p : params).
Implicit Types w : world S.

Lemma env_step_st w w' : env_step p w w' -> w_st w' = w_st w.
Proof. by destruct 1. Qed.
Lemma env_step_bank w w' d : env_step p w w' -> w_bank w (p_self p) d <= w_bank w' (p_self p) d.
Proof. destruct 1; cbn; try lia. auto. Qed.
Lemma env_steps_st w w' : rtc (env_step p) w w' -> w_st w' = w_st w.
Proof. induction 1; [done|]. etrans; [done|]. by apply env_step_st. Qed.
Lemma env_steps_bank w w' d : rtc (env_step p) w w' -> w_bank w (p_self p) d <= w_bank w' (p_self p) d.
Proof. induction 1; [done|]. etrans; [by apply env_step_bank|done]. Qed.

(** The contract never grants approvals, so nobody else can move what it owns. *)
Definition nft_wf w : Prop :=
  (forall c t x, w_nft w c t = Some (p_self p) -> w_appr w c t x = false) /\
  (forall c x, w_oper w c (p_self p) x = false).

Lemma can_transfer_self_owned w c t who :
  nft_wf w -> w_nft w c t = Some (p_self p) -> can_transfer w c t who = true -> who = p_self p.
Proof.
  intros [H1 H2] H. unfold can_transfer. rewrite H, H1, H2 by done. rewrite !orb_false_r.
  intros ?%bool_decide_eq_true. done.
Qed.

Lemma nft_transfer_owner w c t to c' t' :
  w_nft (nft_transfer w c t to) c' t' = if bool_decide (c' = c /\ t' = t) then Some to else w_nft w c' t'.
Proof. done. Qed.

Lemma nft_transfer_wf w c t to : nft_wf w -> nft_wf (nft_transfer w c t to).
Proof.
  intros [H1 H2]. split; cbn; [|done]. intros c' t' x. case_bool_decide; [done|]. apply H1.
Qed.

Lemma env_step_wf w w' : env_step p w w' -> nft_wf w -> nft_wf w'.
Proof.
  intros He Hw. pose proof Hw as [H1 H2].
  destruct He as [| |w c t who to|w c t to|w c t who|w c t who o spender b Ho Hs Hw'|w c who op b].
  - split; cbn; auto.
  - split; cbn; auto.
  - by apply nft_transfer_wf.
  - by apply nft_transfer_wf.
  - split; cbn; [|done]. intros c' t' x. case_bool_decide; [done|]. apply H1.
  - split; cbn; [|done]. intros c' t' x Hc. case_bool_decide as E; [|by apply H1].
    destruct E as (->&->&->). rewrite Ho in Hc. injection Hc as ->.
    destruct Hw' as [->|Hw']; [done|]. by rewrite H2 in Hw'.
  - split; cbn; [done|]. intros c' x. case_bool_decide as E; [|by apply H2].
    destruct E as (->&E&->). by symmetry in E.
Qed.

(** What the contract owns stays with it while others act. *)
Lemma env_step_keeps w w' c t :
  env_step p w w' -> nft_wf w -> w_nft w c t = Some (p_self p) -> w_nft w' c t = Some (p_self p).
Proof.
  intros He Hw Ho. destruct He as [| |w c' t' who to Hs Hc|w c' t' to Hn|w c' t' who Hs Hc| |]; cbn; auto.
  - case_bool_decide as E; [|done]. destruct E as [-> ->].
    by apply can_transfer_self_owned in Hc.
  - case_bool_decide as E; [|done]. destruct E as [-> ->]. by rewrite Ho in Hn.
  - case_bool_decide as E; [|done]. destruct E as [-> ->].
    by apply can_transfer_self_owned in Hc.
Qed.

Lemma env_steps_wf w w' : rtc (env_step p) w w' -> nft_wf w -> nft_wf w'.
Proof. induction 1; eauto using env_step_wf. Qed.
Lemma env_steps_keeps w w' c t :
  rtc (env_step p) w w' -> nft_wf w -> w_nft w c t = Some (p_self p) -> w_nft w' c t = Some (p_self p).
Proof. induction 1; eauto using env_step_wf, env_step_keeps. Qed.
End EnvFacts.

Section Exec.
Context {S M : Type} (p : params).
Context (handler : view -> env -> addr -> list coin -> S -> M -> result (S * list cmsg)).
Implicit Types w : world S.

(** One handler run seen from the storage. *)
Definition hstep (st st' : S) : Prop :=
  exists v e sender funds m msgs, sender <> p_self p /\ handler v e sender funds st m = Ok (st', msgs).

Lemma exec_hsteps :
  (forall s f m w w', texec p handler s f m w w' -> rtc hstep (w_st w) (w_st w')) /\
  (forall w ms w', dispatch p handler w ms w' -> rtc hstep (w_st w) (w_st w')) /\
  (forall w w', adv p handler w w' -> rtc hstep (w_st w) (w_st w')).
Proof.
  apply exec_mutind; intros; cbn in *; try (by eauto using rtc_l, rtc_refl, rtc_transitive).
  - eapply rtc_l; [|eassumption]. unfold hstep. eauto 10.
  - apply env_steps_st in r0. congruence.
  - apply env_step_st in e. congruence.
Qed.

(** ** Solvency *)
Section Solvency.
Context (liab : S -> denom -> N) (Inv : S -> Prop).
Context (HInv : forall v e sender funds st m st' msgs,
  sender <> p_self p -> Inv st -> handler v e sender funds st m = Ok (st', msgs) -> Inv st').
Context (HLiab : forall v e sender funds st m st' msgs d,
  sender <> p_self p -> Inv st -> handler v e sender funds st m = Ok (st', msgs) ->
  liab st' d + out msgs d <= liab st d + amt funds d).

Definition solvent (pend : denom -> N) w : Prop :=
  Inv (w_st w) /\ forall d, liab (w_st w) d + pend d <= w_bank w (p_self p) d.

Lemma exec_solvent :
  (forall s f m w w', texec p handler s f m w w' -> forall pend, solvent pend w -> solvent pend w') /\
  (forall w ms w', dispatch p handler w ms w' ->
     forall pend, solvent (fun d => pend d + out ms d) w -> solvent pend w') /\
  (forall w w', adv p handler w w' -> forall pend, solvent pend w -> solvent pend w').
Proof.
  apply exec_mutind.
  - intros sender funds m w st' msgs w' Hs Hc Hh Hd IH pend [Hi Hb]. apply IH.
    split; cbn; [by eapply HInv|]. intros d.
    rewrite bank_move_self_in by done.
    pose proof (HLiab _ _ _ _ _ _ _ _ d Hs Hi Hh). specialize (Hb d). lia.
  - intros w pend [Hi Hb]. split; [done|]. intros d. specialize (Hb d). cbn in Hb. lia.
  - intros w to cs ms w' Hok Hc Hd IH pend [Hi Hb]. apply IH. split; [done|]. intros d.
    pose proof (bank_move_out_ge (w_bank w) (p_self p) to cs d). specialize (Hb d). cbn in *.
    apply covers_spec with (d := d) in Hc. lia.
  - intros w c t to ms w' _ _ _ _ IH pend [Hi Hb]. apply IH. split; [done|]. intros d.
    specialize (Hb d). cbn in *. lia.
  - intros w c t to ms w1 w' _ _ _ IH1 _ IH2 pend [Hi Hb]. apply IH2, IH1. split; [done|]. intros d.
    specialize (Hb d). cbn in *. lia.
  - intros w r c ms w1 w' _ He _ IH pend [Hi Hb]. apply IH. split.
    + by rewrite (env_steps_st _ _ _ He).
    + intros d. rewrite (env_steps_st _ _ _ He). pose proof (env_steps_bank _ _ _ d He).
      specialize (Hb d). cbn in *. lia.
  - intros w r c ms w1 w' _ _ IH1 _ IH2 pend [Hi Hb]. apply IH2, IH1. split; [done|]. intros d.
    specialize (Hb d). cbn in *. lia.
  - intros w c ms w' Hp Hc Hd IH pend [Hi Hb]. apply IH. split; [done|]. intros d.
    specialize (Hb d). cbn [w_bank set_bank out out_one w_st] in *. unfold bank_sub.
    rewrite bool_decide_eq_true_2 by done. apply covers_spec with (d := d) in Hc. lia.
  - intros w h ms w1 w' _ IH1 _ IH2 pend [Hi Hb]. apply IH2, IH1. split; [done|]. intros d.
    specialize (Hb d). cbn in *. lia.
  - intros w pend H. done.
  - intros w w1 w' He _ IH pend [Hi Hb]. apply IH. split.
    + by rewrite (env_step_st _ _ _ He).
    + intros d. rewrite (env_step_st _ _ _ He). etrans; [apply Hb|]. by apply env_step_bank.
  - intros sender funds m w w1 w' _ IH1 _ IH2 pend H. apply IH2, IH1, H.
Qed.
End Solvency.

(** ** Custody *)
Section Custody.
Context (held : S -> addr -> token -> Prop) (Inv : S -> Prop).

(** Messages that cannot run foreign code. *)
Definition quiet (m : cmsg) : Prop :=
  match m with
  | MSend _ _ | MFairBurn _ => True
  | MRegInit _ _ => p_reg_reenters p = false
  | _ => False
  end.

(** The NFT transfers of standard collections in a message list. *)
Definition honest_out (ms : list cmsg) : list (addr * token) :=
  omap (fun m => match m with
                 | MNft c t _ => if p_honest p c then Some (c, t) else None
                 | _ => None
                 end) ms.

(** A response that moves a single standard NFT, with no foreign code before the move. *)
Definition single_move (st st' : S) (v : view) (msgs : list cmsg) : Prop :=
  exists c t to pre post,
    msgs = pre ++ MNft c t to :: post /\ p_honest p c = true /\ Forall quiet pre /\ honest_out post = [] /\
    (held st c t \/ q_owner v c t <> Some (p_self p)) /\
    (forall c' t', p_honest p c' = true -> held st' c' t' ->
       (c' = c /\ t' = t /\ to = p_self p) \/ (held st c' t' /\ ~ (c' = c /\ t' = t))).

(** A response that only releases NFTs that were held. *)
Definition releases (st st' : S) (msgs : list cmsg) : Prop :=
  NoDup (honest_out msgs) /\
  (forall c t, (c, t) ∈ honest_out msgs -> held st c t /\ ~ held st' c t) /\
  (forall c t, p_honest p c = true -> held st' c t -> held st c t).

Context (HInv : forall v e sender funds st m st' msgs,
  sender <> p_self p -> Inv st -> handler v e sender funds st m = Ok (st', msgs) -> Inv st').
Context (HShape : forall v e sender funds st m st' msgs,
  sender <> p_self p -> Inv st -> handler v e sender funds st m = Ok (st', msgs) ->
  single_move st st' v msgs \/ releases st st' msgs).

(** [P]: NFTs whose release is pending in an enclosing response. *)
Definition custody (P : addr -> token -> Prop) w : Prop :=
  Inv (w_st w) /\ nft_wf p w /\
  (forall c t, p_honest p c = true -> held (w_st w) c t -> w_nft w c t = Some (p_self p)) /\
  (forall c t, P c t -> p_honest p c = true /\ w_nft w c t = Some (p_self p) /\ ~ held (w_st w) c t).

Lemma honest_out_app ms1 ms2 : honest_out (ms1 ++ ms2) = honest_out ms1 ++ honest_out ms2.
Proof. apply omap_app. Qed.
Lemma honest_out_honest ms c t : (c, t) ∈ honest_out ms -> p_honest p c = true.
Proof.
  unfold honest_out. rewrite elem_of_list_omap. intros (m&_&Hm). destruct m; try discriminate.
  destruct (p_honest p coll) eqn:E; [|discriminate]. by injection Hm as <- <-.
Qed.

(** Dispatch of a pure release list. *)
Definition rel_pre (P : addr -> token -> Prop) w ms : Prop :=
  custody P w /\ NoDup (honest_out ms) /\
  (forall c t, (c, t) ∈ honest_out ms ->
     w_nft w c t = Some (p_self p) /\ ~ held (w_st w) c t /\ ~ P c t).

(** Dispatch of a single-move list. *)
Definition one_pre (P : addr -> token -> Prop) w ms : Prop :=
  exists c t to pre post,
    ms = pre ++ MNft c t to :: post /\ p_honest p c = true /\ Forall quiet pre /\ honest_out post = [] /\
    ~ P c t /\ Inv (w_st w) /\ nft_wf p w /\
    (forall c' t', p_honest p c' = true -> held (w_st w) c' t' ->
       (c' = c /\ t' = t /\ to = p_self p) \/
       (w_nft w c' t' = Some (p_self p) /\ ~ (c' = c /\ t' = t))) /\
    (forall c t, P c t -> p_honest p c = true /\ w_nft w c t = Some (p_self p) /\ ~ held (w_st w) c t).

Lemma exec_custody :
  (forall s f m w w', texec p handler s f m w w' -> forall P, custody P w -> custody P w') /\
  (forall w ms w', dispatch p handler w ms w' ->
     forall P, (rel_pre P w ms \/ one_pre P w ms) -> custody P w') /\
  (forall w w', adv p handler w w' -> forall P, custody P w -> custody P w').
Proof.
  apply exec_mutind.
  - intros sender funds m w st' msgs w' Hs Hc Hh Hd IH P (Hi&Hw&Hh1&HP). apply IH.
    destruct (HShape _ _ _ _ _ _ _ _ Hs Hi Hh) as [Hone|Hrel].
    + right. destruct Hone as (c&t&to&pre&post&->&Hc1&Hq&Hpost&Hown&Hheld).
      exists c, t, to, pre, post. split_and!; try done.
      * intros HPc. destruct (HP _ _ HPc) as (_&Ho&Hnh). destruct Hown as [?|Hown]; [done|].
        apply Hown. cbn. by rewrite Hc1.
      * cbn. by eapply HInv.
      * cbn. intros c' t' Hc' Hh'. destruct (Hheld _ _ Hc' Hh') as [?|[? ?]]; [by left|right]. auto.
      * cbn. intros c' t' HPc. destruct (HP _ _ HPc) as (Hc'&Ho&Hnh). split_and!; try done.
        intros Hh'. destruct (Hheld _ _ Hc' Hh') as [(->&->&->)|[? ?]]; [|done].
        destruct Hown as [?|Hown]; [done|]. apply Hown. cbn. by rewrite Hc1.
    + left. destruct Hrel as (Hnd&Hr&Hsub). split_and!; [|done|].
      * split_and!; cbn; try done; [by eapply HInv|auto|].
        intros c t HPc. destruct (HP _ _ HPc) as (?&?&?). split_and!; auto.
      * cbn. intros c t Hin. destruct (Hr _ _ Hin) as [Hh0 Hn0]. split_and!; [|done|].
        -- apply Hh1; [|done]. by eapply honest_out_honest.
        -- intros HPc. destruct (HP _ _ HPc) as (_&_&?). done.
  - intros w P [H|H]; [apply H|]. destruct H as (c&t&to&pre&post&H&_). by destruct pre.
  - (* send *)
    intros w to cs ms w' Hok Hcov Hd IH P Hpre. apply IH. destruct Hpre as [Hpre|Hpre]; [left|right].
    + exact Hpre.
    + destruct Hpre as (c&t&to'&pre&post&H&Hc&Hq&Hrest). destruct pre as [|m pre]; [discriminate|].
      injection H as <- ->. apply Forall_cons in Hq as [_ Hq].
      exists c, t, to', pre, post. split_and!; try done; apply Hrest.
  - (* honest transfer *)
    intros w c t to ms w' Hcs Hc Hct Hd IH P Hpre. apply IH. left. destruct Hpre as [Hpre|Hpre].
    + destruct Hpre as ((Hi&Hw&Hh&HP)&Hnd&Hr). cbn in Hnd, Hr. rewrite Hc in Hnd, Hr.
      apply NoDup_cons in Hnd as [Hnin Hnd].
      destruct (Hr c t ltac:(left)) as (Ho&Hnh&HnP).
      split_and!; [split_and!| |].
      * done.
      * by apply nft_transfer_wf.
      * cbn. intros c' t' Hc' Hh'. case_bool_decide as E; [|by apply Hh]. by destruct E as [-> ->].
      * cbn. intros c' t' HPc. destruct (HP _ _ HPc) as (?&?&?). split_and!; try done.
        case_bool_decide as E; [|done]. by destruct E as [-> ->].
      * done.
      * cbn. intros c' t' Hin. destruct (Hr c' t') as (?&?&?); [by right|]. split_and!; try done.
        case_bool_decide as E; [|done]. by destruct E as [-> ->].
    + destruct Hpre as (c0&t0&to'&pre&post&H&Hc0&Hq&Hpost&HnP&Hi&Hw&Hh&HP).
      destruct pre as [|m pre].
      2: { injection H as <- ->. apply Forall_cons in Hq as [[] _]. }
      injection H as <- <- <- ->. split_and!; [split_and!| |].
      * done.
      * by apply nft_transfer_wf.
      * cbn. intros c' t' Hc' Hh'. destruct (Hh _ _ Hc' Hh') as [(->&->&->)|[? ?]].
        -- by rewrite bool_decide_eq_true_2.
        -- by rewrite bool_decide_eq_false_2.
      * cbn. intros c' t' HPc. destruct (HP _ _ HPc) as (?&?&?). split_and!; try done.
        case_bool_decide as E; [|done]. by destruct E as [-> ->].
      * rewrite Hpost. constructor.
      * rewrite Hpost. intros ? ? Hin. by apply elem_of_nil in Hin.
  - (* rogue transfer *)
    intros w c t to ms w1 w' Hcs Hc Ha IH1 Hd IH2 P Hpre. apply IH2. destruct Hpre as [Hpre|Hpre].
    + destruct Hpre as (Hcu&Hnd&Hr). cbn in Hnd, Hr. rewrite Hc in Hnd, Hr. left.
      set (P' := fun c t => P c t \/ (c, t) ∈ honest_out ms).
      assert (custody P' w1) as (Hi'&Hw'&Hh'&HP').
      { apply IH1. destruct Hcu as (Hi&Hw&Hh&HP). split_and!; try done.
        intros c' t' [HPc|Hin]; [by apply HP|].
        destruct (Hr _ _ Hin) as (?&?&?). split_and!; try done. by eapply honest_out_honest. }
      split_and!; [split_and!| |]; try done.
      * intros c' t' HPc. apply HP'. by left.
      * intros c' t' Hin. destruct (HP' c' t') as (?&?&?); [by right|]. split_and!; try done.
        by apply Hr.
    + destruct Hpre as (c0&t0&to'&pre&post&H&Hc0&Hq&Hrest). destruct pre as [|m pre].
      * injection H as <- <- <- ->. congruence.
      * injection H as <- ->. apply Forall_cons in Hq as [[] _].
  - (* registry, passive *)
    intros w r c ms w1 w' Hre He Hd IH P Hpre. apply IH.
    assert (forall w0 : world S, w0 = w -> custody P w0 -> custody P w1) as Hcust.
    { intros w0 -> (Hi&Hw&Hh&HP). unfold custody. rewrite (env_steps_st _ _ _ He).
      split_and!; [done|by eapply env_steps_wf| |].
      - intros c' t' ? ?. eapply env_steps_keeps; eauto.
      - intros c' t' HPc. destruct (HP _ _ HPc) as (?&?&?). split_and!; eauto using env_steps_keeps. }
    destruct Hpre as [Hpre|Hpre]; [left|right].
    + destruct Hpre as (Hcu&Hnd&Hr). split_and!; [by eapply Hcust|done|].
      intros c' t' Hin. destruct (Hr _ _ Hin) as (?&?&?). rewrite (env_steps_st _ _ _ He).
      split_and!; try done. destruct Hcu as (_&Hw&_). eauto using env_steps_keeps.
    + destruct Hpre as (c0&t0&to'&pre&post&H&Hc&Hq&Hpost&HnP&Hi&Hw&Hh&HP).
      destruct pre as [|m pre]; [discriminate|].
      injection H as <- ->. apply Forall_cons in Hq as [_ Hq].
      exists c0, t0, to', pre, post. rewrite (env_steps_st _ _ _ He).
      split_and!; try done.
      * by eapply env_steps_wf.
      * intros c' t' Hc' Hh'. destruct (Hh _ _ Hc' Hh') as [?|[? ?]]; [by left|right].
        split; [|done]. eauto using env_steps_keeps.
      * intros c' t' HPc. destruct (HP _ _ HPc) as (?&?&?). split_and!; eauto using env_steps_keeps.
  - (* registry, re-entrant *)
    intros w r c ms w1 w' Hre Ha IH1 Hd IH2 P Hpre. apply IH2. destruct Hpre as [Hpre|Hpre].
    + destruct Hpre as (Hcu&Hnd&Hr). cbn in Hnd, Hr. left.
      set (P' := fun c t => P c t \/ (c, t) ∈ honest_out ms).
      assert (custody P' w1) as (Hi'&Hw'&Hh'&HP').
      { apply IH1. destruct Hcu as (Hi&Hw&Hh&HP). split_and!; try done.
        intros c' t' [HPc|Hin]; [by apply HP|].
        destruct (Hr _ _ Hin) as (?&?&?). split_and!; try done. by eapply honest_out_honest. }
      split_and!; [split_and!| |]; try done.
      * intros c' t' HPc. apply HP'. by left.
      * intros c' t' Hin. destruct (HP' c' t') as (?&?&?); [by right|]. split_and!; try done.
        by apply Hr.
    + destruct Hpre as (c0&t0&to'&pre&post&H&Hc0&Hq&Hrest). destruct pre as [|m pre].
      * discriminate.
      * injection H as <- ->. apply Forall_cons in Hq as [Hq _]. cbn in Hq. congruence.
  - (* burn *)
    intros w c ms w' Hok Hcov Hd IH P Hpre. apply IH. destruct Hpre as [Hpre|Hpre]; [left|right].
    + exact Hpre.
    + destruct Hpre as (c0&t&to'&pre&post&H&Hc&Hq&Hrest). destruct pre as [|m pre]; [discriminate|].
      injection H as <- ->. apply Forall_cons in Hq as [_ Hq].
      exists c0, t, to', pre, post. split_and!; try done; apply Hrest.
  - (* hook *)
    intros w h ms w1 w' Ha IH1 Hd IH2 P Hpre. apply IH2. destruct Hpre as [Hpre|Hpre].
    + destruct Hpre as (Hcu&Hnd&Hr). cbn in Hnd, Hr. left.
      set (P' := fun c t => P c t \/ (c, t) ∈ honest_out ms).
      assert (custody P' w1) as (Hi'&Hw'&Hh'&HP').
      { apply IH1. destruct Hcu as (Hi&Hw&Hh&HP). split_and!; try done.
        intros c' t' [HPc|Hin]; [by apply HP|].
        destruct (Hr _ _ Hin) as (?&?&?). split_and!; try done. by eapply honest_out_honest. }
      split_and!; [split_and!| |]; try done.
      * intros c' t' HPc. apply HP'. by left.
      * intros c' t' Hin. destruct (HP' c' t') as (?&?&?); [by right|]. split_and!; try done.
        by apply Hr.
    + destruct Hpre as (c0&t0&to'&pre&post&H&Hc0&Hq&Hrest). destruct pre as [|m pre].
      * discriminate.
      * injection H as <- ->. apply Forall_cons in Hq as [[] _].
  - intros w P H. done.
  - intros w w1 w' He _ IH P (Hi&Hw&Hh&HP). apply IH. unfold custody. rewrite (env_step_st _ _ _ He).
    split_and!; [done|by eapply env_step_wf| |].
    + intros c' t' ? ?. eapply env_step_keeps; eauto.
    + intros c' t' HPc. destruct (HP _ _ HPc) as (?&?&?). split_and!; eauto using env_step_keeps.
  - intros sender funds m w w1 w' _ IH1 _ IH2 P H. apply IH2, IH1, H.
Qed.
End Custody.

(** ** The executable semantics is an instance of the relational one *)
Lemma run_msgs_sound w ms w' : run_msgs p w ms = Ok w' -> dispatch p handler w ms w'.
Proof.
  revert w. induction ms as [|m ms IH]; cbn [run_msgs]; intros w H; [inv_ok; constructor|].
  destruct m as [to cs|c t to|r c|c|h]; cbn [run_msgs] in H.
  - inv_ok. apply andb_prop in H0 as [? ?]. econstructor; eauto.
  - inv_ok.
    + eapply DNft; eauto. intros ->. rewrite bool_decide_eq_true_2 in H0; done.
    + eapply DNftRogue; eauto; [|constructor]. intros ->. rewrite bool_decide_eq_true_2 in H0; done.
  - destruct (p_reg_reenters p) eqn:E.
    + eapply DRegRe; eauto. constructor.
    + eapply DReg; eauto. constructor.
  - inv_ok. apply andb_prop in H0 as [? ?]. econstructor; eauto. lia.
  - eapply DHook; eauto. constructor.
Qed.

Lemma run_tx_sound w sender funds m w' :
  run_tx p handler w sender funds m = Ok w' -> texec p handler sender funds m w w'.
Proof.
  unfold run_tx. intros H. inv_ok. apply andb_prop in H0 as [H0 ?]. destruct x0 as [st' msgs].
  econstructor; eauto.
  - intros ->. rewrite bool_decide_eq_true_2 in H0; done.
  - by apply run_msgs_sound.
Qed.

(** ** Histories *)
Section Steps.
Context {SM : Type} (sudo : view -> env -> S -> SM -> result (S * list cmsg)).

(** Top-level steps of the chain: a transaction to the contract, foreign activity, a new block, a privileged
    (sudo) call by the chain itself. *)
Inductive step : world S -> world S -> Prop :=
  | step_tx sender funds m w w' : texec p handler sender funds m w w' -> step w w'
  | step_env w w' : env_step p w w' -> step w w'
  | step_block w h t :
      w_height w <= h -> w_time w <= t ->
      step w (World (w_bank w) (w_nft w) (w_appr w) (w_oper w) (w_ora w) h t (w_st w))
  | step_sudo m w st' msgs w' :
      sudo (view_of p w) (env_of w) (w_st w) m = Ok (st', msgs) ->
      dispatch p handler (set_st w st') msgs w' ->
      step w w'.
End Steps.
End Exec.
