(** The reserve auction on the chain: exact settlements, and calls that always succeed. *)
From stdpp Require Import relations.
From Verif Require Import Base Common Chain BaseFacts ChainFacts IndexRange IndexFacts SaleFacts Plain
  RAModel RASpec RAFacts RAIndex RAInv RAReach RAFinal.

Lemma dec_eqb_if {A} n (x y : A) : (if n =? 0 then x else y) = if decide (n = 0) then x else y.
Proof. destruct (N.eqb_spec n 0); [by rewrite decide_True|by rewrite decide_False]. Qed.

(** The block time does not change during a transaction. *)
Section Time.
Context {S M : Type} (p : params).
Context (handler : view -> env -> addr -> list coin -> S -> M -> result (S * list cmsg)).
Lemma env_step_time (w w' : world S) : env_step p w w' -> w_time w' = w_time w.
Proof. by destruct 1. Qed.
Lemma exec_time :
  (forall s f m w w', texec p handler s f m w w' -> w_time w' = w_time w) /\
  (forall w ms w', dispatch p handler w ms w' -> w_time w' = w_time w) /\
  (forall w w', adv p handler w w' -> w_time w' = w_time w).
Proof.
  apply exec_mutind; intros; cbn in *; try done; try congruence.
  - rewrite H. clear -r0. induction r0 as [|x y z Hxy _ IH]; [done|]. rewrite IH. by apply env_step_time.
  - rewrite H. by apply env_step_time.
Qed.
Lemma plain_honest_out ms : Forall (plain p) ms -> honest_out p ms = nfts ms.
Proof.
  induction 1 as [|m ms Hm _ IH]; [done|]. destruct m; cbn in *; try done. rewrite Hm. by f_equal.
Qed.
End Time.

Lemma pay_in_nil {S} (p : params) (w : world S) s a d : bank_move (w_bank w) s (p_self p) [] a d = w_bank w a d.
Proof. unfold bank_move, bank_add, bank_sub. cbn. repeat case_bool_decide; lia. Qed.

Section Live.
Context (p : params) (lb : lib).
Notation wf := (wf p).
Notation execute := (execute p lb).

(** * Settlement messages *)
Lemma settlement_plain a hb sp : p_honest p (a_coll a) = true -> Forall (plain p) (settlement a hb sp).
Proof.
  intros Hh. unfold settlement, burn_part, pay_part. rewrite !Forall_app. split_and!.
  - case_decide; [constructor|]. by apply Forall_singleton.
  - case_decide; [constructor|]. by apply Forall_singleton.
  - case_decide; [constructor|]. by apply Forall_singleton.
  - by apply Forall_singleton.
Qed.
Lemma pay_part_sendable to d n : p_blocked p to = false -> Forall (sendable p) (pay_part to d n).
Proof.
  intros Hb. unfold pay_part. case_decide; constructor; [|constructor]. cbn. unfold send_ok. rewrite Hb. cbn.
  by rewrite (proj2 (N.ltb_lt 0 n)) by lia.
Qed.
Lemma settlement_sendable v cfg a hb sp : p_honest p (a_coll a) = true -> a_coll a <> p_self p ->
  can_pay p lb v cfg a hb -> rates lb v cfg a hb sp -> Forall (sendable p) (settlement a hb sp).
Proof.
  intros Hh Hs (_&Hb&Hr) [_ Hrate]. unfold settlement. rewrite !Forall_app. split_and!.
  - unfold burn_part. case_decide; constructor; [|constructor]. cbn. lia.
  - destruct (q_info v (a_coll a)) as [[cs [[to sh]|]]|].
    + destruct Hrate as [-> _]. destruct Hr as [_ Hr]. by apply pay_part_sendable.
    + rewrite Hrate. constructor.
    + rewrite Hrate. constructor.
  - by apply pay_part_sendable.
  - by repeat constructor.
Qed.

Lemma credit_burn d n x d' : credit (burn_part d n) x d' = 0.
Proof. unfold burn_part. by case_decide. Qed.
Lemma credit_pay to d n x d' : credit (pay_part to d n) x d' = if decide (to = x) then in_denom d' (Coin d n) else 0.
Proof.
  unfold pay_part. destruct (decide (n = 0)) as [->|].
  - cbn. unfold in_denom. cbn. repeat case_decide; done.
  - cbn [credit]. rewrite in_denom_amt. case_decide; lia.
Qed.
Lemma credit_settlement a hb sp x d :
  credit (settlement a hb sp) x d =
  (if decide (sp_royalty_to sp = x) then in_denom d (Coin (c_denom (hb_coin hb)) (sp_royalty sp)) else 0) +
  (if decide (proceeds_to a = x) then in_denom d (Coin (c_denom (hb_coin hb)) (sp_seller sp)) else 0).
Proof. unfold settlement. rewrite !credit_app, credit_burn, !credit_pay. cbn. lia. Qed.
Lemma moved_settlement a hb sp c t :
  moved (settlement a hb sp) c t = if decide (a_coll a = c /\ a_tok a = t) then Some (hb_bidder hb) else None.
Proof.
  unfold settlement. rewrite !moved_app. cbn. destruct (decide _); [done|].
  unfold burn_part, pay_part. repeat case_decide; done.
Qed.

(** * An exact settlement on the chain *)
Lemma settle_world w sender funds coll tok w' a t :
  ra_reachable p lb w -> texec p execute sender funds (SettleAuction coll tok) w w' ->
  s_auctions (w_st w) !! (coll, tok) = Some a -> p_honest p coll = true ->
  a_end a = Some t -> ~ halted (s_halt (w_st w)) t ->
  exists hb sp, a_high a = Some hb /\ splits hb sp /\
    rates lb (view_of p (pay_in p w sender funds)) (s_config (w_st w)) a hb sp /\
    funds = [] /\ t <= w_time w /\
    s_auctions (w_st w') !! (coll, tok) = None /\ w_nft w' coll tok = Some (hb_bidder hb) /\
    (forall x d, w_bank w' x d + (if decide (x = p_self p) then in_denom d (hb_coin hb) else 0) =
       w_bank w x d +
       (if decide (sp_royalty_to sp = x) then in_denom d (Coin (c_denom (hb_coin hb)) (sp_royalty sp)) else 0) +
       (if decide (proceeds_to a = x) then in_denom d (Coin (c_denom (hb_coin hb)) (sp_seller sp)) else 0)) /\
    (forall c k, (c, k) <> (coll, tok) -> w_nft w' c k = w_nft w c k).
Proof.
  intros Hr H Ha Hh Ht Hn. pose proof (reachable_history _ _ _ Hr) as Hst.
  inversion H as [s f m w1 st' msgs w2 Hs Hc Hx Hd]; subst.
  destruct (settle_rule _ _ _ _ _ _ _ _ _ _ _ Hst Hx) as (b&o&Hb&->&Ho&Ho'&_).
  rewrite Ha in Hb. injection Hb as <-. destruct (history_auction _ _ _ _ _ Hst Ha) as [Hk Hok]. injection Hk as -> ->.
  inversion Ho as [t0 Ht0 _ Hhalt|t0 hb sp Ht0 Hle Hnh Hhb Hsp Hrates]; subst.
  { rewrite Ht in Ht0. by injection Ht0 as <-. }
  rewrite Ht in Ht0. injection Ht0 as <-.
  destruct (dispatch_plain p execute _ _ _ Hd) as (E1&_&_&_&Hbank&Hnft); [by apply settlement_plain|].
  exists hb, sp. split_and!; try done.
  - rewrite E1. cbn. by match goal with H : None = _ |- _ => rewrite <-H | H : _ = None |- _ => rewrite H end.
  - rewrite Hnft, moved_settlement. by rewrite decide_True.
  - intros x d. specialize (Hbank x d). rewrite credit_settlement, out_settlement in Hbank by done.
    cbn [w_bank set_st pay_in set_bank] in Hbank. unfold bank_move, bank_add, bank_sub in Hbank. cbn [amt] in Hbank.
    replace (if bool_decide (x = p_self p) then (if bool_decide (x = sender) then w_bank w x d - 0 else w_bank w x d) + 0
       else if bool_decide (x = sender) then w_bank w x d - 0 else w_bank w x d) with (w_bank w x d) in Hbank
      by (repeat case_bool_decide; lia). lia.
  - intros c k Hne. rewrite Hnft, moved_settlement. rewrite decide_False; [done|]. intros [<- <-]. done.
Qed.

(** * Success *)
Lemma settle_ok v st now a cfg h resp : ready p lb v now cfg h a ->
  exists r, settle_auction p lb v st now a cfg h resp = Ok r.
Proof.
  intros (t&Ht&Hle&Hcase). unfold settle_auction. rewrite Ht, (proj2 (N.leb_le _ _) Hle). cbn [ensure mbind result_bind].
  destruct Hcase as [[Hh Hm]|[Hh (hb&Hhb&(sp&Hsp&[Hfee Hrate])&_&Hq)]].
  - apply within_halted in Hh. rewrite Hh. unfold t_plus_seconds. rewrite (proj2 (N.leb_le _ _) Hm). cbn. by eexists.
  - destruct (within_halt_window h (t_seconds t)) eqn:E; [by apply within_halted in E|]. rewrite Hhb.
    unfold splits in Hsp. unfold load_collection_royalties, payout_nft_sale_fees. rewrite Hfee. cbn [mbind result_bind].
    unfold checked_sub128. rewrite (proj2 (N.leb_le (sp_burn sp) _)) by lia. cbn [mbind result_bind].
    destruct (q_info v (a_coll a)) as [[cs [[to sh]|]]|].
    + cbn [ci_royalty]. destruct Hq as [Hv _]. unfold addr_validate. rewrite Hv. cbn [mbind result_bind].
      destruct Hrate as [_ Hroy]. rewrite Hroy. cbn [mbind result_bind]. rewrite (proj2 (N.leb_le (sp_royalty sp) _)) by lia. cbn. by eexists.
    + cbn [ci_royalty mbind result_bind]. rewrite (proj2 (N.leb_le 0 _)) by lia. cbn. by eexists.
    + rewrite Hq. cbn [mbind result_bind]. rewrite (proj2 (N.leb_le 0 _)) by lia. cbn. by eexists.
Qed.
Lemma settle_all_ok v now cfg h l st resp : Forall (ready p lb v now cfg h) l ->
  exists r, settle_all p lb v now cfg h st l resp = Ok r.
Proof.
  intros H. revert st resp. induction H as [|a l Ha _ IH]; intros st resp; [by eexists|]. cbn.
  destruct (settle_ok v st now a cfg h resp Ha) as ([st1 r1]&->). cbn. apply IH.
Qed.

Lemma outcome_sendable v now cfg h a o em : p_honest p (a_coll a) = true -> a_coll a <> p_self p ->
  ready p lb v now cfg h a -> outcome lb v now cfg h a o em -> Forall (sendable p) em.
Proof.
  intros Hh Hs (t&Ht&_&Hcase) Ho. destruct Ho as [|t0 hb sp Ht0 _ Hnh Hhb _ Hrates]; [constructor|].
  rewrite Ht in Ht0. injection Ht0 as <-. destruct Hcase as [[? _]|[_ (hb'&Hhb'&Hcan)]]; [done|].
  rewrite Hhb in Hhb'. injection Hhb' as <-. by eapply settlement_sendable.
Qed.

(** Messages of processed auctions go through in every reachable world. *)
Lemma process_run w (w1 : world state) l os v now cfg h :
  ra_reachable p lb w -> (forall d, w_bank w1 (p_self p) d = w_bank w (p_self p) d) -> w_nft w1 = w_nft w -> NoDup (a_key <$> l) -> Forall (fun a => s_auctions (w_st w) !! a_key a = Some a) l ->
  Forall (fun a => p_honest p (a_coll a) = true /\ a_coll a <> p_self p /\ ready p lb v now cfg h a) l ->
  Forall2 (fun a o => outcome lb v now cfg h a (fst o) (snd o)) l os ->
  exists w', run_msgs p w1 (concat (snd <$> os)) = Ok w'.
Proof.
  intros Hr Hb1 Hn1 Hn Hl Hrdy HF.
  assert (Forall (sendable p) (concat (snd <$> os))) as Hsend.
  { clear Hn Hl. induction HF as [|a [o em] l os Ho _ IH]; [constructor|].
    apply Forall_cons in Hrdy as [(H1&H2&H3) Hrdy]. cbn. apply Forall_app. split; [by eapply outcome_sendable|by apply IH]. }
  apply run_plain; [done|..].
  - intros d. rewrite Hb1. destruct (reachable_solvent _ _ _ Hr) as [_ Hb]. specialize (Hb d).
    pose proof (process_accounting _ _ _ _ _ _ _ _ d Hn Hl HF). lia.
  - rewrite <-(plain_honest_out p) by (by apply sendable_plain). destruct (process_honest_out p lb _ _ _ _ _ _ HF) as [Hsub _].
    by eapply sublist_nodup.
  - intros c t Hin. rewrite <-(plain_honest_out p) in Hin by (by apply sendable_plain). rewrite Hn1.
    pose proof (honest_out_honest _ _ _ _ Hin) as Hh. destruct (process_honest_out p lb _ _ _ _ _ _ HF) as [_ Hex].
    apply Hex in Hin as (i&a&o&Ha&_&Hk&_). rewrite Forall_forall in Hl.
    assert (s_auctions (w_st w) !! (c, t) = Some a) as Hst.
    { rewrite <-Hk. apply Hl. by eapply elem_of_list_lookup_2. }
    destruct (auction_custody _ _ _ _ _ Hr Hst) as [E Hc]. injection E as -> ->. by apply Hc.
Qed.

Lemma end_block_live w :
  ra_reachable p lb w -> t_seconds (w_time w) < U64_MAX ->
  (forall k a, s_auctions (w_st w) !! k = Some a -> due (w_time w) a ->
     p_honest p (a_coll a) = true /\ a_coll a <> p_self p /\
     ready p lb (view_of p w) (w_time w) (s_config (w_st w)) (s_halt (w_st w)) a) ->
  exists w', run_sudo p lb w EndBlock = Ok w'.
Proof.
  intros Hr Hm Hall. pose proof (reachable_wf _ _ _ Hr) as Hwf.
  assert (exists r, sudo p lb (view_of p w) (env_of w) (w_st w) EndBlock = Ok r) as [[st' msgs] Hs].
  { cbn. unfold sudo_end_block, add64. cbn [e_time env_of]. rewrite (proj2 (N.leb_le _ _)) by lia. cbn [mbind result_bind].
    set (l := due_auctions (w_st w) (t_seconds (w_time w) + 1) (cf_max_settle (s_config (w_st w)))).
    assert (first_due (w_st w) (w_time w) (cf_max_settle (s_config (w_st w))) l) as Hfd by (apply (due_first p); [done|lia]).
    assert (Forall (ready p lb (view_of p w) (w_time w) (s_config (w_st w)) (s_halt (w_st w))) l) as Hready.
    { apply Forall_forall. intros a Ha. destruct (fd_due _ _ _ _ Hfd a Ha) as [H1 H2]. by apply (Hall _ _ H1 H2). }
    assert (exists ear, match l with [] => Ok None | a :: _ => match a_end a with Some t => Ok (Some t) | None => Err EPanic end end = Ok ear)
      as [ear Hear].
    { destruct l as [|a l']; [by eexists|]. apply Forall_cons in Hready as [(t&->&_) _]. by eexists. }
    rewrite Hear. cbn [mbind result_bind]. destruct (settle_all_ok _ _ _ _ _ (w_st w) [] Hready) as ([st1 r1]&->). cbn. by eexists. }
  unfold run_sudo. rewrite Hs. cbn [mbind result_bind fst snd].
  apply end_block_inv in Hs as (os&ear&HF&->&_&->); [|done].
  eapply process_run; [done|done|done| | | |exact HF].
  - by apply (due_nodup p).
  - by apply (due_stored p).
  - apply Forall_forall. intros a Ha. apply (due_elem p) in Ha as [Ha Hb]; [|done]. eapply (Hall _ _ Ha).
    apply due_index; [lia|exact Hb].
Qed.

Lemma settle_live w sender coll tok a :
  ra_reachable p lb w -> sender <> p_self p -> s_auctions (w_st w) !! (coll, tok) = Some a ->
  p_honest p coll = true -> coll <> p_self p ->
  ready p lb (view_of p (pay_in p w sender [])) (w_time w) (s_config (w_st w)) (s_halt (w_st w)) a ->
  exists w', run_tx p execute w sender [] (SettleAuction coll tok) = Ok w'.
Proof.
  intros Hr Hs Ha Hh Hcs Hready. pose proof (reachable_wf _ _ _ Hr) as Hwf.
  destruct (wf_auction _ _ Hwf _ _ Ha) as [Hk Hok]. 
  assert (exists r, execute (view_of p (pay_in p w sender [])) (env_of w) sender [] (w_st w) (SettleAuction coll tok) = Ok r)
    as [[st' msgs] Hx].
  { cbn. pose proof (aok_valid _ _ Hok) as Hv. injection Hk as Hc Ht. rewrite Hc in Hv. unfold addr_validate. rewrite Hv. cbn [mbind result_bind].
    unfold execute_settle_auction. cbn [nonpayable mbind result_bind]. rewrite (proj2 (load_auction_Ok _ _ _) Ha). cbn [mbind result_bind].
    by apply settle_ok. }
  unfold run_tx. rewrite (bool_decide_eq_false_2 _ Hs). cbn -[RAModel.execute]. rewrite Hx. cbn [mbind result_bind fst snd].
  apply execute_effect in Hx; [|done]. inversion Hx as [| | | |c t b o em Hf Hb Ho]; subst.
  rewrite Ha in Hb. injection Hb as <-.
  match goal with |- context [run_msgs p ?w1 _] =>
    pose proof (process_run w w1 [a] [(o, msgs)] (view_of p (pay_in p w sender [])) (w_time w) (s_config (w_st w)) (s_halt (w_st w)) Hr) as Hrun end.
  cbn [fmap list_fmap concat snd] in Hrun. rewrite app_nil_r in Hrun. apply Hrun.
  - intros d. apply pay_in_nil.
  - done.
  - apply NoDup_singleton.
  - apply Forall_singleton. by rewrite Hk.
  - apply Forall_singleton. injection Hk as -> _. done.
  - by repeat constructor.
Qed.

Lemma cancel_live w coll tok a :
  ra_reachable p lb w -> s_auctions (w_st w) !! (coll, tok) = Some a -> a_high a = None ->
  p_honest p coll = true -> coll <> p_self p ->
  exists w', run_tx p execute w (a_seller a) [] (CancelAuction coll tok) = Ok w' /\
    s_auctions (w_st w') !! (coll, tok) = None /\ w_nft w' coll tok = Some (a_seller a).
Proof.
  intros Hr Ha Hh Hhon Hcs. pose proof (reachable_wf _ _ _ Hr) as Hwf.
  destruct (wf_auction _ _ Hwf _ _ Ha) as [Hk Hok]. pose proof (aok_valid _ _ Hok) as Hv. pose proof (aok_seller _ _ Hok) as Hs.
  destruct (auction_custody _ _ _ _ _ Hr Ha) as [E Hc]. injection E as -> ->. specialize (Hc Hhon).
  assert (a_first a = None) as Hf by (destruct (aok_phase _ _ Hok); congruence).
  unfold run_tx. rewrite (bool_decide_eq_false_2 _ Hs). cbn -[load_auction remove_auction]. unfold addr_validate. rewrite Hv. cbn [mbind result_bind].
  unfold execute_cancel_auction. cbn [nonpayable mbind result_bind]. rewrite (proj2 (load_auction_Ok _ _ _) Ha). cbn [mbind result_bind].
  rewrite (bool_decide_eq_true_2 (a_seller a = a_seller a)), (bool_decide_eq_true_2 (a_first a = None)) by done. cbn -[remove_auction].
  rewrite (bool_decide_eq_false_2 _ Hcs). cbn -[remove_auction]. rewrite Hhon. unfold can_transfer. cbn -[remove_auction]. rewrite Hc.
  rewrite (bool_decide_eq_true_2 (p_self p = p_self p)) by done. cbn -[remove_auction]. eexists. split; [done|]. split.
  - apply (lookup_delete (s_auctions (w_st w))).
  - cbn. by rewrite bool_decide_eq_true_2.
Qed.

(** A high enough bid is accepted while the auction is open. *)
Lemma bid_live w sender coll tok a n :
  ra_reachable p lb w -> sender <> p_self p -> s_auctions (w_st w) !! (coll, tok) = Some a ->
  sender <> a_seller a -> n <= w_bank w sender (c_denom (a_reserve a)) -> 0 < n ->
  match a_high a with
  | None => c_amount (a_reserve a) <= n
  | Some hb => c_amount (hb_coin hb) + ceil_div (c_amount (hb_coin hb) * cf_increment (s_config (w_st w))) DEC_ONE <= n /\
               p_blocked p (hb_bidder hb) = false
  end ->
  n <= U128_MAX ->
  (forall t, a_end a = Some t -> t_seconds (w_time w) < t_seconds t) ->
  w_time w + a_duration a * NANOS <= U64_MAX -> w_time w + cf_extend (s_config (w_st w)) * NANOS <= U64_MAX ->
  exists w', run_tx p execute w sender [Coin (c_denom (a_reserve a)) n] (PlaceBid coll tok) = Ok w'.
Proof.
  intros Hr Hs Ha Hsel Hcov Hpos Hmin H128 Hopen Hm1 Hm2. pose proof (reachable_wf _ _ _ Hr) as Hwf.
  destruct (wf_auction _ _ Hwf _ _ Ha) as [Hk Hok]. pose proof (aok_valid _ _ Hok) as Hv. injection Hk as Hk1 Hk2. rewrite Hk1 in Hv.
  assert (covers (w_bank w) sender [Coin (c_denom (a_reserve a)) n] = true) as Hc.
  { apply covers_spec. intros d. rewrite amt_one. cbn [c_amount c_denom]. case_bool_decide; [subst d; done|lia]. }
  unfold run_tx. rewrite (bool_decide_eq_false_2 _ Hs), Hc. cbn [negb andb ensure mbind result_bind].
  unfold RAModel.execute, addr_validate. rewrite Hv. cbn [mbind result_bind]. unfold execute_place_bid.
  rewrite (proj2 (load_auction_Ok _ _ _) Ha). cbn [mbind result_bind]. unfold must_pay, one_coin. cbn [c_amount c_denom mbind result_bind].
  rewrite (proj2 (N.eqb_neq n 0)) by lia. cbn [mbind result_bind c_denom c_amount]. unfold a_denom.
  rewrite (bool_decide_eq_true_2 (c_denom (a_reserve a) = c_denom (a_reserve a))) by done. cbn [mbind result_bind].
  rewrite (bool_decide_eq_true_2 (a_seller a <> sender)) by congruence. cbn [mbind result_bind ensure].
  assert (exists m, min_bid_coin a (cf_increment (s_config (w_st w))) = Ok (Coin (c_denom (a_reserve a)) m) /\ m <= n) as (m&Hmb&Hmn).
  { unfold min_bid_coin. destruct (a_high a) as [hb|].
    - destruct Hmin as [Hmin _]. rewrite <-ceil_div_scaled in Hmin. unfold mul_ceil. fold (ceil_div (c_amount (hb_coin hb) * (DEC_ONE + cf_increment (s_config (w_st w)))) DEC_ONE).
      cbv zeta. unfold ceil_div in *. rewrite (proj2 (N.leb_le _ _)) by lia. cbn [mbind result_bind]. eexists. split; [done|]. lia.
    - cbn [mbind result_bind]. eexists. split; [done|lia]. }
  rewrite Hmb. cbn [mbind result_bind]. rewrite (proj2 (has_coins_one _ _ _) Hmn). cbn [ensure mbind result_bind e_time env_of].
  assert (match a_end a with None => true | Some t => t_seconds (w_time w) <? t_seconds t end = true) as Hop.
  { destruct (a_end a) as [t|]; [|done]. specialize (Hopen t eq_refl). lia. }
  rewrite Hop. cbn [ensure mbind result_bind].
  destruct (aok_phase _ _ Hok) as [Hf He Hh|f t hb Hf He Hh Hft].
  - rewrite Hf. unfold t_plus_seconds. rewrite (proj2 (N.leb_le _ _) Hm1). cbn. by eexists.
  - rewrite Hf, Hh, He in *. destruct (aok_bid _ _ Hok _ Hh) as (Hd&Hpb&_&Hbs). destruct Hmin as [_ Hbl].
    unfold checked_transfer_coin. rewrite (proj2 (N.eqb_neq (c_amount (hb_coin hb)) 0)) by lia. cbn [mbind result_bind].
    assert (forall st', exists w', run_msgs p (set_st (pay_in p w sender [Coin (c_denom (a_reserve a)) n]) st') [MSend (hb_bidder hb) [hb_coin hb]] = Ok w') as Hrun.
    { intros st'. apply run_plain.
      - apply Forall_singleton. cbn. unfold send_ok. rewrite Hbl. cbn. by rewrite (proj2 (N.ltb_lt 0 _)).
      - intros d. cbn [set_st w_bank out out_one pay_in set_bank]. rewrite bank_move_self_in by done.
        destruct (reachable_solvent _ _ _ Hr) as [_ Hb]. specialize (Hb d). cbn in Hb.
        pose proof (esc_elem_le a_price _ _ _ d Ha) as Hle. unfold a_price in Hle at 1. rewrite Hh in Hle.
        assert (amt [hb_coin hb] d <= w_bank w (p_self p) d) by (etrans; [exact Hle|]; rewrite N.add_0_r in Hb; exact Hb). lia.
      - constructor.
      - intros c t' Hin. by apply elem_of_nil in Hin. }
    destruct (t_seconds t - t_seconds (w_time w) <? cf_extend (s_config (w_st w))).
    + unfold t_plus_seconds. rewrite (proj2 (N.leb_le _ _) Hm2). cbn [mbind result_bind fst snd app]. apply Hrun.
    + cbn [mbind result_bind fst snd app]. apply Hrun.
Qed.

(** * Time *)
Lemma execute_prev st st' : wf st -> rtc (hstep p execute) st st' -> s_halt st' = s_halt st.
Proof.
  intros Hwf H. induction H as [|st st1 st' (v&e&s&f&m&ms&Hs&H) _ IH]; [done|].
  rewrite IH by (by eapply wf_execute). by eapply (execute_config p lb) in H as (_&_&->).
Qed.
Lemma reachable_prev w : ra_reachable p lb w -> hm_prev (s_halt (w_st w)) <= t_seconds (w_time w).
Proof.
  intros (w0&[(c&mins&Hi) Hn]&H). pose proof (wf_instantiate _ _ _ _ Hi) as Hwf.
  assert (hm_prev (s_halt (w_st w0)) <= t_seconds (w_time w0)) as H0.
  { unfold instantiate in Hi. apply bind_Ok in Hi as (?&_&Hi). apply bind_Ok in Hi as (?&_&Hi). apply bind_Ok in Hi as (?&_&Hi). injection Hi as <-. cbn. lia. }
  clear Hi Hn. induction H as [|w0 w1 w Hs _ IH]; [done|].
  assert (wf (w_st w1)) as Hwf1.
  { apply step_calls in Hs. by eapply calls_wf. }
  apply IH; [done|]. clear IH Hwf1. destruct Hs as [s f m w0 w1 H|w0 w1 H|w0 h t Hh Ht|m w0 st' msgs w1 Hs H].
  - rewrite (proj1 (exec_time _ _) _ _ _ _ _ H). apply exec_hsteps in H. by rewrite (execute_prev _ _ Hwf H).
  - rewrite (env_step_st _ _ _ H), (env_step_time _ _ _ H). done.
  - cbn. etrans; [exact H0|]. by apply N.div_le_mono.
  - rewrite (proj1 (proj2 (exec_time _ _)) _ _ _ H). pose proof (wf_sudo _ _ _ _ _ _ _ _ Hwf Hs) as Hwf'.
    apply exec_hsteps in H. rewrite (execute_prev _ _ Hwf' H). cbn.
    destruct m as [| |u|cs|ds|].
    + apply begin_block_rule in Hs as (_&_&->&_). done.
    + apply end_block_inv in Hs as (os&ear&HF&->&_&->); [|done].
      match goal with |- context [process (w_st w0) ?l os] => destruct (process_config (w_st w0) l os) as (_&_&Hp) end.
      unfold find_stale_halt_info. destruct (hm_windows (s_halt (w_st w0))); [by rewrite Hp|].
      destruct ear as [t|]; [|done]. destruct (_ <? _); [done|]. by rewrite Hp.
    + cbn in Hs. unfold sudo_update_params in Hs. apply bind_Ok in Hs as (fb&_&Hs). apply bind_Ok in Hs as ([]&Hc&Hs). by injection Hs as <- <-.
    + cbn in Hs. unfold sudo_set_min_reserve_prices in Hs. apply bind_Ok in Hs as (mm&_&Hs). by injection Hs as <- <-.
    + cbn in Hs. unfold sudo_unset_min_reserve_prices in Hs. apply bind_Ok in Hs as (mm&_&Hs). by injection Hs as <- <-.
    + cbn in Hs. by injection Hs as <- <-.
Qed.
Lemma begin_block_live w :
  ra_reachable p lb w -> t_seconds (w_time w) + cf_halt_buffer (s_config (w_st w)) <= U64_MAX ->
  exists w', run_sudo p lb w BeginBlock = Ok w'.
Proof.
  intros Hr%reachable_prev Hm. unfold run_sudo. cbn. unfold sudo_begin_block. cbn [e_time env_of].
  rewrite (proj2 (N.leb_le _ _) Hr). cbn [ensure mbind result_bind]. destruct (_ && _); [|by eexists].
  unfold add64. rewrite (proj2 (N.leb_le _ _) Hm). cbn. by eexists.
Qed.
End Live.
