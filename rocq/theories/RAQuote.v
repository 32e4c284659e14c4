(** Proofs for C144 on the reserve auction (RAQuoteSpec). *)
From stdpp Require Import relations.
From Verif Require Import Base BaseFacts Common Chain ChainFacts IndexRange QuerySpec RAModel RASpec RAFacts RAIndex RAInv RAReach RAQuery
  LedgerSpec TxSpec TxFacts RAExactSpec RAExact RATx RAQuoteSpec.

Section RAQuote.
Context (p : params) (lb : lib).

Lemma next_first w now : ra_reachable p lb w -> p_valid p "" = false -> cf_max_settle (s_config (w_st w)) <= 100 -> t_seconds now < U64_MAX ->
  first_due (w_st w) now (cf_max_settle (s_config (w_st w))) (next_up (w_st w) now).
Proof.
  intros Hr He Hk Hn. pose proof (reachable_wf p lb _ Hr) as Hwf. set (k := cf_max_settle (s_config (w_st w))) in *.
  assert (page end_before a_ekey
    (fun x => s_auctions (w_st w) !! a_key x = Some x /\ (default false None = false -> end_second x < U64_MAX))
    (opts_after None (Some k) (Some (0, default ("", "") None)))
    (query_auctions_by_end_time (w_st w) 0 None (Some k) None)) as HP.
  { rewrite <-unpack_after. by apply (end_page p). }
  unfold next_up. fold k. set (rows := query_auctions_by_end_time (w_st w) 0 None (Some k) None) in *.
  assert (page_size (opts_after None (Some k) (Some (0, (default ("", "") None : akey)))) = N.to_nat k) as Hps.
  { unfold page_size, opts_after. cbn [qo_limit]. f_equal. lia. }
  destruct HP as [Hs Hso Hl Hc]. change (page_size _) with (page_size (opts_after None (Some k) (Some (0, (default ("", "") None : akey))))) in Hl. setoid_rewrite Hps in Hc. rewrite Hps in Hl. unfold precedes in *. cbn [descending opts_after qo_desc] in *. split.
  - intros a Ha. apply elem_of_list_filter in Ha as [Hd Ha]. split; [|done]. by apply Hso.
  - clear Hl Hc Hso. induction Hs as [|a l Hs IH HF]; [constructor|]. rewrite filter_cons. case_decide; [|done]. constructor; [done|].
    rewrite Forall_forall in HF |- *. intros b Hb. apply elem_of_list_filter in Hb as [_ Hb]. by apply HF.
  - pose proof (filter_length (due now) rows). lia.
  - intros a Ha (t&Ht&Hd). destruct (wf_auction _ _ Hwf _ _ Ha) as [_ Hok].
    assert (end_second a = t_seconds t) as Ees by (unfold end_second; by rewrite Ht).
    destruct (Hc a) as [Hin|[Hlen Hb]].
    + split; [exact Ha|]. intros _. rewrite Ees. lia.
    + split; [|done]. cbn [qo_min fmap option_fmap option_map default]. destruct (N.eq_0_gt_0_cases (end_second a)) as [Hz|Hp]; [|left; cbn [fst]; unfold a_ekey; cbn [fst]; lia].
      right. split; [cbn [fst]; unfold a_ekey; cbn [fst]; lia|]. left. cbn [snd a_ekey fst].
      destruct (a_coll a) eqn:E; [|cbn; lia]. exfalso.
      pose proof (aok_valid _ _ Hok) as Hv. congruence.
    + left. apply elem_of_list_filter. split; [by exists t|done].
    + (* the page is full and everything in it is before [a] *)
      right. assert (filter (due now) rows = rows) as ->.
      { clear Hs Hso Hl Hc Hlen Hps. induction rows as [|b l IH]; [done|]. rewrite filter_cons. rewrite decide_True.
        - f_equal. apply IH. intros y Hy. apply Hb. by right.
        - specialize (Hb b (elem_of_list_here _ _)). unfold end_before, a_ekey in Hb. cbn [fst] in Hb. rewrite Ees in Hb.
          unfold end_second in Hb. unfold due. destruct (a_end b) as [t'|]; [exists t'; split; [done|]; lia|]. exfalso. lia. }
      split; [done|]. intros b Hb'. by apply Hb.
Qed.

Theorem next_settled w w' : ra_reachable p lb w -> p_valid p "" = false -> cf_max_settle (s_config (w_st w)) <= 100 -> t_seconds (w_time w) < U64_MAX ->
  run_sudo p lb w EndBlock = Ok w' ->
  let l := next_up (w_st w) (w_time w) in
  exists os, Forall2 (fun a o => handled p lb (view_of p w) (w_time w) (s_config (w_st w)) (s_halt (w_st w)) a (fst o) (snd o)) l os /\
    processed (w_st w) (w_st w') l os.
Proof.
  intros Hr He Hk Hn H. cbv zeta. apply (sudo_tx_settled p lb) in H as (st'&msgs&Hc&HS); [|done..].
  inversion Hc as [| |l os st2 Hl HF Hpr Hh Hwi|m st2 Hg]; subst; [|by inversion Hg].
  rewrite (first_due_unique _ _ _ _ _ Hl (next_first w (w_time w) Hr He Hk Hn)) in *. exists os. split; [done|].
  by rewrite (sa_storage _ _ _ _ _ _ _ HS).
Qed.
End RAQuote.
