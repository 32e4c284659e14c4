(** Proofs for C141 (RADrainSpec): the auction house can be emptied in any order. *)
From stdpp Require Import relations.
From Verif Require Import Base BaseFacts Common Chain ChainFacts LedgerSpec TxSpec TxFacts RAModel RASpec RAFacts
  RAInv RAReach RALive RAExactSpec RAExact RATx RADrainSpec.

Section RADrain.
Context (p : params) (lb : lib).
Notation execute := (RAModel.execute p lb).

Definition given_out (c : closing) : list cmsg :=
  match c with Cancel a => [MNft (a_coll a) (a_tok a) (a_seller a)] | Settle a _ hb sp => settlement a hb sp end.
Definition who_of (c : closing) : addr := fst (fst (closing_call c)).
Definition call_of (c : closing) : msg := snd (closing_call c).

Lemma closing_calls w c : closable p lb w c ->
  calls p lb (view_of p w) (w_time w) (who_of c) [] (w_st w) (call_of c) (put_auction (w_st w) (a_coll (auction_of c), a_tok (auction_of c)) None) (given_out c).
Proof.
  intros (Ha&Hs&H). destruct c as [a|a who hb sp]; cbn in *.
  - by eapply cancels.
  - destruct H as (_&Hh&(t&Ht&Hle&Hha)&Hr&Hsp&Hra&_). eapply settles; [done..|]. split; [|done]. by eapply sold.
Qed.
Lemma given_goes w c : ra_reachable p lb w -> closable p lb w c -> Forall (goes_through p w) (given_out c).
Proof.
  intros Hre (Ha&Hs&H). destruct c as [a|a who hb sp]; cbn in *.
  - apply go_nft. by eapply held_moves.
  - destruct H as (_&Hh&(t&Ht&Hle&Hha)&Hr&Hsp&Hra&Hb1&Hb2). unfold settlement. rewrite !Forall_app. split_and!.
    + unfold burn_part. case_decide; constructor; [cbn; lia|constructor].
    + by apply pay_part_goes.
    + by apply pay_part_goes.
    + apply go_nft. by eapply held_moves.
Qed.
Lemma who_not_self w c : ra_reachable p lb w -> closable p lb w c -> who_of c <> p_self p.
Proof.
  intros Hr (Ha&_&H). destruct c as [a|a who hb sp]; cbn in *; [|tauto].
  destruct (wf_auction _ _ (reachable_wf _ _ _ Hr) _ _ Ha) as [_ Hok]. by apply (aok_seller _ _ Hok).
Qed.

Lemma given_sent x d c : sent_to x d (given_out c) = gets x d c.
Proof.
  destruct c as [a|a who hb sp]; [done|]. unfold given_out, settlement, burn_part, pay_part, gets, sent_to.
  repeat case_decide; cbn; unfold of_denom; cbn; repeat case_decide; try done; try lia.
Qed.
Lemma given_leaving w d c : closable p lb w c -> leaving d (given_out c) = won_with d c.
Proof.
  destruct c as [a|a who hb sp]; [done|]. intros (_&_&_&_&_&_&Hsp&_). unfold splits in Hsp.
  unfold given_out, settlement, burn_part, pay_part, won_with, leaving.
  repeat case_decide; cbn; unfold of_denom; cbn; repeat case_decide; try done; try lia.
Qed.
Lemma given_moved c t cl : moved_to c t (given_out cl) =
  if decide (a_coll (auction_of cl) = c /\ a_tok (auction_of cl) = t) then Some (nft_goes_to cl) else None.
Proof.
  destruct cl as [a|a who hb sp]; cbn [given_out auction_of nft_goes_to].
  - unfold moved_to. cbn. by case_decide.
  - unfold settlement, burn_part, pay_part. repeat case_decide; cbn [app]; rewrite ?moved_to_cons; unfold moved_to; cbn; try rewrite decide_True by done; try rewrite decide_False by done; done.
Qed.

Lemma close_one w c : ra_reachable p lb w -> closable p lb w c ->
  exists w', run_tx p execute w (who_of c) [] (call_of c) = Ok w' /\ ra_reachable p lb w' /\ closed p w [c] w'.
Proof.
  intros Hr Hc. pose proof (closing_calls _ _ Hc) as He. pose proof (reachable_history p lb _ Hr) as Hst.
  assert (forall y : coin, y ∈ [] -> c_amount y <= U128_MAX) as Hf by (intros ? ?%elem_of_nil; done).
  assert (exists w', run_tx p execute w (who_of c) [] (call_of c) = Ok w') as [w' Hrun].
  { apply tx_goes; [done..|]. split; [split; [by eapply who_not_self|intros d; rewrite coins_of_nil; lia]|].
    eexists _, _. split; [exact He|by apply given_goes]. }
  exists w'. split; [done|]. split.
  { destruct Hr as (w0&Hi&Hs). exists w0. split; [done|]. eapply rtc_r; [done|]. eapply step_tx. by apply run_tx_sound. }
  apply (run_tx_settled p execute) in Hrun as (_&st'&msgs&He'&HS).
  apply (calls_exact p lb _ Hst (view_of p w) (env_of w)) in He; [|done]. rewrite He in He'. injection He' as <- <-.
  pose proof (who_not_self _ _ Hr Hc) as Hns. destruct Hc as (Ha&Hcs&Hc'). assert (closable p lb w c) as Hc by done.
  split.
  - intros k a. rewrite (sa_storage _ _ _ _ _ _ _ HS). cbn [put_auction s_auctions]. rewrite lookup_delete_Some. cbn [map].
    rewrite elem_of_list_singleton. split.
    + intros [Hk Hl]. split; [done|]. intros ->. destruct (auction_custody _ _ _ _ _ Hr Hl) as [-> _]. done.
    + intros [Hl Hne]. split; [|done]. intros <-. pose proof (eq_trans (eq_sym Ha) Hl) as [= E]. by apply Hne.
  - intros x d Hx. pose proof (sa_bank _ _ _ _ _ _ _ HS x d) as HB. rewrite !(decide_False (P := x = p_self p)) in HB by done.
    rewrite given_sent, coins_of_nil in HB. cbn [sum_over]. case_decide; lia.
  - intros d. pose proof (sa_bank _ _ _ _ _ _ _ HS (p_self p) d) as HB. rewrite !(decide_True (P := p_self p = p_self p)) in HB by done.
    rewrite given_sent, coins_of_nil, (given_leaving w) in HB by done. cbn [sum_over]. case_decide; lia.
  - intros c' ->%elem_of_list_singleton Hh. rewrite (sa_nft _ _ _ _ _ _ _ HS), given_moved, decide_True by done. by rewrite Hh.
  - intros c' t Hno. rewrite (sa_nft _ _ _ _ _ _ _ HS), given_moved, decide_False; [done|]. intros [E1 E2].
    apply (Hno (auction_of c)); [apply elem_of_list_singleton; done|done..].
  - rewrite (sa_storage _ _ _ _ _ _ _ HS), (sa_height _ _ _ _ _ _ _ HS), (sa_time _ _ _ _ _ _ _ HS), (sa_ora _ _ _ _ _ _ _ HS). done.
Qed.

Lemma closed_nil w : closed p w [] w.
Proof.
  split; try done.
  - intros k a. cbn. split; [intros H; split; [done|apply not_elem_of_nil]|by intros [? _]].
  - intros x d _. cbn. lia.
  - intros c H. by apply elem_of_nil in H.
Qed.
Lemma closed_cons w c w1 cs w2 : (forall c', c' ∈ cs -> closable p lb w c') -> closable p lb w c -> auction_of c ∉ map auction_of cs ->
  closed p w [c] w1 -> closed p w1 cs w2 -> closed p w (c :: cs) w2.
Proof.
  intros Hcs Hc Hn H1 H2. split.
  - intros k a. rewrite (cl_book _ _ _ _ H2), (cl_book _ _ _ _ H1). cbn [map]. rewrite elem_of_list_singleton, not_elem_of_cons. tauto.
  - intros x d Hx. rewrite (cl_paid _ _ _ _ H2), (cl_paid _ _ _ _ H1) by done. cbn. lia.
  - intros d. pose proof (cl_kept _ _ _ _ H1 d). pose proof (cl_kept _ _ _ _ H2 d). cbn in *. lia.
  - intros c' Hin Hh. apply elem_of_cons in Hin as [->|Hin]; [|by apply (cl_nft _ _ _ _ H2)].
    rewrite (cl_other _ _ _ _ H2); [by apply (cl_nft _ _ _ _ H1); [apply elem_of_list_singleton|]|].
    intros a' Hin E1 E2. apply Hn. apply elem_of_list_In, in_map_iff in Hin as (c'&<-&Hin). apply elem_of_list_In in Hin.
    destruct Hc as [Hc _], (Hcs _ Hin) as [Hc' _]. rewrite E1, E2 in Hc'. pose proof (eq_trans (eq_sym Hc) Hc') as [= ->].
    apply elem_of_list_In, in_map, elem_of_list_In. done.
  - intros c' t Hno. rewrite (cl_other _ _ _ _ H2), (cl_other _ _ _ _ H1); [done| |].
    + intros a Ha%elem_of_list_singleton. apply Hno. subst. left.
    + intros a Hin. apply Hno. by right.
  - destruct (cl_rest _ _ _ _ H1) as (?&?&?&?&?&?). destruct (cl_rest _ _ _ _ H2) as (?&?&?&?&?&?). split_and!; congruence.
Qed.
Lemma closable_later w c w1 c' : closed p w [c] w1 -> auction_of c' <> auction_of c -> closable p lb w c' -> closable p lb w1 c'.
Proof.
  intros H Hne (Ha&Hs&Hc). destruct (cl_rest _ _ _ _ H) as (E1&_&E3&E4&E5&_). split; [|split; [done|]].
  - apply (cl_book _ _ _ _ H). split; [done|]. cbn [map]. by rewrite elem_of_list_singleton.
  - destruct c' as [a|a who hb sp]; [done|]. unfold royalty_known, rates in *. cbn [q_info view_of] in *. by rewrite E1, E3, E4, E5.
Qed.

Theorem close_any cs : forall w, ra_reachable p lb w -> NoDup (map auction_of cs) -> (forall c, c ∈ cs -> closable p lb w c) ->
  exists w', run_txs p execute w (map closing_call cs) = Ok w' /\ ra_reachable p lb w' /\ closed p w cs w'.
Proof.
  induction cs as [|c cs IH]; intros w Hr Hnd Hcs.
  { exists w. split_and!; [done..|apply closed_nil]. }
  cbn [map] in Hnd. apply NoDup_cons in Hnd as [Hn Hnd]. assert (closable p lb w c) as Hc by (apply Hcs; left).
  destruct (close_one w c) as (w1&Hrun&Hr1&H1); [done..|].
  destruct (IH w1 Hr1 Hnd) as (w2&Hruns&Hr2&H2).
  { intros c' Hin. eapply closable_later; [exact H1| |apply Hcs; by right].
    intros E. apply Hn. rewrite <-E. by apply elem_of_list_In, in_map, elem_of_list_In. }
  exists w2. split_and!; [|done|].
  - destruct c; cbn in Hrun |- *; rewrite Hrun; exact Hruns.
  - eapply closed_cons; try done. intros c' Hin. apply Hcs. by right.
Qed.
Theorem close_all w cs : ra_reachable p lb w -> NoDup (map auction_of cs) -> (forall c, c ∈ cs -> closable p lb w c) ->
  (forall k a, s_auctions (w_st w) !! k = Some a -> a ∈ map auction_of cs) ->
  exists w', run_txs p execute w (map closing_call cs) = Ok w' /\ closed p w cs w' /\ s_auctions (w_st w') = ∅.
Proof.
  intros Hr Hnd Hcs Hall. destruct (close_any cs w Hr Hnd Hcs) as (w'&Hrun&_&H). exists w'. split_and!; [done..|].
  apply map_empty. intros k. apply eq_None_not_Some. intros [a Ha]. apply (cl_book _ _ _ _ H) in Ha as [Ha Hn]. by eapply Hn, Hall.
Qed.
End RADrain.
