(** Reserve auction: a call sends few messages and changes few entries, and so does a block, however many auctions there are. *)
From Verif Require Import Base BaseFacts Common IndexRange RAModel RASpec RAFacts RAInv WorkSpec Work.

Section Work.
Context (p : params) (lb : lib).

Lemma settlement_work a hb sp : at_most 2 1 0 1 0 (settlement a hb sp).
Proof. unfold settlement, at_most, burn_part, pay_part. repeat case_decide; cbn; lia. Qed.
Lemma outcome_work v now cfg h a o em : outcome lb v now cfg h a o em -> at_most 2 1 0 1 0 em.
Proof. destruct 1; [unfold at_most; cbn; lia|apply settlement_work]. Qed.
Lemma put_changes st k o : changes 1 (s_auctions st) (s_auctions (put st k o)).
Proof. destruct o; [apply changes_insert|apply changes_delete]. Qed.

Lemma work v e sender funds st m st' msgs : wf p st -> execute p lb v e sender funds st m = Ok (st', msgs) ->
  at_most 2 1 0 1 0 msgs /\ (length msgs <= 4)%nat /\ changes 1 (s_auctions st) (s_auctions st').
Proof.
  intros Hwf H. apply execute_effect in H; [|done].
  assert (at_most 2 1 0 1 0 msgs /\ changes 1 (s_auctions st) (s_auctions st')) as [Hm Hc].
  { destruct H as [? ? ? ? ? ? ms ? ? ? ? ? ? ? ? ? Hf| | |? ? ? ? ? ? ? ? Hb|? ? ? ? ? ? ? Ho].
    - split; [|apply changes_insert]. destruct Hf as [(_&_&->)|(_&_&->)]; unfold at_most; cbn; lia.
    - split; [unfold at_most; cbn; lia|apply changes_insert].
    - split; [unfold at_most; cbn; lia|apply changes_delete].
    - split; [|apply changes_insert]. destruct (bt_result _ _ _ _ _ _ _ Hb) as (?&?&_&_&[(_&_&_&->)|(?&?&_&_&_&_&->&_)]); unfold at_most; cbn; lia.
    - split; [by eapply outcome_work|apply put_changes]. }
  split_and!; try done. rewrite kinds_sum. unfold at_most in Hm. lia.
Qed.

Lemma settle_all_work v now cfg h st l resp st' msgs : settle_all p lb v now cfg h st l resp = Ok (st', msgs) ->
  exists em, msgs = resp ++ em /\ at_most (2 * length l) (length l) 0 (length l) 0 em /\
    changes (length l) (s_auctions st) (s_auctions st').
Proof.
  revert st resp. induction l as [|a l IH]; intros st resp H; cbn in H.
  - injection H as <- <-. exists []. split_and!; [by rewrite app_nil_r|unfold at_most; cbn; lia|apply changes_same].
  - apply bind_Ok in H as ([st1 r1]&H1&H). apply settle_inv in H1 as (o&em&->&->&Ho).
    apply IH in H as (em'&->&Hm&Hc). exists (em ++ em'). split_and!; [by rewrite app_assoc| |].
    + apply outcome_work in Ho. eapply at_most_le; [by apply (at_most_app _ _ _ _ _ _ _ _ _ _ _ _ Ho Hm)|cbn; lia..].
    + eapply (changes_trans 1 _ _ (s_auctions (put st (a_key a) o))); [apply put_changes|done].
Qed.

Lemma sudo_work v e st m st' msgs : sudo p lb v e st m = Ok (st', msgs) ->
  let n := N.to_nat (cf_max_settle (s_config st)) in
  at_most (2 * n) n 0 n 0 msgs /\ (length msgs <= 4 * n)%nat /\ changes n (s_auctions st) (s_auctions st').
Proof.
  intros H n.
  assert (at_most (2 * n) n 0 n 0 msgs /\ changes n (s_auctions st) (s_auctions st')) as [Hm Hc].
  { assert (forall st1 : state, s_auctions st1 = s_auctions st -> at_most (2 * n) n 0 n 0 [] /\ changes n (s_auctions st) (s_auctions st1)) as Hnone.
    { intros st1 ->. split; [unfold at_most; cbn; lia|apply changes_same]. }
    destruct m; cbn [sudo] in H.
    - unfold sudo_begin_block in H. cbv zeta in H. apply bind_Ok in H as (?&_&H). apply bind_Ok in H as (?&_&H). injection H as <- <-. by apply Hnone.
    - unfold sudo_end_block in H. apply bind_Ok in H as (bound&_&H). cbv zeta in H. apply bind_Ok in H as (er&_&H).
      apply bind_Ok in H as ([st1 r]&H1&H). injection H as <- <-. apply settle_all_work in H1 as (em&->&Hm&Hc).
      pose proof (firstn_le_length n (snd <$> index_scan ekey_leb entry_ekey (map_to_list (s_auctions st))
               (QOpts (Some false) None None (Some (BExcl (bound, ("", ""))))))) as Hl.
      set (l := due_auctions st bound (cf_max_settle (s_config st))) in *. change (length l <= n)%nat in Hl. rewrite app_nil_l.
      split; [eapply at_most_le; [exact Hm|lia..]|]. eapply changes_le; [|exact Hl].
      destruct (find_stale_halt_info _ _); exact Hc.
    - unfold sudo_update_params in H. apply bind_Ok in H as (?&_&H). cbv zeta in H. apply bind_Ok in H as (?&_&H).
      injection H as <- <-. by apply Hnone.
    - unfold sudo_set_min_reserve_prices in H. apply bind_Ok in H as (?&_&H). injection H as <- <-. by apply Hnone.
    - unfold sudo_unset_min_reserve_prices in H. apply bind_Ok in H as (?&_&H). injection H as <- <-. by apply Hnone.
    - injection H as <- <-. by apply Hnone. }
  split_and!; try done. rewrite kinds_sum. unfold at_most in Hm. lia.
Qed.
(** Only EndBlock sends anything. *)
Lemma sudo_quiet v e st m st' msgs : sudo p lb v e st m = Ok (st', msgs) -> m <> EndBlock -> msgs = [] /\ s_auctions st' = s_auctions st.
Proof.
  intros H Hm. destruct m; cbn [sudo] in H; try done.
  - unfold sudo_begin_block in H. cbv zeta in H. apply bind_Ok in H as (?&_&H). apply bind_Ok in H as (?&_&H). by injection H as <- <-.
  - unfold sudo_update_params in H. apply bind_Ok in H as (?&_&H). cbv zeta in H. apply bind_Ok in H as (?&_&H). by injection H as <- <-.
  - unfold sudo_set_min_reserve_prices in H. apply bind_Ok in H as (?&_&H). by injection H as <- <-.
  - unfold sudo_unset_min_reserve_prices in H. apply bind_Ok in H as (?&_&H). by injection H as <- <-.
  - by injection H as <- <-.
Qed.
End Work.
