(** Theorems on marketplace v2 carried over to a hash and addresses of which the assumptions hold only where they are used. *)
From stdpp Require Import relations.
From Verif Require Import Base BaseFacts Common Chain ChainFacts V2Model V2Spec V2Facts V2Inv V2Reach V2Book V2Auth V2Calls
  V2Query V2Live V2Examples V2More V2Final V2Properties V2ExactSpec V2Exact V2ExactProperties V2LocalSpec V2HashSpec V2Hash.

Section Over.
Context (p : params) (H A : list string).
Context (Hh : no_collision p H) (Ha : no_prefix p A).
Let q := stand_in p H A.
Let Hc : collision_free q := stand_in_collision_free p H A Hh.
Let Hp : prefix_free q := stand_in_prefix_free p H A Ha.

Lemma over_conservation n st v e sender funds m st' msgs d : N.of_nat n < U64_MAX -> history_over p H A n st ->
  within p H A v e sender funds st m = Ok (st', msgs) ->
  escrow st' d + paid_out msgs d = escrow st d + (if no_coin_call m then 0 else coins_in funds d).
Proof.
  intros Hn Hi (_&_&_&Hx)%within_Ok. exact (C02_conservation q n st v e sender funds m st' msgs d Hc Hn (stand_in_history _ _ _ _ _ Hi) Hx).
Qed.
Lemma over_cheapest n v e sender funds st m st' msgs coll tok price : history_over p H A n st ->
  within p H A v e sender funds st m = Ok (st', msgs) -> bid_call st m coll tok price ->
  (exists a mb, cheapest st coll tok price a /\ price_of mb = price /\
     trade sender st m a mb true /\ settles p v (s_config st) sender funds m msgs a mb true /\
     s_asks st' !! a_id a = None) \/
  ((forall a, ~ offered st coll tok price a) /\ (forall c t to, ~ sells st m st' msgs c t to)).
Proof.
  intros Hi (_&_&_&Hx)%within_Ok. exact (C10_cheapest_ask q n v e sender funds st m st' msgs coll tok price Hc Hp (stand_in_history _ _ _ _ _ Hi) Hx).
Qed.
Lemma over_bid_changes n v e sender funds st m st' msgs i b : no_slash p A -> N.of_nat n < U64_MAX -> history_over p H A n st ->
  within p H A v e sender funds st m = Ok (st', msgs) ->
  s_bids st !! i = Some b -> s_bids st' !! i <> Some b -> sender <> b_creator b ->
  s_bids st' !! i = None /\
  exists a, trade sender st m a (MBid b) false /\ settles p v (s_config st) sender funds m msgs a (MBid b) false /\
    a_coll a = b_coll b /\ a_tok a = b_tok b.
Proof.
  intros Hs Hn Hi (_&_&_&Hx)%within_Ok.
  exact (C12_bid_changes q n v e sender funds st m st' msgs i b Hc Hp (stand_in_slash_free p H A Hs) Hn (stand_in_history _ _ _ _ _ Hi) Hx).
Qed.
Lemma over_never_reissued n k st0 st st1 st2 i c : N.of_nat n + N.of_nat k < U64_MAX ->
  instantiate p c = Ok st0 -> in_config c ⊆ A -> nsteps (hstep p (within p H A)) n st0 st ->
  (is_Some (s_bids st !! i) \/ is_Some (s_cbids st !! i)) ->
  nsteps (hstep p (within p H A)) k st st1 -> hstep p (within p H A) st1 st2 ->
  (s_bids st1 !! i = None -> s_bids st2 !! i = None) /\ (s_cbids st1 !! i = None -> s_cbids st2 !! i = None).
Proof.
  intros Hn Hi Hcf H1 Hb H2 H3.
  apply (C22_ids_never_reissued q n k st0 st st1 st2 i c Hc Hn); [by unfold q; rewrite stand_in_instantiate|by apply stand_in_steps|done|by apply stand_in_steps|].
  apply (nsteps_once (R := hstep p (within p H A))) in H3. apply stand_in_steps in H3. by apply nsteps_once_inv in H3.
Qed.
Lemma over_resting_ids n st i j a b : history_over p H A n st -> s_asks st !! i = Some a -> s_asks st !! j = Some b ->
  (i = j <-> a_coll a = a_coll b /\ a_tok a = a_tok b).
Proof.
  intros Hi Ha1 Hb1. exact (C23_resting_ids q n st i j a b (stand_in_history _ _ _ _ _ Hi) Ha1 Hb1 Hc Hp).
Qed.
Lemma over_bid_accepted n v e sender st coll tok d : N.of_nat n < U64_MAX -> history_over p H A n st ->
  hashed e st (SetBid coll tok d) ⊆ H -> addresses v st (SetBid coll tok d) ⊆ A ->
  p_valid p coll = true -> named_ok p d -> ~ not_yet_tradable v e coll -> priced st coll (d_price d) ->
  (forall a, ~ offered st coll (Some tok) (d_price d) a) ->
  exists st' i, execute p v e sender [d_price d] st (SetBid coll tok d) = Ok (st', []) /\
    s_bids st !! i = None /\ s_bids st' = <[i := Bid i sender coll tok d]> (s_bids st) /\
    s_asks st' = s_asks st /\ s_cbids st' = s_cbids st.
Proof.
  intros Hn Hi Hx Hy Hv Hd Ht Hr Ho. rewrite <-(stand_in_execute p H A) by done.
  assert (in_msg (SetBid coll tok d) ⊆ A) as Hm by (etrans; [apply Hmsg|exact Hy]). cbn in Hm.
  assert (opening q v e st coll d) as (?&?&?&?).
  { eapply (same_opening p q H A); [apply stand_in_same|done|]. done. }
  exact (C22_bid_accepted q n v e sender st coll tok d Hc Hp Hn (stand_in_history _ _ _ _ _ Hi) ltac:(done) ltac:(done) Ht Hr Ho).
Qed.
Lemma over_exact v e sender funds st m st' msgs : no_slash p A -> small_history_over p H A st -> small_call funds m ->
  admin_call m = false -> hashed e st m ⊆ H -> addresses v st m ⊆ A ->
  execute p v e sender funds st m = Ok (st', msgs) <-> does p v e sender funds st m st' msgs.
Proof.
  intros Hs Hi Hm Hadm Hx Hy. rewrite <-(stand_in_execute p H A) by done.
  fold q. rewrite (C121_order_calls_exact q) by (done || by apply stand_in_slash_free || by apply stand_in_small).
  assert (same_on p q (hashed e st m) (addresses v st m)) as E by (eapply same_on_sub; [apply stand_in_same|done..]).
  split; [|by apply same_does]. apply same_does. destruct E as (E1&E2&E3). split_and!; [done| |]; intros; symmetry; auto.
Qed.
Lemma over_only_owner_sells w sender funds m w' coll tok :
  reachable_over p H A w -> texec p (within p H A) sender funds m w w' ->
  owner_call (w_st w) m coll tok -> p_honest p coll = true ->
  (forall o, w_nft w coll tok = Some o -> o = sender) /\
  (royalty_known p (view_of p w) (s_config (w_st w)) coll ->
     w_nft w coll tok = Some sender /\ can_transfer w coll tok (p_self p) = true).
Proof.
  intros Hr Ht. destruct (stand_in_exec p H A) as [Hx _].
  exact (C33_only_owner_sells q w sender funds m w' coll tok (stand_in_reachable _ _ _ _ Hr) Hc Hp (Hx _ _ _ _ _ Ht)).
Qed.
End Over.
