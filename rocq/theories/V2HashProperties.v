(** The assumptions on the hash and on addresses are needed only for the strings that occur (V2HashSpec). *)
From stdpp Require Import relations.
From Verif Require Import Base BaseFacts Common Chain ChainFacts V2Model V2Spec V2Facts V2Inv V2Reach V2Book V2Auth V2Calls
  V2Query V2Live V2Examples V2More V2Final V2Properties V2ExactSpec V2Exact V2ExactProperties V2LocalSpec V2HashSpec V2Hash V2HashOver.

(** * C129 *)
(** A contract whose hash has no collision among the strings hashed, and whose addresses are no beginnings of each other
    among those looked at, behaves exactly like one of which this holds everywhere: every theorem that assumes it of all
    strings therefore holds of the calls and histories that stay within these strings. *)
Theorem C129_stand_in : forall p H A, no_collision p H -> no_prefix p A ->
  exists q, collision_free q /\ prefix_free q /\ (no_slash p A -> slash_free q) /\
    p_self q = p_self p /\ p_honest q = p_honest p /\ p_blocked q = p_blocked p /\ p_reg_reenters q = p_reg_reenters p /\
    (forall x, x ∈ H -> p_hash q x = p_hash p x) /\ (forall x, x ∈ A -> p_valid q x = p_valid p x) /\
    (forall v e sender funds st m, hashed e st m ⊆ H -> addresses v st m ⊆ A ->
       execute q v e sender funds st m = execute p v e sender funds st m) /\
    (forall n st, history_over p H A n st -> v2_history q n st) /\
    (forall st, small_history_over p H A st -> small_history q st) /\
    (forall w, reachable_over p H A w -> reachable q w).
Proof.
  intros p H A Hh Ha. exists (stand_in p H A). destruct (stand_in_same p H A) as (_&H1&H2).
  split; [by apply stand_in_collision_free|]. split; [by apply stand_in_prefix_free|]. split; [apply stand_in_slash_free|].
  do 4 (split; [done|]). split; [done|]. split; [done|]. split; [intros; by apply stand_in_execute|].
  split; [apply stand_in_history|]. split; [apply stand_in_small|]. apply stand_in_reachable.
Qed.
Print Assumptions C129_stand_in.
(** The strings hashed and the addresses looked at really are all that matters. *)
Theorem C129_nothing_else_used : forall p q v e sender funds st m,
  p_self q = p_self p -> (forall x, x ∈ hashed e st m -> p_hash q x = p_hash p x) ->
  (forall x, x ∈ addresses v st m -> p_valid q x = p_valid p x) ->
  execute q v e sender funds st m = execute p v e sender funds st m.
Proof. intros. by apply same_execute. Qed.
Print Assumptions C129_nothing_else_used.

(** Some of the theorems, with the assumptions on the strings that occur. *)
(** As C02. *)
Theorem C129_conservation : forall p H A, no_collision p H -> forall n st v e sender funds m st' msgs d,
  N.of_nat n < U64_MAX -> history_over p H A n st ->
  within p H A v e sender funds st m = Ok (st', msgs) ->
  escrow st' d + paid_out msgs d = escrow st d + (if no_coin_call m then 0 else coins_in funds d).
Proof. exact over_conservation. Qed.
Print Assumptions C129_conservation.
(** As C10. *)
Theorem C129_cheapest : forall p H A, no_collision p H -> no_prefix p A -> forall n v e sender funds st m st' msgs coll tok price,
  history_over p H A n st ->
  within p H A v e sender funds st m = Ok (st', msgs) -> bid_call st m coll tok price ->
  (exists a mb, cheapest st coll tok price a /\ price_of mb = price /\
     trade sender st m a mb true /\ settles p v (s_config st) sender funds m msgs a mb true /\
     s_asks st' !! a_id a = None) \/
  ((forall a, ~ offered st coll tok price a) /\ (forall c t to, ~ sells st m st' msgs c t to)).
Proof. exact over_cheapest. Qed.
Print Assumptions C129_cheapest.
(** As C12. *)
Theorem C129_bid_changes : forall p H A, no_collision p H -> no_prefix p A -> forall n v e sender funds st m st' msgs i b,
  no_slash p A -> N.of_nat n < U64_MAX -> history_over p H A n st ->
  within p H A v e sender funds st m = Ok (st', msgs) ->
  s_bids st !! i = Some b -> s_bids st' !! i <> Some b -> sender <> b_creator b ->
  s_bids st' !! i = None /\
  exists a, trade sender st m a (MBid b) false /\ settles p v (s_config st) sender funds m msgs a (MBid b) false /\
    a_coll a = b_coll b /\ a_tok a = b_tok b.
Proof. exact over_bid_changes. Qed.
Print Assumptions C129_bid_changes.
(** As C22. *)
Theorem C129_never_reissued : forall p H A, no_collision p H -> forall n k st0 st st1 st2 i c,
  N.of_nat n + N.of_nat k < U64_MAX ->
  instantiate p c = Ok st0 -> in_config c ⊆ A -> nsteps (hstep p (within p H A)) n st0 st ->
  (is_Some (s_bids st !! i) \/ is_Some (s_cbids st !! i)) ->
  nsteps (hstep p (within p H A)) k st st1 -> hstep p (within p H A) st1 st2 ->
  (s_bids st1 !! i = None -> s_bids st2 !! i = None) /\ (s_cbids st1 !! i = None -> s_cbids st2 !! i = None).
Proof. exact over_never_reissued. Qed.
Print Assumptions C129_never_reissued.
(** As C23. *)
Theorem C129_resting_ids : forall p H A, no_collision p H -> no_prefix p A -> forall n st i j a b,
  history_over p H A n st -> s_asks st !! i = Some a -> s_asks st !! j = Some b ->
  (i = j <-> a_coll a = a_coll b /\ a_tok a = a_tok b).
Proof. exact over_resting_ids. Qed.
Print Assumptions C129_resting_ids.
(** As C22. *)
Theorem C129_bid_accepted : forall p H A, no_collision p H -> no_prefix p A -> forall n v e sender st coll tok d,
  N.of_nat n < U64_MAX -> history_over p H A n st ->
  hashed e st (SetBid coll tok d) ⊆ H -> addresses v st (SetBid coll tok d) ⊆ A ->
  p_valid p coll = true -> named_ok p d -> ~ not_yet_tradable v e coll -> priced st coll (d_price d) ->
  (forall a, ~ offered st coll (Some tok) (d_price d) a) ->
  exists st' i, execute p v e sender [d_price d] st (SetBid coll tok d) = Ok (st', []) /\
    s_bids st !! i = None /\ s_bids st' = <[i := Bid i sender coll tok d]> (s_bids st) /\
    s_asks st' = s_asks st /\ s_cbids st' = s_cbids st.
Proof. exact over_bid_accepted. Qed.
Print Assumptions C129_bid_accepted.
(** As C121. *)
Theorem C129_exact : forall p H A, no_collision p H -> no_prefix p A -> forall v e sender funds st m st' msgs,
  no_slash p A -> small_history_over p H A st -> small_call funds m ->
  admin_call m = false -> hashed e st m ⊆ H -> addresses v st m ⊆ A ->
  execute p v e sender funds st m = Ok (st', msgs) <-> does p v e sender funds st m st' msgs.
Proof. exact over_exact. Qed.
Print Assumptions C129_exact.
(** As C33. *)
Theorem C129_only_owner_sells : forall p H A, no_collision p H -> no_prefix p A -> forall w sender funds m w' coll tok,
  reachable_over p H A w -> texec p (within p H A) sender funds m w w' ->
  owner_call (w_st w) m coll tok -> p_honest p coll = true ->
  (forall o, w_nft w coll tok = Some o -> o = sender) /\
  (royalty_known p (view_of p w) (s_config (w_st w)) coll ->
     w_nft w coll tok = Some sender /\ can_transfer w coll tok (p_self p) = true).
Proof. exact over_only_owner_sells. Qed.
Print Assumptions C129_only_owner_sells.

(** A hash that, like every hash, gives the same result for many strings (all of 40 or more characters), and an address
    check that accepts strings which begin other valid strings. *)
Definition ph : params := Params "mrktp" (fun s => if (String.length s <? 40)%nat then "#" +:+ s else "long")
  (fun s => negb (has_slash s)) (p_honest p0) (p_blocked p0) false.
Definition call_h (st : state) (t : string * list coin * msg) : result (state * list cmsg) :=
  execute ph (view_of ph w0) (env_of w0) t.1.1 t.1.2 st t.2.
Definition next_h (st : state) (t : string * list coin * msg) : state := state_of (call_h st t).
(** All that is hashed and looked at in the story and in the sale of token 2. *)
Definition used_hashes : list string := ["coll11"; "coll12"; "coll12" +:+ be8 10 +:+ be8 1; "coll1" +:+ be8 10 +:+ be8 2].
Definition used_addresses : list string := ["feemg"; "regis"; "coll1"; "finda"; "carol"; "royal"].
Definition sth : state := foldl next_h st0 story.
Fixpoint calls_within (st : state) (l : list (string * list coin * msg)) : bool :=
  match l with
  | [] => true
  | t :: l => is_ok (call_h st t) && bool_decide (t.1.1 <> "mrktp") &&
              bool_decide (hashed (env_of w0) st t.2 ⊆ used_hashes /\ addresses (view_of ph w0) st t.2 ⊆ used_addresses) &&
              calls_within (next_h st t) l
  end.
Lemma calls_within_steps st l : calls_within st l = true ->
  nsteps (hstep ph (within ph used_hashes used_addresses)) (length l) st (foldl next_h st l).
Proof.
  revert st. induction l as [|t l IH]; intros st E; [constructor|]. cbn [calls_within] in E.
  apply andb_prop in E as [E E4]. apply andb_prop in E as [E E3]. apply andb_prop in E as [E1 E2].
  apply bool_decide_eq_true in E2. apply (nsteps_l _ (length l) _ (next_h st t)); [|by apply IH].
  unfold next_h. destruct (call_h st t) as [[st' msgs]|] eqn:Ec; [|done].
  exists (view_of ph w0), (env_of w0), t.1.1, t.1.2, t.2, msgs. split; [done|].
  unfold within. rewrite E3. exact Ec.
Qed.
Example C129_case : no_collision ph used_hashes /\ no_prefix ph used_addresses /\ no_slash ph used_addresses /\
  ~ collision_free ph /\ ~ prefix_free ph /\
  history_over ph used_hashes used_addresses 4 sth /\
  hashed (env_of w0) sth sell2 ⊆ used_hashes /\ addresses (view_of ph w0) sth sell2 ⊆ used_addresses /\
  is_ok (within ph used_hashes used_addresses (view_of ph w0) (env_of w0) "alice" [us 5] sth sell2) = true /\
  s_cbids sth !! ("#coll1" +:+ be8 10 +:+ be8 2) = Some cbid1.
Proof.
  assert (forall (P Q : string -> Prop) l, Forall P l -> forall x, x ∈ l -> P x) as HF.
  { intros P _ l HP x Hx. by eapply Forall_forall. }
  split; [|split; [|split; [|split; [|split; [|split; [|split; [|split; [|split]]]]]]]].
  - intros x y Hx Hy.
    assert (Forall (fun x => Forall (fun y => p_hash ph x = p_hash ph y -> x = y) used_hashes) used_hashes) as E
      by (apply (bool_decide_unpack _); by vm_compute).
    rewrite Forall_forall in E. specialize (E x Hx). rewrite Forall_forall in E. by apply E.
  - intros s t r Hs Ht _ _ E.
    assert (Forall (fun s => String.length s = 5%nat) used_addresses) as F by (apply (bool_decide_unpack _); by vm_compute).
    rewrite Forall_forall in F. pose proof (F s Hs). pose proof (F t Ht). subst t. rewrite str_length_app in *.
    assert (String.length r = 0%nat) as Hr by lia. destruct r; [by rewrite str_app_nil_r|done].
  - intros s Hs Hv. by apply negb_true_iff.
  - intros E. by specialize (E (marks 40) (marks 41) eq_refl).
  - intros E. by specialize (E "a" "ab" "b" eq_refl eq_refl eq_refl).
  - exists cfg0, st0. split; [by vm_compute|]. split; [apply (bool_decide_unpack _); by vm_compute|].
    apply (calls_within_steps st0 story). by vm_compute.
  - apply (bool_decide_unpack _). by vm_compute.
  - apply (bool_decide_unpack _). by vm_compute.
  - by vm_compute.
  - by vm_compute.
Qed.

(** The same story as a history of 128-bit amounts and on the chain, where alice then sells token 2 to carol. *)
Lemma calls_within_small st l : calls_within st l = true -> Forall (fun t => small_call t.1.2 t.2) l ->
  rtc (fun s s' => exists v e sender funds m msgs, sender <> p_self ph /\ small_call funds m /\
         within ph used_hashes used_addresses v e sender funds s m = Ok (s', msgs)) st (foldl next_h st l).
Proof.
  revert st. induction l as [|t l IH]; intros st E F; [constructor|]. cbn [calls_within] in E.
  apply andb_prop in E as [E E4]. apply andb_prop in E as [E E3]. apply andb_prop in E as [E1 E2].
  apply Forall_cons in F as [F1 F2].
  apply bool_decide_eq_true in E2. apply (rtc_l _ _ (next_h st t)); [|by apply IH].
  unfold next_h. destruct (call_h st t) as [[st' msgs]|] eqn:Ec; [|done].
  exists (view_of ph w0), (env_of w0), t.1.1, t.1.2, t.2, msgs. split; [done|]. split; [done|].
  unfold within. rewrite E3. exact Ec.
Qed.
Definition handler_h := within ph used_hashes used_addresses.
Definition after_h (l : list (string * list coin * msg)) : world state :=
  match run_txs ph handler_h w0 l with Ok w => w | Err _ => w0 end.
Lemma after_h_reachable l : is_ok (run_txs ph handler_h w0 l) = true -> reachable_over ph used_hashes used_addresses (after_h l).
Proof.
  intros E. exists w0, cfg0. split; [by vm_compute|]. split; [apply (bool_decide_unpack _); by vm_compute|].
  split; [exact (proj2 w0_init)|]. unfold after_h. destruct (run_txs ph handler_h w0 l) as [w|] eqn:Er; [|done]. clear E.
  revert Er. generalize w0. induction l as [|[[s f] m] l IH]; intros w' Er.
  - cbn in Er. by injection Er as ->.
  - cbn [run_txs] in Er. apply bind_Ok in Er as (w1&H1&Er). apply run_tx_sound in H1.
    eapply rtc_l; [by eapply step_tx|]. by apply IH.
Qed.
Example C129_case_small : small_history_over ph used_hashes used_addresses sth /\ small_call [us 5] sell2 /\ admin_call sell2 = false.
Proof.
  split; [|split; [apply small_sell2; unfold U128_MAX; lia|done]].
  exists cfg0, st0. split; [by vm_compute|]. split; [apply (bool_decide_unpack _); by vm_compute|].
  apply (calls_within_small st0 story); [by vm_compute|]. unfold story, small_call, small, us, det.
  repeat constructor; cbn; try lia; intros c [= <-]; cbn; lia.
Qed.
Example C129_case_chain : reachable_over ph used_hashes used_addresses (after_h story) /\
  texec ph handler_h "alice" [us 5] sell2 (after_h story) (after_h (story ++ [("alice", [us 5], sell2)])) /\
  owner_call (w_st (after_h story)) sell2 "coll1" "2" /\ p_honest ph "coll1" = true /\
  w_nft (after_h story) "coll1" "2" = Some "alice" /\ w_nft (after_h (story ++ [("alice", [us 5], sell2)])) "coll1" "2" = Some "carol".
Proof.
  split; [apply after_h_reachable; by vm_compute|]. split.
  { apply run_tx_sound.
    assert (is_ok (run_tx ph handler_h (after_h story) "alice" [us 5] sell2) = true) as Hok by by vm_compute.
    assert (is_ok (run_txs ph handler_h w0 story) = true) as Hs by by vm_compute.
    assert (forall l w w1, run_txs ph handler_h w l = Ok w1 ->
              run_txs ph handler_h w (l ++ [("alice", [us 5], sell2)]) = run_tx ph handler_h w1 "alice" [us 5] sell2) as Happ.
    { clear. induction l as [|[[s f] m] l IH]; intros w w1 E.
      - cbn in E. injection E as ->. cbn [app run_txs]. by destruct (run_tx _ _ _ _ _ _).
      - cbn [app run_txs] in *. apply bind_Ok in E as (w2&E2&E). rewrite E2. by apply IH. }
    unfold after_h in *. destruct (run_txs ph handler_h w0 story) as [w|] eqn:Er; [|done].
    rewrite (Happ story w0 w Er). by destruct (run_tx ph handler_h w "alice" [us 5] sell2). }
  split; [constructor|]. split; [done|]. split; by vm_compute.
Qed.

(** The assumption is needed: with a hash that maps two of the strings hashed to the same result, somebody's bid
    disappears together with the coins in it when somebody else buys a listed NFT. *)
Definition pcol : params := Params "mrktp" (fun s => "h") valid0 (p_honest p0) (p_blocked p0) false.
Definition call_c (st : state) (t : string * list coin * msg) : result (state * list cmsg) :=
  execute pcol (view_of pcol w0) (env_of w0) t.1.1 t.1.2 st t.2.
Definition next_c (st : state) (t : string * list coin * msg) : state := state_of (call_c st t).
Definition story_c : list (string * list coin * msg) := [
  ("admin", [], SetListingFee (us 5));
  ("alice", [us 5], SetAsk "coll1" "1" (det 1000));
  ("bobby", [us 800], SetBid "coll1" "2" (det 800))].
Lemma steps_c st l : forallb (fun t => bool_decide (t.1.1 <> "mrktp")) l = true ->
  (fix ok st l := match l with [] => true | t :: l => is_ok (call_c st t) && ok (next_c st t) l end) st l = true ->
  nsteps (hstep pcol (execute pcol)) (length l) st (foldl next_c st l).
Proof.
  revert st. induction l as [|t l IH]; intros st E F; [constructor|]. cbn in E. apply andb_prop in E as [E1 E2].
  apply andb_prop in F as [F1 F2]. apply bool_decide_eq_true in E1.
  apply (nsteps_l _ (length l) _ (next_c st t)); [|by apply IH].
  unfold next_c. destruct (call_c st t) as [[st' msgs]|] eqn:Ec; [|done].
  exists (view_of pcol w0), (env_of w0), t.1.1, t.1.2, t.2, msgs. done.
Qed.
Theorem C129_collision_costs : exists p n st v e sender funds m st' msgs, prefix_free p /\ slash_free p /\
  N.of_nat n < U64_MAX /\ v2_history p n st /\ sender <> p_self p /\ no_coin_call m = false /\
  execute p v e sender funds st m = Ok (st', msgs) /\
  escrow st' "ustars" + paid_out msgs "ustars" + 800 = escrow st "ustars" + coins_in funds "ustars".
Proof.
  exists pcol, 3%nat, (foldl next_c st0 story_c), (view_of pcol w0), (env_of w0), "david", [us 1000], (AcceptAsk "h" (det 1000)).
  set (r := call_c (foldl next_c st0 story_c) ("david", [us 1000], AcceptAsk "h" (det 1000))).
  exists (state_of r), (msgs_of r). split; [exact p0_prefix_free|]. split; [exact p0_slash_free|].
  split; [by vm_compute|]. split.
  { exists cfg0, st0. split; [by vm_compute|]. apply (steps_c st0 story_c); by vm_compute. }
  split; [done|]. split; [done|]. split; [|by vm_compute].
  assert (is_ok r = true) as Hok by by vm_compute. change (r = Ok (state_of r, msgs_of r)). by destruct r as [[]|].
Qed.
Print Assumptions C129_collision_costs.
