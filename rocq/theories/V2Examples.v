(** A concrete marketplace v2 on a concrete chain, used to show that the hypotheses of the theorems are met by
    reachable, non-trivial states, and as the source of counterexamples. *)
From stdpp Require Import relations.
From Verif Require Import Base BaseFacts Common Chain ChainFacts V2Model V2Spec V2Facts V2Inv V2Reach.

(** Addresses have five characters and no slash. *)
Definition valid0 (s : string) : bool := (String.length s =? 5)%nat && negb (has_slash s).
Definition p0 : params :=
  Params "mrktp" (fun s => "#" +:+ s) valid0
         (fun c => bool_decide (c = "coll1") || bool_decide (c = "coll2"))
         (fun a => bool_decide (a = "block")) false.
Lemma p0_collision_free : collision_free p0.
Proof. intros x y H. cbn in H. rewrite !str_app_cons, !str_app_nil in H. by injection H as ->. Qed.
Lemma p0_slash_free : slash_free p0.
Proof. intros s H. cbn in H. unfold valid0 in H. apply andb_prop in H as [_ H]. by apply negb_true_iff. Qed.
Lemma p0_prefix_free : prefix_free p0.
Proof.
  intros s t r Hs Ht <-. cbn in Hs, Ht. unfold valid0 in *. apply andb_prop in Hs as [Hs _]. apply andb_prop in Ht as [Ht _].
  apply Nat.eqb_eq in Hs, Ht. rewrite str_length_app in Ht.
  assert (String.length r = 0%nat) as Hr by lia. destruct r; [by rewrite str_app_nil_r|done].
Qed.

Definition us (n : N) : coin := Coin "ustars" n.
Definition det (n : N) : details := Details (us n) None None.
(** 2% protocol fee, of which 20% go to the maker's and 30% to the taker's finder; royalties capped at 10%. *)
Definition cfg0 : config := Config "feemg" "regis" 200 1000 2000 3000 "ustars".
(** Collection 1 trades since the beginning and advertises a 5% royalty; collection 2 starts trading at 2000000000. *)
Definition ora0 : oracle := Oracle (fun _ _ => None) (fun _ _ _ => false)
  (fun c => if bool_decide (c = "coll1") then Some (CollectionInfo None (Some ("royal", 50000000000000000)))
            else if bool_decide (c = "coll2") then Some (CollectionInfo (Some 2000000000) None) else None)
  (fun _ _ _ => Ok (None, None)) (Some (Some "admin")).
Definition st0 : state := State cfg0 ∅ ∅ 0 ∅ ∅ ∅.
(** Everybody but the contract has a million ustars; alice owns all NFTs and has approved the marketplace. *)
Definition w0 : world state := World
  (fun a d => if bool_decide (a = "mrktp") then 0 else if bool_decide (d = "ustars") then 1000000 else 0)
  (fun c t => if bool_decide (c = "coll1") || bool_decide (c = "coll2") then Some "alice" else None)
  (fun _ _ _ => false)
  (fun c o x => bool_decide (o = "alice") && bool_decide (x = "mrktp"))
  ora0 10 1000000000 st0.
Lemma w0_init : v2_init p0 w0.
Proof.
  split.
  - exists cfg0. by vm_compute.
  - split; [done|]. intros c x. cbn. done.
Qed.

Notation tx := (string * list coin * msg)%type.
Definition after (w : world state) (txs : list tx) : world state :=
  match run_txs p0 (execute p0) w txs with Ok w' => w' | Err _ => w end.

Lemma run_txs_steps w txs w' : run_txs p0 (execute p0) w txs = Ok w' -> rtc (v2_step p0) w w'.
Proof.
  revert w. induction txs as [|[[s f] m] txs IH]; intros w H.
  - cbn in H. by injection H as ->.
  - cbn [run_txs] in H. apply bind_Ok in H as (w1&H1&H). apply run_tx_sound in H1.
    eapply rtc_l; [by eapply step_tx|]. by apply IH.
Qed.
Lemma run_txs_hsteps w txs w' : run_txs p0 (execute p0) w txs = Ok w' ->
  nsteps (hstep p0 (execute p0)) (length txs) (w_st w) (w_st w').
Proof.
  revert w. induction txs as [|[[s f] m] txs IH]; intros w H.
  - cbn in H. injection H as ->. constructor.
  - cbn [run_txs] in H. apply bind_Ok in H as (w1&H1&H). apply IH in H.
    unfold run_tx in H1. apply bind_Ok in H1 as (u&Hu&H1). apply bind_Ok in H1 as ([st' msgs]&He&H1).
    apply ensure_Ok in Hu. apply andb_prop in Hu as [Hs _]. apply negb_true_iff, bool_decide_eq_false in Hs.
    econstructor; [|exact H]. cbn [fst snd] in H1.
    assert (w_st w1 = st') as ->.
    { clear -H1. assert (forall (w : world state) ms w', run_msgs p0 w ms = Ok w' -> w_st w' = w_st w) as Hst.
      { clear. intros w ms. revert w. induction ms as [|m ms IH]; intros w w' H.
        - cbn in H. by injection H as ->.
        - destruct m; cbn [run_msgs] in H.
          + apply bind_Ok in H as (?&_&H). by apply IH in H.
          + apply bind_Ok in H as (?&_&H). destruct (p_honest p0 coll); [apply bind_Ok in H as (?&_&H)|]; by apply IH in H.
          + by apply IH in H.
          + apply bind_Ok in H as (?&_&H). by apply IH in H.
          + by apply IH in H. }
      by apply Hst in H1. }
    by exists (view_of p0 (pay_in p0 w s f)), (env_of w), s, f, m, msgs.
Qed.
Lemma after_reachable txs : is_ok (run_txs p0 (execute p0) w0 txs) = true -> reachable p0 (after w0 txs).
Proof.
  intros H. exists w0. split; [exact w0_init|]. unfold after. destruct (run_txs p0 (execute p0) w0 txs) eqn:E; [|done].
  by apply run_txs_steps in E.
Qed.
Lemma after_history txs : is_ok (run_txs p0 (execute p0) w0 txs) = true ->
  v2_history p0 (length txs) (w_st (after w0 txs)).
Proof.
  intros H. exists cfg0, st0. split; [by vm_compute|]. unfold after. destruct (run_txs p0 (execute p0) w0 txs) eqn:E; [|done].
  by apply run_txs_hsteps in E.
Qed.

Lemma after_one w s f m : is_ok (run_tx p0 (execute p0) w s f m) = true ->
  run_tx p0 (execute p0) w s f m = Ok (after w [(s, f, m)]).
Proof.
  unfold after. cbn [run_txs]. destruct (run_tx p0 (execute p0) w s f m) eqn:E; cbn; done.
Qed.
Lemma not_ok {A} (r : result A) : is_ok r = false -> exists er, r = Err er.
Proof. destruct r; [done|eauto]. Qed.

Lemma one_entry {A} (m : gmap string A) i x j y : map_to_list m = [(i, x)] -> m !! j = Some y -> j = i /\ y = x.
Proof.
  intros E H%elem_of_map_to_list. rewrite E in H. apply elem_of_list_singleton in H. by injection H as -> ->.
Qed.

(** The story: a listing fee is configured, alice lists token 1, bobby bids on token 2 (for carol), carol bids on the
    whole collection. *)
Definition story : list tx := [
  ("admin", [], SetListingFee (us 5));
  ("alice", [us 5], SetAsk "coll1" "1" (Details (us 1000) None (Some "finda")));
  ("bobby", [us 800], SetBid "coll1" "2" (Details (us 800) (Some "carol") None));
  ("carol", [us 900], SetCollectionBid "coll1" (det 900))].
Definition w1 : world state := after w0 story.
Definition st1 : state := w_st w1.
Lemma w1_reachable : reachable p0 w1.
Proof. apply after_reachable. by vm_compute. Qed.
Lemma st1_history : v2_history p0 4 st1.
Proof. apply (after_history story). by vm_compute. Qed.
Definition ask1_id : string := "#coll11".
Definition bid_id : string := "#coll12" +:+ be8 10 +:+ be8 1.
Definition cbid_id : string := "#coll1" +:+ be8 10 +:+ be8 2.
Definition ask1 : ask := Ask ask1_id "alice" "coll1" "1" (Details (us 1000) None (Some "finda")).
Definition bid1 : bid := Bid bid_id "bobby" "coll1" "2" (Details (us 800) (Some "carol") None).
Definition cbid1 : cbid := CBid cbid_id "carol" "coll1" (det 900).
Lemma st1_orders : s_asks st1 !! ask1_id = Some ask1 /\ s_bids st1 !! bid_id = Some bid1 /\ s_cbids st1 !! cbid_id = Some cbid1.
Proof. by vm_compute. Qed.

(** One call on that state, as the handler sees it. *)
Definition call1 (sender : addr) (funds : list coin) (m : msg) : result (state * list cmsg) :=
  execute p0 (view_of p0 w1) (env_of w1) sender funds st1 m.
Definition msgs_of (r : result (state * list cmsg)) : list cmsg := match r with Ok (_, ms) => ms | Err _ => [] end.
Definition state_of (r : result (state * list cmsg)) : state := match r with Ok (st, _) => st | Err _ => st0 end.

(** * Counterexamples *)
(** Coins attached to AcceptCollectionBid stay in the contract: alice attaches 7 ustars when selling to carol. *)
Lemma stranded_coins :
  exists p w sender funds m w', reachable p w /\ run_tx p (execute p) w sender funds m = Ok w' /\
    w_bank w (p_self p) "ustars" = escrow (w_st w) "ustars" /\
    coins_in funds "ustars" = 7 /\
    w_bank w' (p_self p) "ustars" = escrow (w_st w') "ustars" + 7.
Proof.
  exists p0, w1, "alice", [us 7], (AcceptCollectionBid cbid_id "2" (det 800)),
    (after w1 [("alice", [us 7], AcceptCollectionBid cbid_id "2" (det 800))]).
  split; [exact w1_reachable|]. split; [apply after_one; by vm_compute|].
  split; [by vm_compute|]. split; by vm_compute.
Qed.

(** The collection announces a later trading start after alice has listed: david can still buy. *)
Definition ora_late : oracle := Oracle (fun _ _ => None) (fun _ _ _ => false)
  (fun c => Some (CollectionInfo (Some 9000000000) None)) (fun _ _ _ => Ok (None, None)) (Some (Some "admin")).
Definition w_late : world state :=
  World (w_bank w1) (w_nft w1) (w_appr w1) (w_oper w1) ora_late (w_height w1) (w_time w1) (w_st w1).
Lemma w_late_reachable : reachable p0 w_late.
Proof.
  destruct w1_reachable as (w&Hi&Hs). exists w. split; [done|]. eapply rtc_r; [done|].
  apply step_env. exact (ES_oracle p0 w1 ora_late).
Qed.
Lemma sold_early :
  exists p w sender funds m st' msgs c t to, reachable p w /\
    not_yet_tradable (view_of p w) (env_of w) c /\
    execute p (view_of p (pay_in p w sender funds)) (env_of w) sender funds (w_st w) m = Ok (st', msgs) /\
    sells (w_st w) m st' msgs c t to /\ (exists w', run_tx p (execute p) w sender funds m = Ok w').
Proof.
  set (r := execute p0 (view_of p0 (pay_in p0 w_late "david" [us 1000])) (env_of w_late) "david" [us 1000] (w_st w_late)
              (AcceptAsk ask1_id (det 1000))).
  exists p0, w_late, "david", [us 1000], (AcceptAsk ask1_id (det 1000)), (state_of r), (msgs_of r), "coll1", "1", "david".
  split; [exact w_late_reachable|]. split.
  { exists (CollectionInfo (Some 9000000000) None), 9000000000. split; [done|]. split; [done|]. by vm_compute. }
  split; [by vm_compute|]. split.
  - split; [|split; [done|]].
    + assert (msgs_of r = [MSend "feemg" [us 16]; MSend "finda" [us 4]; MSend "alice" [us 980]; MNft "coll1" "1" "david"]) as ->
        by by vm_compute. set_solver.
    + intros i. assert (s_asks (state_of r) = ∅) as -> by (apply map_to_list_empty_iff; by vm_compute). rewrite lookup_empty. by intros [? ?].
  - exists (after w_late [("david", [us 1000], AcceptAsk ask1_id (det 1000))]). apply after_one. by vm_compute.
Qed.

(** The best bid names a finder that cannot receive coins: alice's listing matches it and is reverted. *)
Definition poison : list tx := [
  ("admin", [], SetListingFee (us 5));
  ("carol", [us 900], SetCollectionBid "coll1" (det 900));
  ("mallo", [us 950], SetCollectionBid "coll1" (Details (us 950) None (Some "block")))].
Definition w_poison : world state := after w0 poison.
Lemma poison_bid :
  exists p w sender coll tok d lp mb, reachable p w /\
    w_nft w coll tok = Some sender /\ can_transfer w coll tok (p_self p) = true /\ p_honest p coll = true /\
    ~ not_yet_tradable (view_of p w) (env_of w) coll /\ named_ok p d /\ priced (w_st w) coll (d_price d) /\
    s_fees (w_st w) !! c_denom lp = Some (c_amount lp) /\ c_amount lp <= w_bank w sender (c_denom lp) /\
    fits (w_st w) coll tok (d_price d) mb /\
    (exists er, run_tx p (execute p) w sender [lp] (SetAsk coll tok d) = Err er) /\
    (exists er, run_tx p (execute p) w sender [lp] (SellNft coll tok d) = Err er).
Proof.
  exists p0, w_poison, "alice", "coll1", "2", (det 700), (us 5), (MCBid (CBid ("#coll1" +:+ be8 10 +:+ be8 1) "carol" "coll1" (det 900))).
  split. { apply (after_reachable poison). by vm_compute. }
  split; [by vm_compute|]. split; [by vm_compute|]. split; [by vm_compute|]. split.
  { intros (ci&start&H&Hs&_). assert (ci = CollectionInfo None (Some ("royal", 50000000000000000))) as ->.
    { apply (f_equal (fun o => match o with Some x => x | None => ci end)) in H. cbn in H. rewrite <-H. by vm_compute. }
    done. }
  split; [done|]. split; [by vm_compute|]. split; [by vm_compute|]. split; [by vm_compute|].
  split; [by vm_compute|]. split; apply not_ok; by vm_compute.
Qed.
(** The best bid is so small that the rounded-up fees exceed it. *)
Definition dust : list tx := [
  ("admin", [], SetListingFee (us 5)); ("carol", [us 1], SetCollectionBid "coll1" (det 1))].
Definition w_dust : world state := after w0 dust.
Lemma dust_bid :
  exists p w sender coll tok d lp mb, reachable p w /\
    w_nft w coll tok = Some sender /\ can_transfer w coll tok (p_self p) = true /\ p_honest p coll = true /\
    (forall x, p_blocked p x = true -> x = "block") /\
    named_ok p d /\ priced (w_st w) coll (d_price d) /\
    s_fees (w_st w) !! c_denom lp = Some (c_amount lp) /\ c_amount lp <= w_bank w sender (c_denom lp) /\
    fits (w_st w) coll tok (d_price d) mb /\
    (exists er, run_tx p (execute p) w sender [lp] (SetAsk coll tok d) = Err er).
Proof.
  exists p0, w_dust, "alice", "coll1", "2", (det 1), (us 5), (MCBid (CBid ("#coll1" +:+ be8 10 +:+ be8 1) "carol" "coll1" (det 1))).
  split. { apply (after_reachable dust). by vm_compute. }
  split; [by vm_compute|]. split; [by vm_compute|]. split; [by vm_compute|].
  split; [intros x Hx; by apply bool_decide_eq_true in Hx|].
  split; [done|]. split; [by vm_compute|]. split; [by vm_compute|]. split; [by vm_compute|].
  split; [by vm_compute|]. apply not_ok; by vm_compute.
Qed.

(** Alice has listed token 1 and then accepts carol's collection bid with it, naming david as recipient and findb as
    finder: the listing's own recipient (alice) is paid and findb gets nothing. *)
Lemma recipient_ignored :
  exists p w sender m id tok d st' msgs r f, reachable p w /\ m = AcceptCollectionBid id tok d /\
    d_recipient d = Some r /\ d_finder d = Some f /\
    execute p (view_of p w) (env_of w) sender [] (w_st w) m = Ok (st', msgs) /\
    (exists n, 0 < n /\ MSend sender [Coin "ustars" n] ∈ msgs) /\
    (forall cs, MSend r cs ∉ msgs) /\ (forall cs, MSend f cs ∉ msgs).
Proof.
  set (m := AcceptCollectionBid cbid_id "1" (Details (us 800) (Some "david") (Some "findb"))).
  exists p0, w1, "alice", m, cbid_id, "1", (Details (us 800) (Some "david") (Some "findb")),
    (state_of (call1 "alice" [] m)), (msgs_of (call1 "alice" [] m)), "david", "findb".
  split; [exact w1_reachable|]. split; [done|]. split; [done|]. split; [done|]. split; [by vm_compute|].
  assert (msgs_of (call1 "alice" [] m) =
    [MRegInit "regis" "coll1"; MSend "feemg" [us 13]; MSend "finda" [us 6]; MSend "royal" [us 45]; MSend "alice" [us 836];
     MNft "coll1" "1" "carol"]) as -> by by vm_compute.
  split; [|split; set_solver]. exists 836. split; [lia|]. set_solver.
Qed.

(** Without a separator the ids of different NFTs coincide, whatever the hash. *)
Lemma ask_ids_collide :
  forall p, exists c1 t1 c2 t2, (c1, t1) <> (c2, t2) /\ generate_id p [c1; t1] = generate_id p [c2; t2].
Proof. intros p. exists "ab", "c", "a", "bc". split; [done|]. done. Qed.

Lemma asks1 i a : s_asks st1 !! i = Some a -> i = ask1_id /\ a = ask1.
Proof. apply one_entry. by vm_compute. Qed.
Lemma bids1 i b : s_bids st1 !! i = Some b -> i = bid_id /\ b = bid1.
Proof. apply one_entry. by vm_compute. Qed.
Lemma cbids1 i b : s_cbids st1 !! i = Some b -> i = cbid_id /\ b = cbid1.
Proof. apply one_entry. by vm_compute. Qed.
