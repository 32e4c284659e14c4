(** The three contracts on one chain (C134 of properties.jsonl). *)
From stdpp Require Import relations.
From Verif Require Import Base BaseFacts Common Chain ChainFacts JointSpec Joint ThreeSpec Three.
From Verif Require V1Model V1Spec V1Examples V2Model V2Spec V2Examples RAModel RASpec RAExamples.

(** * C134: contracts on the same chain cannot hurt each other *)

(** Whatever is proved of an instance on a chain of its own holds of it among the others. *)
Theorem C134_each_as_if_alone : forall I (kind : I -> code) (P : I -> params) W i, apart P -> reachable3 kind P W ->
  alone (kind i) (P i) (seen i W).
Proof. intros I kind P W i Ha H. by apply alone_seen. Qed.
Print Assumptions C134_each_as_if_alone.
(** The same for a single transaction, also one in the course of which other instances are called: the instance called sees one
    of its own transactions, every other one sees surroundings that may call it. *)
Theorem C134_calls_as_if_alone : forall I (kind : I -> code) (P : I -> params) i s f m W W', apart P -> exec3 kind P i s f m W W' ->
  texec (P i) (runs (kind i) (P i)) s f m (seen i W) (seen i W') /\
  forall j, j <> i -> adv (P j) (runs (kind j) (P j)) (seen j W) (seen j W').
Proof. intros I kind P i s f m W W' Ha. by apply call_seen. Qed.
Print Assumptions C134_calls_as_if_alone.
(** Every instance can always pay what it owes. *)
Theorem C134_all_funded : forall I (kind : I -> code) (P : I -> params) W i d, apart P -> reachable3 kind P W ->
  owes (kind i) (j_st W i) d <= j_bank W (p_self (P i)) d.
Proof. intros I kind P W i d Ha. by apply all_funded. Qed.
Print Assumptions C134_all_funded.
(** Every instance has the NFTs it offers; so no NFT is offered in two places. *)
Theorem C134_all_in_custody : forall I (kind : I -> code) (P : I -> params) W i coll tok, apart P -> reachable3 kind P W ->
  p_reg_reenters (P i) = false -> offers (kind i) (j_st W i) coll tok -> p_honest (P i) coll = true ->
  j_nft W coll tok = Some (p_self (P i)).
Proof. intros I kind P W i coll tok Ha. by apply all_custody. Qed.
Print Assumptions C134_all_in_custody.
Theorem C134_one_place : forall I (kind : I -> code) (P : I -> params) W i j coll tok, apart P -> reachable3 kind P W ->
  p_reg_reenters (P i) = false -> p_reg_reenters (P j) = false ->
  offers (kind i) (j_st W i) coll tok -> offers (kind j) (j_st W j) coll tok ->
  p_honest (P i) coll = true -> p_honest (P j) coll = true -> i = j.
Proof. intros I kind P W i j coll tok Ha. by apply one_place. Qed.
Print Assumptions C134_one_place.
(** And the others do not get in the way: a transaction that goes through on the instance's own chain goes through here, has the
    same effect, and leaves the other instances' storage alone. *)
Theorem C134_goes_among_others : forall I (kind : I -> code) (P : I -> params) (D : EqDecision I) W i s f m w, apart P ->
  run_tx (P i) (runs (kind i) (P i)) (seen i W) s f m = Ok w -> outsider P s ->
  (forall st' msgs c t to, runs (kind i) (P i) (view_of (P i) (pay_in (P i) (seen i W) s f)) (env_of (seen i W)) s f (j_st W i) m = Ok (st', msgs) ->
     MNft c t to ∈ msgs -> outsider P c) ->
  exists W', exec3 kind P i s f m W W' /\ seen i W' = w /\ forall j, j <> i -> j_st W' j = j_st W j.
Proof. intros I kind P D W i s f m w Ha. by apply goes_among_others. Qed.
Print Assumptions C134_goes_among_others.

(** ** A chain with one of each *)
Inductive which : Type := OnV1 | OnV2 | OnRA.
Global Instance which_eq : EqDecision which.
Proof. solve_decision. Defined.
Definition kind0 (i : which) : code :=
  match i with OnV1 => CodeV1 (V1Model.Ext true) | OnV2 => CodeV2 | OnRA => CodeRA RAExamples.lib1 end.
Definition P0 (i : which) : params := match i with OnV1 => V1Examples.p1 | OnV2 => V2Examples.p0 | OnRA => RAExamples.p1 end.
Lemma P0_apart : apart P0.
Proof. intros [] []; cbn; done. Qed.
Definition selves : list addr := ["marke"; "mrktp"; "aucti"].
Lemma outsider0 a : bool_decide (a ∈ selves) = false -> outsider P0 a.
Proof. intros H%bool_decide_eq_false i ->. apply H. destruct i; cbn; repeat constructor. Qed.
Definition st0 (i : which) : state_of (kind0 i) :=
  match i with OnV1 => V1Examples.vst0 | OnV2 => V2Examples.st0 | OnRA => RAExamples.rst0 end.
Definition W0 : joint3 kind0 := Joint
  (fun a d => if bool_decide (a ∈ selves) then 0 else if bool_decide (d = "ustars") then 1000000 else 0)
  (fun c t => if bool_decide (c = "coll1") || bool_decide (c = "coll2") then Some "alice" else None)
  (fun c t x => bool_decide (x ∈ selves))
  (fun c o x => bool_decide (o = "alice") && bool_decide (x ∈ selves))
  (fun i => match i with OnV1 => V1Examples.royalty1 | OnV2 => V2Examples.ora0 | OnRA => RAExamples.royalty1 end)
  10 (RAExamples.sec 1000) st0.
Lemma W0_init : init3 kind0 P0 W0.
Proof.
  assert (forall i, nft_wf (P0 i) (seen i W0)) as Hwf.
  { intros i. split; cbn; [intros c t x; destruct (_ || _); by destruct i|by destruct i]. }
  intros []; (split; [|apply Hwf]); cbn.
  - exists V1Examples.config1. by vm_compute.
  - exists V2Examples.cfg0. by vm_compute.
  - exists RAExamples.cfg1, [RAExamples.us 50]. by vm_compute.
Qed.

Inductive act : Type :=
  | Tx (i : which) (sender : addr) (funds : list coin) (m : msg_of (kind0 i))
  | Sudo (i : which) (m : smsg_of (kind0 i))
  | At (t : N).
Definition strangers (ms : list cmsg) : bool :=
  forallb (fun m => match m with MNft c _ _ => negb (bool_decide (c ∈ selves)) | _ => true end) ms.
Definition run_act (W : joint3 kind0) (a : act) : result (joint3 kind0) :=
  match a with
  | Tx i s f m =>
      r ← runs (kind0 i) (P0 i) (view_of (P0 i) (pay_in (P0 i) (seen i W) s f)) (env_of (seen i W)) s f (j_st W i) m;
      ensure (strangers (snd r) && negb (bool_decide (s ∈ selves))) EOther ;;
      j_run_tx P0 (fun i => runs (kind0 i) (P0 i)) W i s f m
  | Sudo i m =>
      r ← governs_of (kind0 i) (P0 i) (view_of (P0 i) (seen i W)) (Env (j_height W) (j_time W)) (j_st W i) m;
      ensure (strangers (snd r)) EOther ;;
      j_run_sudo P0 (fun i => governs_of (kind0 i) (P0 i)) W i m
  | At t => ensure (j_time W <=? t) EOther ;;
            Ok (Joint (j_bank W) (j_nft W) (j_appr W) (j_oper W) (j_ora W) (j_height W + 1) t (j_st W))
  end.
Fixpoint run_acts (W : joint3 kind0) (l : list act) : result (joint3 kind0) :=
  match l with [] => Ok W | a :: l => W' ← run_act W a; run_acts W' l end.
Lemma strangers_out ms c t to : strangers ms = true -> MNft c t to ∈ ms -> outsider P0 c.
Proof.
  unfold strangers. rewrite forallb_forall. intros H Hin%elem_of_list_In%H. apply outsider0. by apply negb_true_iff.
Qed.
Lemma run_act_step W a W' : run_act W a = Ok W' -> step3 kind0 P0 W W'.
Proof.
  destruct a as [i s f m|i m|t]; cbn [run_act]; intros H.
  - apply bind_Ok in H as ([st msgs]&Hr&H). apply bind_Ok in H as (u&Hu&H). apply ensure_Ok, andb_prop in Hu as [Hu1 Hu2].
    apply negb_true_iff in Hu2. unfold j_run_tx in H. apply bind_Ok in H as (w&Hw&H). injection H as <-.
    eapply j_tx, (run_tx_joint P0 _ (fun i => governs_of (kind0 i) (P0 i)) P0_apart); [exact Hw|by apply outsider0|].
    intros st' msgs' c t to Hr' Hin. pose proof (eq_trans (eq_sym Hr) Hr') as [= <- <-]. by eapply strangers_out.
  - apply bind_Ok in H as ([st msgs]&Hr&H). apply bind_Ok in H as (u&Hu&H). apply ensure_Ok in Hu.
    eapply (run_sudo_joint P0 _ (fun i => governs_of (kind0 i) (P0 i)) P0_apart); [exact H|].
    intros st' msgs' c t to Hr' Hin. pose proof (eq_trans (eq_sym Hr) Hr') as [= <- <-]. by eapply strangers_out.
  - apply bind_Ok in H as (u&Hu&H). apply ensure_Ok in Hu. injection H as <-. apply j_block; lia.
Qed.
Lemma run_acts_steps l : forall W W', run_acts W l = Ok W' -> rtc (step3 kind0 P0) W W'.
Proof.
  induction l as [|a l IH]; intros W W' H; cbn [run_acts] in H; [injection H as <-; apply rtc_refl|].
  apply bind_Ok in H as (W1&H1&H). eapply rtc_l; [by eapply run_act_step|by apply IH].
Qed.
(** Alice offers token 1 on marketplace v1, then lists it on marketplace v2, and auctions token 2.  Bobby bids for token 3 on v1
    and v2; carol bids in the auction. *)
Definition us (n : N) : coin := Coin "ustars" n.
Definition story : list act := [
  Sudo OnRA RAModel.BeginBlock;
  Tx OnV1 "alice" [us 10] (V1Model.SetAsk V1Model.FixedPrice "coll1" 1 (us 1000) None None None (RAExamples.sec 2000));
  Tx OnV2 "admin" [] (V2Model.SetListingFee (us 5));
  Tx OnV2 "alice" [us 5] (V2Model.SetAsk "coll1" "1" (V2Examples.det 1200));
  Tx OnRA "alice" [us 10] (RAModel.CreateAuction "coll1" "2" (us 100) 3600 None);
  Tx OnV1 "bobby" [us 700] (V1Model.SetBid "coll1" 3 (RAExamples.sec 2000) None None);
  Tx OnV2 "bobby" [us 800] (V2Model.SetBid "coll1" "3" (V2Examples.det 800));
  At (RAExamples.sec 1010); Sudo OnRA RAModel.BeginBlock;
  Tx OnRA "carol" [us 105] (RAModel.PlaceBid "coll1" "2")].
Definition W1 : joint3 kind0 := match run_acts W0 story with Ok W => W | Err _ => W0 end.
Lemma W1_ok : is_ok (run_acts W0 story) = true.
Proof. by vm_compute. Qed.
Lemma W1_reachable : reachable3 kind0 P0 W1.
Proof.
  exists W0. split; [exact W0_init|]. apply (run_acts_steps story). pose proof W1_ok as H. unfold W1. by destruct (run_acts W0 story).
Qed.
(** All three owe something and have it; token 1 is listed on v2 only, token 2 is auctioned; the offer left behind on v1 sells
    nothing. *)
Example C134_case : apart P0 /\ reachable3 kind0 P0 W1 /\
  (owes (kind0 OnV1) (j_st W1 OnV1) "ustars" = 700 /\ j_bank W1 "marke" "ustars" = 700) /\
  (owes (kind0 OnV2) (j_st W1 OnV2) "ustars" = 800 /\ j_bank W1 "mrktp" "ustars" = 800) /\
  (owes (kind0 OnRA) (j_st W1 OnRA) "ustars" = 105 /\ j_bank W1 "aucti" "ustars" = 105) /\
  (forall i, p_reg_reenters (P0 i) = false /\ p_honest (P0 i) "coll1" = true) /\
  (offers (kind0 OnV2) (j_st W1 OnV2) "coll1" "1" /\ j_nft W1 "coll1" "1" = Some "mrktp") /\
  (offers (kind0 OnRA) (j_st W1 OnRA) "coll1" "2" /\ j_nft W1 "coll1" "2" = Some "aucti") /\
  is_Some (V1Model.s_asks (j_st W1 OnV1) !! ("coll1", 1)) /\
  is_ok (run_act W1 (Tx OnV1 "daver" [us 1000] (V1Model.BuyNow "coll1" 1 (RAExamples.sec 2000) None None))) = false.
Proof.
  split; [exact P0_apart|]. split; [exact W1_reachable|].
  split; [split; by vm_compute|]. split; [split; by vm_compute|]. split; [split; by vm_compute|].
  split; [by intros []|].
  split. { split; [|by vm_compute]. exists V2Examples.ask1_id. eexists. split; [by vm_compute|]. split; by vm_compute. }
  split. { split; [|by vm_compute]. exists ("coll1", "2"). eexists. split; [by vm_compute|]. split; by vm_compute. }
  split; [eexists; by vm_compute|by vm_compute].
Qed.
(** A transaction that goes through alone: bobby takes the bid on v2 back. *)
Definition withdraw : msg_of (kind0 OnV2) := V2Model.RemoveBid ("#coll13" +:+ be8 10 +:+ be8 1).
Example C134_case_alone :
  is_ok (run_tx (P0 OnV2) (runs (kind0 OnV2) (P0 OnV2)) (seen OnV2 W1) "bobby" [] withdraw) = true /\ outsider P0 "bobby" /\
  (forall st' msgs c t to, runs (kind0 OnV2) (P0 OnV2) (view_of (P0 OnV2) (pay_in (P0 OnV2) (seen OnV2 W1) "bobby" []))
     (env_of (seen OnV2 W1)) "bobby" [] (j_st W1 OnV2) withdraw = Ok (st', msgs) -> MNft c t to ∈ msgs -> outsider P0 c).
Proof.
  split; [by vm_compute|]. split; [by apply outsider0|].
  intros st' msgs c t to H Hin.
  assert (match runs (kind0 OnV2) (P0 OnV2) (view_of (P0 OnV2) (pay_in (P0 OnV2) (seen OnV2 W1) "bobby" []))
     (env_of (seen OnV2 W1)) "bobby" [] (j_st W1 OnV2) withdraw with Ok (_, ms) => ms | Err _ => [] end = [MSend "bobby" [us 800]]) as E by by vm_compute.
  rewrite H in E. subst msgs. clear -Hin. by apply elem_of_list_singleton in Hin.
Qed.
(** The contracts call each other through foreign code: mally opens an auction for an NFT of a non-standard collection, which
    places a bid on marketplace v2 while it is asked to transfer the NFT. *)
Example C134_case_nested : exists W, exec3 kind0 P0 OnRA "mally" [us 10] (RAModel.CreateAuction "rogue" "9" (us 100) 3600 None) W1 W /\
  offers (kind0 OnRA) (j_st W OnRA) "rogue" "9" /\ owes (kind0 OnV2) (j_st W OnV2) "ustars" = 1100 /\ j_bank W "mrktp" "ustars" = 1100.
Proof.
  set (m := RAModel.CreateAuction "rogue" "9" (us 100) 3600 None).
  set (paid := pay_in (P0 OnRA) (seen OnRA W1) "mally" [us 10]).
  assert (exists st', RAModel.execute RAExamples.p1 RAExamples.lib1 (view_of RAExamples.p1 paid) (Env (j_height W1) (j_time W1)) "mally" [us 10]
            (j_st W1 OnRA) m = Ok (st', [MFairBurn (us 10); MNft "rogue" "9" "aucti"]) /\ offers (kind0 OnRA) st' "rogue" "9") as (st'&Hr&Ho).
  { destruct (RAModel.execute _ _ _ _ _ _ _ _) as [[st' ms]|e] eqn:E; [|by vm_compute in E].
    exists st'. assert (ms = match RAModel.execute RAExamples.p1 RAExamples.lib1 (view_of RAExamples.p1 paid) (Env (j_height W1) (j_time W1))
      "mally" [us 10] (j_st W1 OnRA) m with Ok (_, ms) => ms | Err _ => [] end) as -> by by rewrite E. split; [f_equal; by vm_compute|].
    exists ("rogue", "9"), (RAModel.Auction "rogue" "9" "mally" (us 100) 3600 None None None None). split; [|split; reflexivity].
    assert (match RAModel.execute RAExamples.p1 RAExamples.lib1 (view_of RAExamples.p1 paid) (Env (j_height W1) (j_time W1))
      "mally" [us 10] (j_st W1 OnRA) m with Ok (s, _) => RAModel.s_auctions s !! ("rogue", "9") | Err _ => None end =
      Some (RAModel.Auction "rogue" "9" "mally" (us 100) 3600 None None None None)) as E' by by vm_compute. by rewrite E in E'. }
  set (Wb := j_merge OnRA W1 (set_st paid (st' : state_of (kind0 OnRA)))).
  set (Wc := j_set_bank Wb (bank_sub (j_bank Wb) "aucti" [us 10])).
  set (inner := V2Model.SetBid "coll1" "4" (V2Examples.det 300) : msg_of (kind0 OnV2)).
  assert (exists w', run_tx (P0 OnV2) (runs (kind0 OnV2) (P0 OnV2)) (seen OnV2 Wc) "mally" [us 300] inner = Ok w' /\
            owes CodeV2 (w_st w') "ustars" = 1100 /\ w_bank w' "mrktp" "ustars" = 1100) as (w'&Hw&Hb1&Hb2).
  { assert (match run_tx (P0 OnV2) (runs (kind0 OnV2) (P0 OnV2)) (seen OnV2 Wc) "mally" [us 300] inner with
            Ok w' => (owes CodeV2 (w_st w') "ustars", w_bank w' "mrktp" "ustars") | Err _ => (0, 0) end = (1100, 1100)) as E
      by by vm_compute.
    destruct (run_tx _ _ _ _ _ _) as [w'|]; [|discriminate E]. exists w'. injection E as E1 E2. split; [reflexivity|]. split; [exact E1|exact E2]. }
  exists (j_merge OnV2 Wc w').
  split.
  - apply (call_joint P0 (fun i => runs (kind0 i) (P0 i)) OnRA "mally" [us 10] m W1 st' [MFairBurn (us 10); MNft "rogue" "9" "aucti"] _ (outsider0 "mally" eq_refl)); [by vm_compute|exact Hr|].
    fold paid. fold Wb.
    apply JBurn; [done|by vm_compute|].
    eapply JNftRogue; [by apply outsider0|done| |apply JNil].
    eapply j_then_call; [|apply j_nothing].
    apply (run_tx_joint P0 (fun i => runs (kind0 i) (P0 i)) (fun i => governs_of (kind0 i) (P0 i)) P0_apart Wc OnV2 "mally" [us 300] inner w' Hw);
      [by apply outsider0|].
    intros st1 msgs c t to H Hin.
    assert (match V2Model.execute V2Examples.p0 (view_of (P0 OnV2) (pay_in (P0 OnV2) (seen OnV2 Wc) "mally" [us 300]))
      (Env (j_height Wc) (j_time Wc)) "mally" [us 300] (j_st Wc OnV2) inner with Ok (_, ms) => ms | Err _ => [] end = []) as E by by vm_compute.
    change (V2Model.execute V2Examples.p0) with (runs (kind0 OnV2) (P0 OnV2)) in E. rewrite H in E. subst msgs. destruct (not_elem_of_nil _ Hin).
  - split; [exact Ho|]. split; [exact Hb1|exact Hb2].
Qed.
