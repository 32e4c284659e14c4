(** A concrete marketplace v1 on a concrete chain: reachable, non-trivial states and counterexamples. *)
From stdpp Require Import relations pretty.
From Verif Require Import Base BaseFacts Common Chain ChainFacts V1Model V1Spec V1Facts V1Inv V1Reach.

(** * Executable histories *)
Inductive act : Type :=
  | Tx (sender : addr) (funds : list coin) (m : msg)
  | Sudo (m : sudo_msg)
  | At (t : N)                                  (* the next block starts, at time t *)
  | Give (coll : addr) (tok : token) (who to : addr)   (* cw721 transfer outside the marketplace *)
  | Approve (coll : addr) (tok : token) (who spender : addr) (b : bool)
  | ApproveAll (coll who op : addr).
Definition set_time (w : world state) (t : N) : world state :=
  World (w_bank w) (w_nft w) (w_appr w) (w_oper w) (w_ora w) (w_height w + 1) t (w_st w).
Definition run_act (p : params) (x : ext) (w : world state) (a : act) : result (world state) :=
  match a with
  | Tx s f m => run_tx p (execute p x) w s f m
  | Sudo m => r ← sudo p (view_of p w) (env_of w) (w_st w) m; run_msgs p (set_st w (fst r)) (snd r)
  | At t => ensure (w_time w <=? t) EOther ;; Ok (set_time w t)
  | Give c t who to =>
      ensure (negb (bool_decide (who = p_self p)) && can_transfer w c t who) EOther ;; Ok (nft_transfer w c t to)
  | Approve c t who spender b =>
      ensure (negb (bool_decide (who = p_self p)) && bool_decide (w_nft w c t = Some who)) EOther ;;
      Ok (set_nft w (w_nft w) (fun c' t' x => if bool_decide (c' = c /\ t' = t /\ x = spender) then b else w_appr w c' t' x))
  | ApproveAll c who op =>
      ensure (negb (bool_decide (who = p_self p))) EOther ;;
      Ok (World (w_bank w) (w_nft w) (w_appr w)
            (fun c' o x => if bool_decide (c' = c /\ o = who /\ x = op) then true else w_oper w c' o x)
            (w_ora w) (w_height w) (w_time w) (w_st w))
  end.
Fixpoint run_acts (p : params) (x : ext) (w : world state) (l : list act) : result (world state) :=
  match l with [] => Ok w | a :: l => w' ← run_act p x w a; run_acts p x w' l end.

Lemma run_act_step p x w a w' : run_act p x w a = Ok w' -> v1_step p x w w'.
Proof.
  destruct a as [s f m|m|t|c t who to|c t who spender b|c who op]; cbn [run_act]; intros H.
  - eapply step_tx. by apply run_tx_sound.
  - apply bind_Ok in H as ([st msgs]&H1&H2). eapply step_sudo; [exact H1|]. by apply run_msgs_sound.
  - apply bind_Ok in H as (u&Hu&H). apply ensure_Ok in Hu. injection H as <-. apply step_block; lia.
  - apply bind_Ok in H as (u&Hu&H). apply ensure_Ok, andb_prop in Hu as [Hs Hc]. injection H as <-.
    apply step_env, ES_transfer with who; [|done]. by apply negb_true_iff, bool_decide_eq_false in Hs.
  - apply bind_Ok in H as (u&Hu&H). apply ensure_Ok, andb_prop in Hu as [Hs Hc]. injection H as <-.
    apply step_env, ES_approve with who who; [by apply bool_decide_eq_true in Hc|by apply negb_true_iff, bool_decide_eq_false in Hs|by left].
  - apply bind_Ok in H as (u&Hu&H). apply ensure_Ok in Hu. injection H as <-.
    apply step_env, ES_approve_all. by apply negb_true_iff, bool_decide_eq_false in Hu.
Qed.
Lemma run_acts_steps p x w l w' : run_acts p x w l = Ok w' -> rtc (v1_step p x) w w'.
Proof.
  revert w. induction l as [|a l IH]; intros w H; cbn [run_acts] in H.
  - injection H as <-. apply rtc_refl.
  - apply bind_Ok in H as (w1&H1&H). eapply rtc_l; [by eapply run_act_step|by apply IH].
Qed.

(** * The chain *)
Definition valid1 (s : string) : bool := (String.length s =? 5)%nat.
Definition p1 : params :=
  Params "marke" (fun s => s) valid1 (fun c => bool_decide (c = "coll1") || bool_decide (c = "coll2"))
         (fun a => bool_decide (a = "block")) false.
Definition us (n : N) : coin := Coin "ustars" n.
Definition sec (n : N) : N := n * NANOS.
(** 2% trading fee, orders for 60 s to a day, 10% finder's fee at most, 5 at least, bids stale after 600 s, 5% reward for
    removing them, listing fee 10. *)
Definition config1 : instantiate_msg :=
  InstantiateMsg 200 (ExpiryRange 60 86400) (ExpiryRange 60 86400) ["opera"; "opera"; "admin"] (Some "hook1") 1000 5 (DTime 600) 500 10.
Definition vst0 : state := match instantiate p1 config1 with Ok st => st | Err _ => State (SudoParams 0 (ExpiryRange 0 0) (ExpiryRange 0 0) [] 0 0 (DTime 0) 0 0) ∅ ∅ ∅ [] [] [] [] end.
Definition royalty1 : oracle := Oracle (fun _ _ => None) (fun _ _ _ => false)
  (fun c => if bool_decide (c = "coll1") then Some (CollectionInfo (Some (sec 900)) (Some ("royal", 50000000000000000)))
            else Some (CollectionInfo None None))
  (fun _ _ _ => Ok (None, None)) None.
(** alice owns all NFTs and has approved the marketplace. *)
Definition vw0 : world state := World
  (fun a d => if bool_decide (a = "marke") then 0 else if bool_decide (d = "ustars") then 10 ^ 16 else 0)
  (fun c t => if bool_decide (c = "coll1") || bool_decide (c = "coll2") then Some "alice" else None)
  (fun c t x => bool_decide (x = "marke"))
  (fun c o x => false)
  royalty1 10 (sec 1000) vst0.
Lemma vw0_init : v1_init p1 vw0.
Proof.
  split.
  - exists config1. by vm_compute.
  - split; [|done]. intros c t x. cbn. destruct (_ || _); done.
Qed.
Lemma vw0_reachable x : v1_reachable p1 x vw0.
Proof. exists vw0. split; [exact vw0_init|apply rtc_refl]. Qed.

Definition after (x : ext) (w : world state) (l : list act) : world state :=
  match run_acts p1 x w l with Ok w' => w' | Err _ => w end.
Lemma after_ok x w l : is_ok (run_acts p1 x w l) = true -> run_acts p1 x w l = Ok (after x w l).
Proof. unfold after. by destruct (run_acts p1 x w l). Qed.
Lemma after_reachable x w l : v1_reachable p1 x w -> is_ok (run_acts p1 x w l) = true -> v1_reachable p1 x (after x w l).
Proof.
  intros (w0&H0&Hw) H. exists w0. split; [done|]. etrans; [exact Hw|]. eapply run_acts_steps. by apply after_ok.
Qed.
Lemma after_tx x w s f m : is_ok (run_tx p1 (execute p1 x) w s f m) = true ->
  run_tx p1 (execute p1 x) w s f m = Ok (after x w [Tx s f m]).
Proof. unfold after. cbn [run_acts run_act]. by destruct (run_tx p1 (execute p1 x) w s f m). Qed.
Lemma after_texec x w s f m : is_ok (run_tx p1 (execute p1 x) w s f m) = true -> texec p1 (execute p1 x) s f m w (after x w [Tx s f m]).
Proof. intros H. apply run_tx_sound. by apply after_tx. Qed.
Lemma after_history x w l : v1_reachable p1 x w -> is_ok (run_acts p1 x w l) = true -> v1_history p1 x (w_st (after x w l)).
Proof. intros. by apply reachable_history, after_reachable. Qed.
Lemma not_ok {A} (r : result A) : is_ok r = false -> exists er, r = Err er.
Proof. destruct r; [done|eauto]. Qed.
Lemma ok_some {A} (r : result A) : is_ok r = true -> exists x, r = Ok x.
Proof. destruct r; [eauto|done]. Qed.
Lemma ok_pair {A B} (r : result (A * B)) : is_ok r = true -> exists x y, r = Ok (x, y).
Proof. destruct r as [[a b]|]; [eauto|done]. Qed.

(** * The story *)
Definition story : list act := [
  Sudo (AddBidHook "hook2"); Sudo (AddAskHook "hook3");
  Tx "alice" [us 10] (SetAsk FixedPrice "coll1" 1 (us 1000) None None (Some 100) (sec 2000));
  Tx "alice" [us 10] (SetAsk Auction "coll1" 2 (us 500) None None None (sec 3000));
  Tx "alice" [us 10] (SetAsk FixedPrice "coll1" 3 (us 800) (Some "treas") (Some "carol") None (sec 2000));
  Tx "bobby" [us 900] (SetBid "coll1" 1 (sec 2500) None (Some 50));
  Tx "bobby" [us 950] (SetBid "coll1" 1 (sec 2500) None (Some 50));
  Tx "carol" [us 600] (SetBid "coll1" 2 (sec 2500) None (Some 100));
  Tx "daver" [us 700] (SetCollectionBid "coll1" (sec 4000) None);
  Tx "bobby" [us 400] (SetCollectionBid "coll1" (sec 1500) None);
  At (sec 1100)].
Definition vw1 (x : ext) : world state := after x vw0 story.
Lemma vw1_ok x : is_ok (run_acts p1 x vw0 story) = true.
Proof. by vm_compute. Qed.
Lemma vw1_reachable x : v1_reachable p1 x (vw1 x).
Proof. exact (after_reachable x vw0 story (vw0_reachable x) (vw1_ok x)). Qed.
Lemma vw1_history x : v1_history p1 x (w_st (vw1 x)).
Proof. apply reachable_history, vw1_reachable. Qed.
Definition ask1 : ask := Ask FixedPrice "coll1" 1 "alice" 1000 None None (Some 100) (sec 2000) true.
Definition ask2 : ask := Ask Auction "coll1" 2 "alice" 500 None None None (sec 3000) true.
Definition ask3 : ask := Ask FixedPrice "coll1" 3 "alice" 800 (Some "treas") (Some "carol") None (sec 2000) true.
Definition bid1 : bid := Bid "coll1" 1 "bobby" 950 (Some 50) (sec 2500).
Definition bid2 : bid := Bid "coll1" 2 "carol" 600 (Some 100) (sec 2500).
Definition cbid1 : cbid := CBid "coll1" "daver" 700 None (sec 4000).
Lemma vw1_ask1 x : s_asks (w_st (vw1 x)) !! ("coll1", 1) = Some ask1.
Proof. by vm_compute. Qed.
Lemma vw1_ask2 x : s_asks (w_st (vw1 x)) !! ("coll1", 2) = Some ask2.
Proof. by vm_compute. Qed.
Lemma vw1_ask3 x : s_asks (w_st (vw1 x)) !! ("coll1", 3) = Some ask3.
Proof. by vm_compute. Qed.
Lemma vw1_bid1 x : s_bids (w_st (vw1 x)) !! ("coll1", 1, "bobby") = Some bid1.
Proof. by vm_compute. Qed.
Lemma vw1_bid2 x : s_bids (w_st (vw1 x)) !! ("coll1", 2, "carol") = Some bid2.
Proof. by vm_compute. Qed.
Lemma vw1_cbid1 x : s_cbids (w_st (vw1 x)) !! ("coll1", "daver") = Some cbid1.
Proof. by vm_compute. Qed.
