(** A concrete reserve auction on a concrete chain: reachable, non-trivial states and counterexamples. *)
From stdpp Require Import relations.
From Verif Require Import Base BaseFacts Common Chain ChainFacts RAModel RASpec RAFacts RAInv RAReach.

(** * Executable histories: transactions, privileged calls, new blocks, and changes of the foreign contracts *)
Inductive act : Type :=
  | Tx (sender : addr) (funds : list coin) (m : msg)
  | Sudo (m : sudo_msg)
  | At (t : N)            (* the next block starts, at time t *)
  | Ora (o : oracle).     (* non-standard collections answer differently from now on *)
Definition set_time (w : world state) (t : N) : world state :=
  World (w_bank w) (w_nft w) (w_appr w) (w_oper w) (w_ora w) (w_height w + 1) t (w_st w).
Definition set_ora (w : world state) (o : oracle) : world state :=
  World (w_bank w) (w_nft w) (w_appr w) (w_oper w) o (w_height w) (w_time w) (w_st w).
Definition run_act (p : params) (lb : lib) (w : world state) (x : act) : result (world state) :=
  match x with
  | Tx s f m => run_tx p (execute p lb) w s f m
  | Sudo m => run_sudo p lb w m
  | At t => ensure (w_time w <=? t) EOther ;; Ok (set_time w t)
  | Ora o => Ok (set_ora w o)
  end.
Fixpoint run_acts (p : params) (lb : lib) (w : world state) (xs : list act) : result (world state) :=
  match xs with [] => Ok w | x :: xs => w' ← run_act p lb w x; run_acts p lb w' xs end.

Lemma run_sudo_step p lb w m w' : run_sudo p lb w m = Ok w' -> ra_step p lb w w'.
Proof.
  unfold run_sudo. intros ([st msgs]&H1&H2)%bind_Ok. eapply step_sudo; [exact H1|]. by apply run_msgs_sound.
Qed.
Lemma run_act_step p lb w x w' : run_act p lb w x = Ok w' -> ra_step p lb w w'.
Proof.
  destruct x as [s f m|m|t|o]; cbn [run_act]; intros H.
  - eapply step_tx. by apply run_tx_sound.
  - by eapply run_sudo_step.
  - apply bind_Ok in H as (u&Hu&H). apply ensure_Ok in Hu. injection H as <-. apply step_block; lia.
  - injection H as <-. apply step_env, ES_oracle.
Qed.
Lemma run_acts_steps p lb w xs w' : run_acts p lb w xs = Ok w' -> rtc (ra_step p lb) w w'.
Proof.
  revert w. induction xs as [|x xs IH]; intros w H; cbn [run_acts] in H.
  - injection H as <-. apply rtc_refl.
  - apply bind_Ok in H as (w1&H1&H). eapply rtc_l; [by eapply run_act_step|by apply IH].
Qed.

(** * The chain *)
(** Addresses have five characters. *)
Definition valid1 (s : string) : bool := (String.length s =? 5)%nat.
Definition p1 : params :=
  Params "aucti" (fun s => s) valid1 (fun c => bool_decide (c = "coll1") || bool_decide (c = "coll2"))
         (fun a => bool_decide (a = "block")) false.
Definition us (n : N) : coin := Coin "ustars" n.
(** 2% trading fee, 5% increment, durations 60 s to a day, extension 900 s, creation fee 10, halts of 1200 s or more
    with a buffer of 600 s and a postponement of 3600 s. *)
Definition cfg1 : config :=
  Config "fairb" 20000000000000000 50000000000000000 60 86400 900 (us 10) 10 1200 600 3600.
Definition lib1 : lib := Lib false false false (fun n s => Ok (n * s / DEC_ONE)) (fun n s => Ok (n * s / DEC_ONE)).
Definition royalty1 : oracle := Oracle (fun c t => if bool_decide (c = "rogue") then Some "mally" else None) (fun _ _ _ => true)
  (fun c => if bool_decide (c = "coll1") then Some (CollectionInfo None (Some ("royal", 50000000000000000)))
            else Some (CollectionInfo None None))
  (fun _ _ _ => Ok (None, None)) None.
(** The rogue collection now advertises a royalty address that is no address. *)
Definition royalty2 : oracle := Oracle (o_owner royalty1) (o_approval royalty1)
  (fun c => if bool_decide (c = "rogue") then Some (CollectionInfo None (Some ("??", 50000000000000000))) else o_info royalty1 c)
  (o_royalty royalty1) (o_admin royalty1).
Definition rst0 : state := State cfg1 {[ "ustars" := 50 ]} (HaltManager 0 []) ∅.
Definition sec (n : N) : N := n * NANOS.
(** alice owns all NFTs and has approved the auction contract. *)
Definition rw0 : world state := World
  (fun a d => if bool_decide (a = "aucti") then 0 else if bool_decide (d = "ustars") then 1000000 else 0)
  (fun c t => if bool_decide (c = "coll1") || bool_decide (c = "coll2") then Some "alice" else None)
  (fun c t x => bool_decide (x = "aucti"))
  (fun c o x => false)
  royalty1 10 (sec 1000) rst0.
Lemma rw0_init : ra_init p1 rw0.
Proof.
  split.
  - exists cfg1, [us 50]. vm_compute. reflexivity.
  - split; [|done]. intros c t x. cbn. destruct (_ || _); done.
Qed.

Definition after (lb : lib) (w : world state) (xs : list act) : world state :=
  match run_acts p1 lb w xs with Ok w' => w' | Err _ => w end.
Lemma after_ok lb w xs : is_ok (run_acts p1 lb w xs) = true -> run_acts p1 lb w xs = Ok (after lb w xs).
Proof. unfold after. by destruct (run_acts p1 lb w xs). Qed.
Lemma after_reachable lb w xs : ra_reachable p1 lb w -> is_ok (run_acts p1 lb w xs) = true -> ra_reachable p1 lb (after lb w xs).
Proof.
  intros (w0&H0&Hw) H. exists w0. split; [done|]. etrans; [exact Hw|]. eapply run_acts_steps. by apply after_ok.
Qed.
Lemma after_tx lb w s f m : is_ok (run_tx p1 (execute p1 lb) w s f m) = true ->
  run_tx p1 (execute p1 lb) w s f m = Ok (after lb w [Tx s f m]).
Proof. unfold after. cbn [run_acts run_act]. by destruct (run_tx p1 (execute p1 lb) w s f m). Qed.
Lemma after_sudo lb w m : is_ok (run_sudo p1 lb w m) = true -> run_sudo p1 lb w m = Ok (after lb w [Sudo m]).
Proof. unfold after. cbn [run_acts run_act]. by destruct (run_sudo p1 lb w m). Qed.
Lemma rw0_reachable lb : ra_reachable p1 lb rw0.
Proof. exists rw0. split; [exact rw0_init|apply rtc_refl]. Qed.

Lemma not_ok {A} (r : result A) : is_ok r = false -> exists er, r = Err er.
Proof. destruct r; [done|eauto]. Qed.
Lemma ok_some {A} (r : result A) : is_ok r = true -> exists x, r = Ok x.
Proof. destruct r; [eauto|done]. Qed.

(** The story: alice auctions token 1 of collection 1; bobby bids 100, carol 105. *)
Definition create1 : act := Tx "alice" [us 10] (CreateAuction "coll1" "1" (us 100) 3600 None).
Definition story : list act := [
  Sudo BeginBlock; create1;
  Tx "bobby" [us 100] (PlaceBid "coll1" "1");
  At (sec 1010); Sudo BeginBlock;
  Tx "carol" [us 105] (PlaceBid "coll1" "1")].
Definition high1 : high_bid := HighBid (us 105) "carol".
Definition auction1 : auction := Auction "coll1" "1" "alice" (us 100) 3600 (Some (sec 4600)) None (Some high1) (Some (sec 1000)).
Definition rw1 : lib -> world state := fun lb => after lb rw0 story.
Lemma rw1_ok lb : is_ok (run_acts p1 lb rw0 story) = true.
Proof. by vm_compute. Qed.
Lemma rw1_reachable lb : ra_reachable p1 lb (rw1 lb).
Proof. apply after_reachable, rw1_ok. apply rw0_reachable. Qed.
Lemma rw1_auctions lb : map_to_list (s_auctions (w_st (rw1 lb))) = [(("coll1", "1"), auction1)].
Proof. by vm_compute. Qed.

(** * Counterexamples *)

(** Two auctions end in second 1060: token 1 at 1060.5 s and token 2 at 1060.1 s. *)
Definition same_second : list act := [
  Tx "alice" [us 10] (CreateAuction "coll1" "1" (us 100) 60 None);
  Tx "alice" [us 10] (CreateAuction "coll1" "2" (us 100) 60 None);
  At (sec 1000 + 100000000); Tx "bobby" [us 100] (PlaceBid "coll1" "2");
  At (sec 1000 + 500000000); Tx "bobby" [us 100] (PlaceBid "coll1" "1");
  At (sec 1060 + 300000000)].
Lemma end_block_fails lb : exists w a t, ra_reachable p1 lb w /\ s_auctions (w_st w) !! ("coll1", "2") = Some a /\
  a_end a = Some t /\ t < w_time w /\ exists er, sudo p1 lb (view_of p1 w) (env_of w) (w_st w) EndBlock = Err er.
Proof.
  exists (after lb rw0 same_second), (Auction "coll1" "2" "alice" (us 100) 60 (Some (sec 1060 + 100000000)) None
    (Some (HighBid (us 100) "bobby")) (Some (sec 1000 + 100000000))), (sec 1060 + 100000000).
  split; [apply after_reachable; [apply rw0_reachable|by vm_compute]|].
  split; [by vm_compute|]. split; [done|]. split; [by vm_compute|]. apply not_ok. by vm_compute.
Qed.

(** A rogue collection: mally auctions a worthless token, bobby (mally's accomplice) bids. *)
Definition poison : list act := [
  Tx "mally" [us 10] (CreateAuction "rogue" "1" (us 50) 60 None); create1;
  Tx "bobby" [us 50] (PlaceBid "rogue" "1"); Tx "carol" [us 100] (PlaceBid "coll1" "1");
  Ora royalty2; At (sec 4700)].
Definition poisoned (lb : lib) : world state := after lb rw0 poison.
Definition victim : auction := Auction "coll1" "1" "alice" (us 100) 3600 (Some (sec 4600)) None (Some (HighBid (us 100) "carol")) (Some (sec 1000)).
Definition bait : auction := Auction "rogue" "1" "mally" (us 50) 60 (Some (sec 1060)) None (Some (HighBid (us 50) "bobby")) (Some (sec 1000)).
Lemma poisoned_ok lb : is_ok (run_acts p1 lb rw0 poison) = true.
Proof. by vm_compute. Qed.
Lemma poisoned_auctions lb : map_to_list (s_auctions (w_st (poisoned lb))) = [(("coll1", "1"), victim); (("rogue", "1"), bait)] \/
  map_to_list (s_auctions (w_st (poisoned lb))) = [(("rogue", "1"), bait); (("coll1", "1"), victim)].
Proof. vm_compute. first [by left|by right]. Qed.

(** Any seller can name a blocked module account as the recipient of the proceeds. *)
Definition blocked_recipient : list act := [
  Tx "alice" [us 10] (CreateAuction "coll1" "2" (us 100) 60 (Some "block")); create1;
  Tx "bobby" [us 100] (PlaceBid "coll1" "2"); Tx "carol" [us 100] (PlaceBid "coll1" "1");
  At (sec 4700)].

(** Halt protection lost: the auction ends at 4600 s.  The chain halts from 1000 s to 4550 s. *)
Definition halt_begin : list act := [Sudo BeginBlock; create1; Tx "bobby" [us 100] (PlaceBid "coll1" "1");
  At (sec 4550); Sudo BeginBlock].
Definition halt_rest : list act := [Sudo EndBlock; At (sec 4601); Sudo BeginBlock; Sudo EndBlock].
