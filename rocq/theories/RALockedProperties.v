(** What the reserve auction holds beyond its books is locked for ever. *)
From stdpp Require Import relations.
From Verif Require Import Base BaseFacts Common Chain ChainFacts RAModel RASpec RAFacts RAInv RAReach RAExamples RAProperties RALocked.

(** * C136, reserve auction *)
(** The coins of the contract that are no high bid never become less. *)
Theorem C136_ra_surplus : forall p lb w w' d, ra_reachable p lb w -> rtc (ra_step p lb) w w' ->
  w_bank w (p_self p) d + high_total (w_st w') d <= w_bank w' (p_self p) d + high_total (w_st w) d.
Proof. exact surplus_kept. Qed.
Print Assumptions C136_ra_surplus.
(** An NFT of a standard collection that the contract has without an auction stays there and is never auctioned. *)
Theorem C136_ra_nft : forall p lb w w' c t, ra_reachable p lb w -> rtc (ra_step p lb) w w' ->
  p_honest p c = true -> w_nft w c t = Some (p_self p) -> s_auctions (w_st w) !! ((c, t) : akey) = None ->
  w_nft w' c t = Some (p_self p) /\ s_auctions (w_st w') !! ((c, t) : akey) = None.
Proof.
  intros p lb w w' c t Hr H Hh Ho Hn.
  destruct (nft_locked p lb w w' c t Hr H Hh Ho) as [H1 H2].
  - intros [a Ha]. pose proof (eq_trans (eq_sym Ha) Hn) as E. discriminate E.
  - split; [exact H1|]. destruct (s_auctions (w_st w') !! ((c, t) : akey)) as [a|] eqn:E; [|reflexivity].
    exfalso. apply H2. exists a. exact E.
Qed.
Print Assumptions C136_ra_nft.

(** Alice overpaid the creation fee of an auction by 5 and sent token 7 to the contract by mistake. *)
Definition stray_world (lb : lib) : world state :=
  nft_transfer (after lb rw0 [Sudo BeginBlock; Tx "alice" [us 15] (CreateAuction "coll1" "1" (us 100) 3600 None)]) "coll1" "7" "aucti".
Definition later_acts : list act := [
  Tx "bobby" [us 100] (PlaceBid "coll1" "1"); At (sec 1010); Sudo BeginBlock; Tx "carol" [us 105] (PlaceBid "coll1" "1");
  At (sec 5000); Sudo EndBlock; Tx "alice" [us 10] (CreateAuction "coll1" "2" (us 100) 3600 None);
  Tx "bobby" [us 200] (PlaceBid "coll1" "2")].
Example C136_ra_case : let w := stray_world lib1 in let w' := after lib1 w later_acts in
  ra_reachable p1 lib1 w /\ rtc (ra_step p1 lib1) w w' /\ p_honest p1 "coll1" = true /\
  w_nft w "coll1" "7" = Some "aucti" /\ s_auctions (w_st w) !! (("coll1", "7") : akey) = None /\
  (w_bank w "aucti" "ustars" = 5 /\ high_total (w_st w) "ustars" = 0) /\
  (w_bank w' "aucti" "ustars" = 205 /\ high_total (w_st w') "ustars" = 200) /\
  w_nft w' "coll1" "7" = Some "aucti" /\ w_nft w' "coll1" "1" = Some "carol".
Proof.
  cbv zeta. split.
  { destruct (after_reachable lib1 rw0 [Sudo BeginBlock; Tx "alice" [us 15] (CreateAuction "coll1" "1" (us 100) 3600 None)]) as (w0&H0&Hw).
    - apply rw0_reachable.
    - by vm_compute.
    - exists w0. split; [exact H0|]. eapply rtc_r; [exact Hw|]. apply step_env, ES_transfer with "alice"; [done|by vm_compute]. }
  split. { apply run_acts_steps with later_acts. apply after_ok. by vm_compute. }
  split; [done|]. split; [by vm_compute|]. split; [by vm_compute|]. split; [split; by vm_compute|]. split; [split; by vm_compute|].
  split; by vm_compute.
Qed.
