(** What marketplace v1 holds beyond its books is locked for ever. *)
From stdpp Require Import relations pretty.
From Verif Require Import Base BaseFacts Common Chain ChainFacts V1Model V1Spec V1Facts V1Inv V1Reach V1Examples V1Properties V1Locked.

(** * C136, marketplace v1 *)
(** The coins of the contract that back no bid never become less. *)
Theorem C136_v1_surplus : forall p x w w', v1_reachable p x w -> rtc (v1_step p x) w w' ->
  (w_bank w (p_self p) "ustars" + (bids_total (w_st w') + cbids_total (w_st w')) <=
   w_bank w' (p_self p) "ustars" + (bids_total (w_st w) + cbids_total (w_st w))) /\
  (forall d, d <> "ustars" -> w_bank w (p_self p) d <= w_bank w' (p_self p) d).
Proof. exact surplus_kept. Qed.
Print Assumptions C136_v1_surplus.
(** An NFT of a standard collection that the contract has stays there: nobody can take it out, also by selling it. *)
Theorem C136_v1_nft : forall p x w w' c t, v1_reachable p x w -> rtc (v1_step p x) w w' ->
  p_honest p c = true -> w_nft w c t = Some (p_self p) -> w_nft w' c t = Some (p_self p).
Proof. exact nft_locked. Qed.
Print Assumptions C136_v1_nft.

(** Alice's listing names the contract as the recipient of the coins and bobby buys the NFT for the contract. *)
Definition stray_acts : list act := [
  Tx "alice" [us 10] (SetAsk FixedPrice "coll1" 1 (us 1000) (Some "marke") None None (sec 2000));
  Tx "bobby" [us 1000] (BuyFor "coll1" 1 (sec 2500) None None "marke")].
Definition later_acts : list act := [
  Tx "alice" [us 10] (SetAsk FixedPrice "coll1" 2 (us 1000) None None None (sec 2000));
  Tx "bobby" [us 700] (SetBid "coll1" 3 (sec 2500) None None); Tx "carol" [us 1000] (BuyNow "coll1" 2 (sec 2500) None None)].
Example C136_v1_case : forall x, let w := after x vw0 stray_acts in let w' := after x w later_acts in
  v1_reachable p1 x w /\ rtc (v1_step p1 x) w w' /\ p_honest p1 "coll1" = true /\ w_nft w "coll1" "1" = Some "marke" /\
  (w_bank w "marke" "ustars" = 930 /\ bids_total (w_st w) = 0) /\
  (w_bank w' "marke" "ustars" = 1630 /\ bids_total (w_st w') = 700) /\
  w_nft w' "coll1" "1" = Some "marke" /\ w_nft w' "coll1" "2" = Some "carol".
Proof.
  intros x. cbv zeta. split; [apply after_reachable; [apply vw0_reachable|by vm_compute]|].
  split. { apply run_acts_steps with later_acts. apply after_ok. by vm_compute. }
  split; [done|]. split; [by vm_compute|]. split; [split; by vm_compute|]. split; [split; by vm_compute|]. split; by vm_compute.
Qed.
