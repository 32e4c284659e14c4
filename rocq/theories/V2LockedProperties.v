(** What marketplace v2 holds beyond its books is locked for ever. *)
From stdpp Require Import relations.
From Verif Require Import Base BaseFacts Common Chain ChainFacts NftBooksSpec V2Model V2Spec V2Facts V2Inv V2Reach V2Examples V2NftSpec V2Locked.

(** * C136: coins beyond the bids, and NFTs that are not listed, never leave the contract again. *)
(** The coins of the contract that back no bid (what it has minus what it owes) never become less. *)
Theorem C136_v2_surplus : forall p w w' d, reachable p w -> rtc (v2_step p) w w' ->
  w_bank w (p_self p) d + escrow (w_st w') d <= w_bank w' (p_self p) d + escrow (w_st w) d.
Proof. exact surplus_kept. Qed.
Print Assumptions C136_v2_surplus.
(** An NFT of a standard collection that the contract has without a listing stays there and can never be listed. *)
Theorem C136_v2_nft : forall p w w' c t, p_reg_reenters p = false -> reachable p w -> rtc (v2_step p) w w' ->
  p_honest p c = true -> w_nft w c t = Some (p_self p) -> ~ listed (w_st w) (c, t) ->
  w_nft w' c t = Some (p_self p) /\ ~ listed (w_st w') (c, t).
Proof.
  assert (forall st c t, listed st (c, t) <-> held st c t) as Hl.
  { intros st c t. unfold listed, held. split; intros (i&a&Ha&E); exists i, a; (split; [done|]).
    - by injection E.
    - by destruct E as [-> ->]. }
  intros p w w' c t Hreg Hr H Hh Ho Hn. rewrite Hl in *. eapply nft_locked; eauto.
Qed.
Print Assumptions C136_v2_nft.

(** The administrator attached 3 coins to a call that ignores them; bobby's bid named the contract as the recipient and alice
    sold into it.  Nothing is listed, no bid is open: 3 coins and token 2 are locked.  Later calls change nothing. *)
Definition stray_acts : list tx := [
  ("admin", [us 3], SetListingFee (us 5)); ("bobby", [us 800], SetBid "coll1" "2" (Details (us 800) (Some "mrktp") None));
  ("alice", [], AcceptBid bid_id (det 800))].
Definition w_stray : world state := after w0 stray_acts.
Definition later_acts : list tx := [
  ("alice", [us 5], SetAsk "coll1" "1" (det 1000)); ("carol", [us 900], SetCollectionBid "coll1" (det 900));
  ("bobby", [us 1100], BuySpecificNft "coll1" "1" (det 1100))].
Definition w_later : world state := after w_stray later_acts.
Example C136_v2_case : p_reg_reenters p0 = false /\ reachable p0 w_stray /\ rtc (v2_step p0) w_stray w_later /\
  p_honest p0 "coll1" = true /\ w_nft w_stray "coll1" "2" = Some "mrktp" /\ ~ listed (w_st w_stray) ("coll1", "2") /\
  (w_bank w_stray "mrktp" "ustars" = 3 /\ escrow (w_st w_stray) "ustars" = 0) /\
  (w_bank w_later "mrktp" "ustars" = 903 /\ escrow (w_st w_later) "ustars" = 900) /\
  w_nft w_later "coll1" "2" = Some "mrktp" /\ w_nft w_later "coll1" "1" = Some "bobby".
Proof.
  split; [done|]. split; [apply after_reachable; by vm_compute|]. split.
  { assert (is_ok (run_txs p0 (execute p0) w_stray later_acts) = true) as Hok by by vm_compute.
    apply run_txs_steps with later_acts. unfold w_later, after. destruct (run_txs p0 (execute p0) w_stray later_acts); [done|discriminate Hok]. }
  split; [done|]. split; [by vm_compute|]. split.
  { intros (i&a&Ha&_). assert (map_to_list (s_asks (w_st w_stray)) = []) as E by by vm_compute.
    apply elem_of_map_to_list in Ha. rewrite E in Ha. by apply elem_of_nil in Ha. }
  split; [split; by vm_compute|]. split; [split; by vm_compute|]. split; by vm_compute.
Qed.
