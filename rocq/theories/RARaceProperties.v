(** Bids in one block (C142 of properties.jsonl).  Each theorem is closed by a lemma proved elsewhere; what it rests on is printed
    beneath it, and examples show a concrete case meeting its hypotheses and what happens without two of them. *)
From stdpp Require Import relations.
From Verif Require Import Base BaseFacts Common Chain ChainFacts LedgerSpec RAModel RASpec RAFacts RAInv RAReach RAExactSpec RAExamples
  RARaceSpec RARace.

(** * C142 *)
(** However the bids are ordered, the highest wins if it is high enough: at the end it leads, its bidder has paid exactly it, the leader
    before the block has been paid back and all other bidders have what they had.  If none is high enough, nothing happens. *)
Theorem C142_highest_wins : forall p lb w a os, ra_reachable p lb w -> race p w a os ->
  let w' := attempt_all p lb w (map (offer_call a) os) in
  ((forall o, o ∈ os -> ~ enough (s_config (w_st w)) a (snd o)) /\ untouched w w') \/
  exists o, winner (s_config (w_st w)) a os o /\ won_by p w a o w'.
Proof. exact race_result. Qed.
Print Assumptions C142_highest_wins.
Theorem C142_any_order : forall p lb w a os os', ra_reachable p lb w -> race p w a os -> os ≡ₚ os' ->
  let w1 := attempt_all p lb w (map (offer_call a) os) in let w2 := attempt_all p lb w (map (offer_call a) os') in
  w_st w1 = w_st w2 /\ (forall x d, w_bank w1 x d = w_bank w2 x d) /\ (forall c t, w_nft w1 c t = w_nft w2 c t).
Proof. exact race_any_order. Qed.
Print Assumptions C142_any_order.

(** An auction led by eve01 with 100, and three more bids in its last block but one: 104 is not enough, 110 and 200 are. *)
Definition story142 : list act := [
  Tx "alice" [us 10] (CreateAuction "coll1" "1" (us 100) 1000 None);
  Tx "eve01" [us 100] (PlaceBid "coll1" "1");
  At (sec 1990)].
Definition w142 : world state := after lib1 rw0 story142.
Definition a142 : auction :=
  Auction "coll1" "1" "alice" (us 100) 1000 (Some (sec 2000)) None (Some (HighBid (us 100) "eve01")) (Some (sec 1000)).
Definition os142 : list offer := [("bobby", 104); ("carol", 200); ("dave1", 110)].
Lemma w142_race : race p1 w142 a142 os142.
Proof.
  assert (s_config (w_st w142) = cfg1) as Ec by (vm_compute; reflexivity).
  assert (w_time w142 = sec 1990) as Et by (vm_compute; reflexivity).
  split; rewrite ?Ec, ?Et.
  - vm_compute; reflexivity.
  - intros t [= <-]. by vm_compute.
  - clear. apply (bool_decide_unpack _). vm_compute. exact I.
  - clear Ec Et. intros x n [[= -> ->]|[[= -> ->]|[[= -> ->]|[]%elem_of_nil]%elem_of_cons]%elem_of_cons]%elem_of_cons; split_and!; by vm_compute.
  - clear. intros x n y m [[= -> ->]|[[= -> ->]|[[= -> ->]|[]%elem_of_nil]%elem_of_cons]%elem_of_cons]%elem_of_cons
      [[= -> ->]|[[= -> ->]|[[= -> ->]|[]%elem_of_nil]%elem_of_cons]%elem_of_cons]%elem_of_cons Hne; try done; first [left; by vm_compute|right; by vm_compute].
  - by intros hb [= <-].
  - done.
  - by vm_compute.
Qed.
Definition outcome142 (w' : world state) : option (N * option N) :=
  match s_auctions (w_st w') !! ("coll1", "1") with
  | Some a => match a_high a with Some hb => Some (c_amount (hb_coin hb), a_end a) | None => None end
  | None => None
  end.
Example C142_case : ra_reachable p1 lib1 w142 /\ race p1 w142 a142 os142 /\ winner cfg1 a142 os142 ("carol", 200) /\
  ~ enough cfg1 a142 104 /\
  (forall os, os = os142 \/ os = rev os142 ->
    let w' := attempt_all p1 lib1 w142 (map (offer_call a142) os) in
    outcome142 w' = Some (200, Some (sec 2890)) /\ w_bank w' "carol" "ustars" = w_bank w142 "carol" "ustars" - 200 /\
    w_bank w' "dave1" "ustars" = w_bank w142 "dave1" "ustars" /\ w_bank w' "eve01" "ustars" = w_bank w142 "eve01" "ustars" + 100).
Proof.
  split; [apply after_reachable; [apply rw0_reachable|by vm_compute]|]. split; [apply w142_race|].
  split.
  { split; [unfold os142; rewrite !elem_of_cons; auto|]. split; [by vm_compute|].
    intros o [->|[->|[->|[]%elem_of_nil]%elem_of_cons]%elem_of_cons]%elem_of_cons; by vm_compute. }
  split; [intros H; vm_compute in H; by apply H|].
  intros os [->| ->]; cbv zeta; split_and!; vm_compute; reflexivity.
Qed.
(** Bids closer than the increment: the earlier one wins. *)
Example C142_apart_needed :
  outcome142 (attempt_all p1 lib1 w142 (map (offer_call a142) [("bobby", 110); ("carol", 112)])) = Some (110, Some (sec 2890)) /\
  outcome142 (attempt_all p1 lib1 w142 (map (offer_call a142) [("carol", 112); ("bobby", 110)])) = Some (112, Some (sec 2890)).
Proof. split; vm_compute; reflexivity. Qed.
(** An auction set to run for a minute, with extensions of a quarter of an hour: a second bid in the block of the first one makes the
    auction longer, so the order decides when it ends. *)
Definition v142 : world state := after lib1 rw0 [Tx "alice" [us 10] (CreateAuction "coll1" "1" (us 100) 60 None)].
Definition b142 : auction := Auction "coll1" "1" "alice" (us 100) 60 None None None None.
Example C142_clock_needed :
  outcome142 (attempt_all p1 lib1 v142 (map (offer_call b142) [("bobby", 100); ("carol", 200)])) = Some (200, Some (sec 1900)) /\
  outcome142 (attempt_all p1 lib1 v142 (map (offer_call b142) [("carol", 200); ("bobby", 100)])) = Some (200, Some (sec 1060)).
Proof. split; vm_compute; reflexivity. Qed.
