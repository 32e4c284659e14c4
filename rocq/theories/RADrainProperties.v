(** The auction house can be emptied (C141 of properties.jsonl).  Each theorem is closed by a lemma proved elsewhere; what it
    rests on is printed beneath it, and an example shows a concrete case meeting its hypotheses. *)
From stdpp Require Import relations.
From Verif Require Import Base BaseFacts Common Chain ChainFacts LedgerSpec RAModel RASpec RAFacts RAInv RAReach RAExactSpec RAExamples
  RADrainSpec RADrain.

(** * C141 *)
(** Sellers cancel any auctions without bids and anybody settles any ended ones, one after the other, in any order: every call goes
    through, with the payments and NFT transfers each would have had on its own. *)
Theorem C141_ra_any_order : forall p lb w cs, ra_reachable p lb w -> NoDup (map auction_of cs) -> (forall c, c ∈ cs -> closable p lb w c) ->
  exists w', run_txs p (execute p lb) w (map closing_call cs) = Ok w' /\ ra_reachable p lb w' /\ closed p w cs w'.
Proof. intros p lb w cs. apply close_any. Qed.
Print Assumptions C141_ra_any_order.
Theorem C141_ra_emptied : forall p lb w cs, ra_reachable p lb w -> NoDup (map auction_of cs) -> (forall c, c ∈ cs -> closable p lb w c) ->
  (forall k a, s_auctions (w_st w) !! k = Some a -> a ∈ map auction_of cs) ->
  exists w', run_txs p (execute p lb) w (map closing_call cs) = Ok w' /\ closed p w cs w' /\ s_auctions (w_st w') = ∅.
Proof. exact close_all. Qed.
Print Assumptions C141_ra_emptied.

(** Two ended auctions and one without bids. *)
Definition story141 : list act := [
  Tx "alice" [us 10] (CreateAuction "coll1" "1" (us 100) 60 None);
  Tx "alice" [us 10] (CreateAuction "coll1" "2" (us 100) 60 None);
  Tx "alice" [us 10] (CreateAuction "coll1" "3" (us 100) 60 None);
  Tx "bobby" [us 100] (PlaceBid "coll1" "3");
  Tx "carol" [us 100] (PlaceBid "coll1" "2");
  At (sec 1070)].
Definition w141 : world state := after lib1 rw0 story141.
Definition over141 (tok : string) (who : addr) : auction :=
  Auction "coll1" tok "alice" (us 100) 60 (Some (sec 1060)) None (Some (HighBid (us 100) who)) (Some (sec 1000)).
Definition idle141 : auction := Auction "coll1" "1" "alice" (us 100) 60 None None None None.
Definition split141 : sale_split := SaleSplit 2 5 93 "royal".
Definition cs141 : list closing := [Settle (over141 "3" "bobby") "dave1" (HighBid (us 100) "bobby") split141; Cancel idle141;
  Settle (over141 "2" "carol") "carol" (HighBid (us 100) "carol") split141].
Lemma w141_settle tok who s : s_auctions (w_st w141) !! ("coll1", tok) = Some (over141 tok who) -> s <> p_self p1 ->
  closable p1 lib1 w141 (Settle (over141 tok who) s (HighBid (us 100) who) split141).
Proof.
  intros Ha Hs. split; [done|]. split; [done|]. split; [done|]. split; [done|].
  split; [exists (sec 1060); split; [done|]; split; [by vm_compute|]|].
  { intros (x&Hx&_). assert (hm_windows (s_halt (w_st w141)) = []) as E by (vm_compute; reflexivity). rewrite E in Hx. by apply elem_of_nil in Hx. }
  split.
  { unfold royalty_known. cbn [a_coll over141].
    assert (q_info (view_of p1 w141) "coll1" = Some (CollectionInfo None (Some ("royal", 50000000000000000)))) as -> by (vm_compute; reflexivity).
    by intros to share [= <- <-]. }
  split; [done|]. split; [by vm_compute|]. by vm_compute.
Qed.
Example C141_case : ra_reachable p1 lib1 w141 /\ NoDup (map auction_of cs141) /\ (forall c, c ∈ cs141 -> closable p1 lib1 w141 c) /\
  (forall k a, s_auctions (w_st w141) !! k = Some a -> a ∈ map auction_of cs141) /\
  let w' := after lib1 w141 (map (fun c => Tx c.1.1 c.1.2 c.2) (map closing_call cs141)) in
  w_bank w141 "aucti" "ustars" = 200 /\ w_bank w' "aucti" "ustars" = 0 /\ w_bank w' "alice" "ustars" = w_bank w141 "alice" "ustars" + 186 /\
  w_bank w' "royal" "ustars" = w_bank w141 "royal" "ustars" + 10 /\
  w_nft w' "coll1" "1" = Some "alice" /\ w_nft w' "coll1" "2" = Some "carol" /\ w_nft w' "coll1" "3" = Some "bobby".
Proof.
  split; [apply after_reachable; [apply rw0_reachable|by vm_compute]|].
  split; [by repeat (constructor; [rewrite ?elem_of_cons, elem_of_nil; naive_solver|]); constructor|].
  split.
  { intros c. unfold cs141. rewrite !elem_of_cons, elem_of_nil. intros [->|[->|[->|[]]]].
    - apply w141_settle; [vm_compute; reflexivity|done].
    - split; [vm_compute; reflexivity|done].
    - apply w141_settle; [vm_compute; reflexivity|done]. }
  split.
  { intros k a H%elem_of_map_to_list. apply (elem_of_list_fmap_1 snd) in H. cbn [snd] in H.
    assert ((map_to_list (s_auctions (w_st w141))).*2 = [over141 "2" "carol"; idle141; over141 "3" "bobby"]) as E by (vm_compute; reflexivity).
    rewrite E in H. cbn [map auction_of cs141]. rewrite !elem_of_cons, elem_of_nil in *. tauto. }
  vm_compute. split_and!; reflexivity.
Qed.
