(** Nobody's NFT moves in a transaction of somebody else, with the reserve auction (C170 of properties.jsonl).  What the theorems rest on
    is printed beneath, and an example shows a concrete case meeting their hypotheses. *)
From stdpp Require Import relations.
From Verif Require Import Base BaseFacts Common Chain ChainFacts LedgerSpec NftBooksSpec TxSpec TxFacts TheftSpec LossFacts QuerySpec RAModel RASpec RAFacts
  RAInv RAReach RAMore RAExamples RAProperties RAExactSpec RAExact RALedgerSpec RALedger RANftSpec RANft RATx RATxProperties RALossProperties.

(** * C170 *)
(** An NFT that belongs neither to the sender nor to the contract stays where it is, with its approvals. *)
Theorem C170_ra_safe : forall p lb w sender funds m w' c t u, ra_reachable p lb w -> run_tx p (execute p lb) w sender funds m = Ok w' ->
  p_honest p c = true -> w_nft w c t = Some u -> u <> sender -> u <> p_self p -> nft_left w w' c t.
Proof.
  intros p lb w sender funds m w' c t u Hr ([Hn _]&st'&ms&He&H)%run_tx_settled Hho Hu Hs Hself. pose proof (reachable_history p lb w Hr) as Hh.
  eapply not_moved; [exact H|]. rewrite moved_moves.
  pose proof (step_moves p lb _ _ _ (c, t) Hh (rec_user p lb _ _ _ _ _ _ _ _ Hn He)) as E. cbn [e_msgs] in E. rewrite E. unfold due_moves.
  destruct (s_auctions (w_st w) !! ((c, t) : akey)) as [a|] eqn:Ha.
  { exfalso. destruct (auction_custody p lb w _ a Hr Ha) as [Hk Hx]. injection Hk as Hc Ht. subst c t. rewrite (Hx Hho) in Hu. congruence. }
  destruct (s_auctions st' !! ((c, t) : akey)) as [a'|] eqn:Ha'; [exfalso|done].
  apply (calls_sound p lb _ Hh) in He.
  destruct He as [coll tok reserve duration recipient Hmo _|coll tok reserve a mn _ Hb|coll tok a _ Hb|coll tok a n a1 ms Hb|coll tok a o ms _ Hb];
    cbn [put_auction s_auctions] in Ha';
    (destruct (decide ((coll, tok) = (c, t))) as [[= -> ->]|Hne]; [try discriminate (eq_trans (eq_sym Hb) Ha)|]).
  - pose proof (mo_owner _ _ _ _ _ _ _ _ _ _ _ Hmo) as Ho. cbn [view_of q_owner] in Ho. rewrite Hho, Hu in Ho. done.
  - unfold put_auction in Ha'. cbn in Ha'. rewrite lookup_insert_ne in Ha' by done. discriminate (eq_trans (eq_sym Ha') Ha).
  - unfold put_auction in Ha'. cbn in Ha'. rewrite lookup_insert_ne in Ha' by done. discriminate (eq_trans (eq_sym Ha') Ha).
  - unfold put_auction in Ha'. cbn in Ha'. rewrite lookup_delete_ne in Ha' by done. discriminate (eq_trans (eq_sym Ha') Ha).
  - unfold put_auction in Ha'. cbn in Ha'. rewrite lookup_insert_ne in Ha' by done. discriminate (eq_trans (eq_sym Ha') Ha).
  - unfold put_auction in Ha'. cbn in Ha'. destruct o; [rewrite lookup_insert_ne in Ha' by done|rewrite lookup_delete_ne in Ha' by done]; discriminate (eq_trans (eq_sym Ha') Ha).
Qed.
Print Assumptions C170_ra_safe.
(** Block hooks and governance move no NFT but those in the contract. *)
Theorem C170_ra_block_safe : forall p lb w m w' c t u, ra_reachable p lb w -> run_sudo p lb w m = Ok w' ->
  p_honest p c = true -> w_nft w c t = Some u -> u <> p_self p -> nft_left w w' c t.
Proof.
  intros p lb w m w' c t u Hr (st'&ms&He&H)%sudo_settled Hho Hu Hself. pose proof (reachable_history p lb w Hr) as Hh.
  eapply not_moved; [exact H|]. rewrite moved_moves.
  pose proof (step_moves p lb _ _ _ (c, t) Hh (rec_chain p lb _ _ _ _ _ _ He)) as E. cbn [e_msgs] in E. rewrite E. unfold due_moves.
  destruct (s_auctions (w_st w) !! ((c, t) : akey)) as [a|] eqn:Ha.
  { exfalso. destruct (auction_custody p lb w _ a Hr Ha) as [Hk Hx]. injection Hk as Hc Ht. subst c t. rewrite (Hx Hho) in Hu. congruence. }
  destruct (s_auctions st' !! ((c, t) : akey)) as [a'|] eqn:Ha'; [exfalso|done].
  discriminate (eq_trans (eq_sym Ha') (new_auction_sudo p lb _ _ _ _ _ _ _ (history_wf p lb _ Hh) He Ha)).
Qed.
Print Assumptions C170_ra_block_safe.

(** Alice's token 2 stays when bobby bids for token 1 and when the auction of token 1 ends. *)
Example C170_ra_case : ra_reachable p1 lib1 w1 /\ is_ok (run_tx p1 (execute p1 lib1) w1 "bobby" [us 111] (PlaceBid "coll1" "1")) = true /\
  p_honest p1 "coll1" = true /\ w_nft w1 "coll1" "2" = Some "alice" /\ w_nft w1 "coll1" "1" = Some (p_self p1) /\
  ra_reachable p1 lib1 w_over /\ is_ok (run_sudo p1 lib1 w_over EndBlock) = true /\ w_nft w_over "coll1" "2" = Some "alice" /\
  w_nft ended131 "coll1" "1" = Some "carol".
Proof.
  split; [exact w1_reachable|]. split; [by vm_compute|]. split; [done|]. split; [by vm_compute|]. split; [by vm_compute|].
  split; [exact w_over_reachable|]. split_and!; by vm_compute.
Qed.
