(** A group of accounts gains coins only from sales to outsiders (C165 of properties.jsonl).  The theorems are closed by lemmas proved
    elsewhere; what they rest on is printed beneath, and an example shows a concrete case meeting their hypotheses. *)
From stdpp Require Import relations.
From Verif Require Import Base BaseFacts Common Chain ChainFacts QuerySpec LedgerSpec V2Model V2Spec V2Facts V2Inv V2Reach V2Examples
  V2Properties V2ExactSpec V2Exact V2ExactProperties V2LedgerSpec V2LedgerProperties V2QuoteSpec V2WealthSpec V2Wealth.

(** * C165 *)
(** In one call a group that does not contain the fee manager ends with no more coins, received or in escrow, than it put in or had in
    escrow; or somebody outside of the group buys an NFT, and then the gain is at most the price. *)
Theorem C165_one_call : forall p (G : addr -> bool) d v e sender funds st m st' msgs,
  collision_free p -> prefix_free p -> slash_free p -> small_history p st -> small_call funds m ->
  G (cf_fee_manager (s_config st)) = false -> execute p v e sender funds st m = Ok (st', msgs) ->
  got G d msgs + escrowed G d st' <= put G d sender funds + escrowed G d st \/
  exists buyer price, buys p v sender st st' msgs buyer price /\ G buyer = false /\
    got G d msgs + escrowed G d st' <= put G d sender funds + escrowed G d st + of_denom d price.
Proof. intros p G d v e sender funds st m st' msgs Hcf Hpf Hsl. by apply group_gain. Qed.
Print Assumptions C165_one_call.
(** Nobody need be left out: a group with the fee manager, and with the admin, gains in one call at most the listing fee that an outsider
    pays, and the price if an outsider buys.  Bids of outsiders that rest are out of its reach. *)
Theorem C165_with_fee_manager : forall p (G : addr -> bool) d v e sender funds st m st' msgs,
  collision_free p -> prefix_free p -> slash_free p -> small_history p st -> small_call funds m ->
  execute p v e sender funds st m = Ok (st', msgs) ->
  got G d msgs + escrowed G d st' <= put G d sender funds + escrowed G d st + outside_fee G d sender funds m \/
  exists buyer price, buys p v sender st st' msgs buyer price /\ G buyer = false /\
    got G d msgs + escrowed G d st' <= put G d sender funds + escrowed G d st + outside_fee G d sender funds m + of_denom d price.
Proof. intros p G d v e sender funds st m st' msgs Hcf Hpf Hsl. by apply manager_gain. Qed.
Print Assumptions C165_with_fee_manager.
(** Over a whole history in which no outsider buys, the group gets out no more than it put in. *)
Theorem C165_no_gain : forall p (G : addr -> bool) d st l,
  collision_free p -> prefix_free p -> slash_free p -> trace p st l -> Forall (fun h => small_call (en_funds h) (en_msg h)) l ->
  Forall (fun h => G (cf_fee_manager (s_config (en_before h))) = false /\ among p G h) l ->
  sum_over (fun h => got G d (en_msgs h)) l + escrowed G d st <= sum_over (fun h => put G d (en_by h) (en_funds h)) l.
Proof. intros p G d st l Hcf Hpf Hsl Ht Hs Ha. by apply (group_history p Hcf Hpf Hsl G d st l). Qed.
Print Assumptions C165_no_gain.
(** Over any history the gain is at most what outsiders paid, call by call. *)
Theorem C165_total_gain : forall p (G : addr -> bool) d st l,
  collision_free p -> prefix_free p -> slash_free p -> trace p st l -> Forall (fun h => small_call (en_funds h) (en_msg h)) l ->
  Forall (fun h => G (cf_fee_manager (s_config (en_before h))) = false) l ->
  exists sales, Forall2 (outside_sale p G d) l sales /\
    sum_over (fun h => got G d (en_msgs h)) l + escrowed G d st <=
    sum_over (fun h => put G d (en_by h) (en_funds h)) l + sum_over id sales.
Proof. intros p G d st l Hcf Hpf Hsl Ht Hs Ha. by apply (group_history_sales p Hcf Hpf Hsl G d st l). Qed.
Print Assumptions C165_total_gain.

(** The history of C124, in which alice sells to bobby and to carol: together they put in 2813, got 2067 and have 600 in escrow; the
    rest went to the fee manager and as royalties.  Alice alone got 1767 for 10: bobby and carol are outsiders then. *)
Definition friends (x : addr) : bool := bool_decide (x ∈ ["alice"; "bobby"; "carol"; "admin"]).
Definition all_friends (h : entry) : bool :=
  friends (en_by h) && forallb (fun ib => friends (b_creator (snd ib))) (map_to_list (s_bids (en_before h))) &&
  forallb (fun ib => friends (cb_creator (snd ib))) (map_to_list (s_cbids (en_before h))).
Lemma friends_among h : all_friends h = true -> among p0 friends h.
Proof.
  intros ([Hs Hb]%andb_true_iff&Hc)%andb_true_iff v buyer price (a&mb&[|]&_&->&_&H).
  - destruct H as [_ ->]. done.
  - destruct H as [H _]. rewrite forallb_forall in Hb, Hc. destruct mb as [b|b]; cbn [resting buyer_of] in *;
      apply elem_of_map_to_list, elem_of_list_In in H; [apply Hb in H|apply Hc in H]; done.
Qed.
Lemma ledger0_small : Forall (fun h => small_call (en_funds h) (en_msg h)) (snd ledger0_end).
Proof.
  assert (((fun h => (en_funds h, en_msg h)) <$> snd ledger0_end) = ((fun t : tx => (snd (fst t), snd t)) <$> ledger0)) as E by by vm_compute.
  assert (Forall (fun x : list coin * msg => small_call (fst x) (snd x)) ((fun h => (en_funds h, en_msg h)) <$> snd ledger0_end)) as H.
  { rewrite E. unfold ledger0, small_call, small, us, det. repeat constructor; cbn; try lia; intros c [= <-]; cbn; lia. }
  rewrite Forall_fmap in H. exact H.
Qed.
(** The admin and the fee manager gain 5 from each of the two listings and fees from the two sales to outsiders. *)
Definition staff (x : addr) : bool := bool_decide (x ∈ ["admin"; "feemg"]).
Definition alone (x : addr) : bool := bool_decide (x = "alice").
Example C165_case :
  collision_free p0 /\ prefix_free p0 /\ slash_free p0 /\ trace p0 (fst ledger0_end) (snd ledger0_end) /\
  Forall (fun h => small_call (en_funds h) (en_msg h)) (snd ledger0_end) /\
  Forall (fun h => friends (cf_fee_manager (s_config (en_before h))) = false /\ among p0 friends h) (snd ledger0_end) /\
  Forall (fun h => alone (cf_fee_manager (s_config (en_before h))) = false) (snd ledger0_end) /\
  book (fun h => put friends "ustars" (en_by h) (en_funds h)) = 2813 /\ book (fun h => got friends "ustars" (en_msgs h)) = 2067 /\
  escrowed friends "ustars" (fst ledger0_end) = 600 /\
  book (fun h => put alone "ustars" (en_by h) (en_funds h)) = 10 /\ book (fun h => got alone "ustars" (en_msgs h)) = 1767 /\
  cf_fee_manager (s_config (fst ledger0_end)) = "feemg" /\
  (fun h => (outside_fee staff "ustars" (en_by h) (en_funds h) (en_msg h), got staff "ustars" (en_msgs h))) <$> snd ledger0_end =
    [(0, 0); (5, 5); (0, 0); (0, 0); (0, 20); (5, 23); (0, 0)].
Proof.
  split; [exact p0_collision_free|]. split; [exact p0_prefix_free|]. split; [exact p0_slash_free|]. split; [exact ledger0_trace|].
  split; [exact ledger0_small|]. split.
  - assert (forallb (fun h => negb (friends (cf_fee_manager (s_config (en_before h)))) && all_friends h) (snd ledger0_end) = true) as H by by vm_compute.
    rewrite forallb_forall in H. apply Forall_forall. intros h Hh%elem_of_list_In. apply H in Hh as [H1 H2]%andb_true_iff.
    split; [by apply negb_true_iff|by apply friends_among].
  - split.
    { assert (forallb (fun h => negb (alone (cf_fee_manager (s_config (en_before h))))) (snd ledger0_end) = true) as H by by vm_compute.
      rewrite forallb_forall in H. apply Forall_forall. intros h Hh%elem_of_list_In. apply H in Hh. by apply negb_true_iff. }
    split_and!; by vm_compute.
Qed.
