(** The books of marketplace v2 over a whole history (V2LedgerSpec). *)
From stdpp Require Import relations.
From Verif Require Import Base BaseFacts Common Chain ChainFacts LedgerSpec Ledger V2Model V2Spec V2Facts V2Inv V2Reach V2Examples
  V2LedgerSpec V2Ledger.

(** * C124: every coin that ever came with a buyer's call came back, or bought an NFT, or backs a bid. *)
Theorem C124_buyer_books : forall p st l u d, collision_free p -> N.of_nat (length l) < U64_MAX -> trace p st l ->
  sum_over (paid_in u d) l = sum_over (paid_back u d) l + sum_over (spent u d) l + in_escrow u d st.
Proof. intros p st l u d. apply books. Qed.
Print Assumptions C124_buyer_books.
(** What a buyer spends in own calls is nothing, or the price of a listing, whose NFT is sent to who the call names. *)
Theorem C124_own_purchase : forall p st l h u, trace p st l -> h ∈ l -> own u h = true ->
  upto_nft (en_msgs h) = [] \/ exists a, purchase u h a.
Proof. exact own_purchase. Qed.
Print Assumptions C124_own_purchase.
(** A bid that leaves the book in any other call was sold into: the NFT it asks for goes to who it names, and the bid,
    with the listing fee, is all that leaves the contract. *)
Theorem C124_bid_taken : forall p st l h i b, collision_free p -> prefix_free p -> slash_free p ->
  N.of_nat (length l) < U64_MAX -> trace p st l -> h ∈ l -> own (b_creator b) h = false ->
  s_bids (en_before h) !! i = Some b -> s_bids (en_after h) !! i = None ->
  MNft (b_coll b) (b_tok b) (to_whom (b_creator b) (b_det b)) ∈ en_msgs h /\
  forall d, leaving d (en_msgs h) = of_denom d (d_price (b_det b)) + listing_paid d h.
Proof. exact bid_taken. Qed.
Print Assumptions C124_bid_taken.
Theorem C124_collection_bid_taken : forall p st l h i b, collision_free p -> prefix_free p -> slash_free p ->
  N.of_nat (length l) < U64_MAX -> trace p st l -> h ∈ l -> own (cb_creator b) h = false ->
  s_cbids (en_before h) !! i = Some b -> s_cbids (en_after h) !! i = None ->
  exists t, MNft (cb_coll b) t (to_whom (cb_creator b) (cb_det b)) ∈ en_msgs h /\
  forall d, leaving d (en_msgs h) = of_denom d (d_price (cb_det b)) + listing_paid d h.
Proof. exact cbid_taken. Qed.
Print Assumptions C124_collection_bid_taken.
(** All coins that ever came in went out again, or back a bid, or came with a call that ignores them. *)
Theorem C124_contract_books : forall p st l d, collision_free p -> N.of_nat (length l) < U64_MAX -> trace p st l ->
  sum_over (comes_in d) l = sum_over (goes_out d) l + all_bids d st + sum_over (stray d) l.
Proof. intros p st l d. apply contract_books. Qed.
Print Assumptions C124_contract_books.
(** Every state of the contract on the chain is the end of such a history. *)
Theorem C124_on_chain : forall p w, reachable p w -> exists l, trace p (w_st w) l.
Proof. intros p w [n H]%reachable_history. destruct (history_trace _ _ _ H) as (l&Hl&_). by exists l. Qed.
Print Assumptions C124_on_chain.

(** A history that can be run. *)
Fixpoint record (st : state) (xs : list tx) : result (state * list entry) :=
  match xs with
  | [] => Ok (st, [])
  | (s, f, m) :: xs =>
      '(st', ms) ← execute p0 (view_of p0 w0) (env_of w0) s f st m;
      ensure (negb (bool_decide (s = p_self p0))) EOther ;;
      '(st'', l) ← record st' xs; Ok (st'', Entry s f m st st' ms :: l)
  end.
Lemma record_trace xs : forall st l st' l', trace p0 st l -> record st xs = Ok (st', l') -> trace p0 st' (l ++ l').
Proof.
  induction xs as [|[[s f] m] xs IH]; intros st l st' l' Ht H; cbn [record] in H.
  - injection H as <- <-. by rewrite app_nil_r.
  - apply bind_Ok in H as ([st1 ms]&H1&H). apply bind_Ok in H as (?&Hu&H). apply bind_Ok in H as ([st2 l2]&H2&H). injection H as <- <-.
    apply ensure_Ok, negb_true_iff, bool_decide_eq_false in Hu.
    assert (trace p0 st1 (l ++ [Entry s f m st st1 ms])) as Hn by (by eapply tr_next).
    specialize (IH _ _ _ _ Hn H2). by rewrite <- app_assoc in IH.
Qed.
(** Bobby buys token 1 for 1000, attaching 1100, and lowers a bid of 800 to 600.  Alice sells token 2 into carol's
    collection bid.  The administrator attached 3 to a call that ignores coins. *)
Definition ledger0 : list tx := [
  ("admin", [us 3], SetListingFee (us 5)); ("alice", [us 5], SetAsk "coll1" "1" (det 1000));
  ("bobby", [us 800], SetBid "coll1" "2" (Details (us 800) (Some "carol") None));
  ("carol", [us 900], SetCollectionBid "coll1" (det 900));
  ("bobby", [us 1100], BuySpecificNft "coll1" "1" (det 1100)); ("alice", [us 5], SellNft "coll1" "2" (det 700));
  ("bobby", [], UpdateBid bid_id (det 600))].
Definition ledger0_end : state * list entry := match record st0 ledger0 with Ok r => r | Err _ => (st0, []) end.
Lemma ledger0_trace : trace p0 (fst ledger0_end) (snd ledger0_end).
Proof.
  assert (is_ok (record st0 ledger0) = true) as Hok by by vm_compute. unfold ledger0_end.
  destruct (record st0 ledger0) as [[st l]|] eqn:E; [|done]. cbn [fst snd]. change l with ([] ++ l).
  eapply record_trace; [|exact E]. apply (tr_start _ cfg0). by vm_compute.
Qed.
Definition book (f : entry -> N) : N := sum_over f (snd ledger0_end).
Definition nth_entry (n : nat) : entry := default (Entry "" [] (RemoveAsk "") st0 st0 []) (snd ledger0_end !! n).
Example C124_case : collision_free p0 /\ prefix_free p0 /\ slash_free p0 /\
  trace p0 (fst ledger0_end) (snd ledger0_end) /\ length (snd ledger0_end) = 7%nat /\
  (book (paid_in "bobby" "ustars") = 1900 /\ book (paid_back "bobby" "ustars") = 300 /\
   book (spent "bobby" "ustars") = 1000 /\ in_escrow "bobby" "ustars" (fst ledger0_end) = 600) /\
  (book (paid_in "carol" "ustars") = 900 /\ book (paid_back "carol" "ustars") = 0 /\
   book (spent "carol" "ustars") = 900 /\ in_escrow "carol" "ustars" (fst ledger0_end) = 0) /\
  (book (comes_in "ustars") = 2813 /\ book (goes_out "ustars") = 2210 /\ all_bids "ustars" (fst ledger0_end) = 600 /\
   book (stray "ustars") = 3) /\
  (let h := nth_entry 4 in h ∈ snd ledger0_end /\ own "bobby" h = true /\
   upto_nft (en_msgs h) <> [] /\ last (upto_nft (en_msgs h)) = Some (MNft "coll1" "1" "bobby")) /\
  (let h := nth_entry 5 in let b := CBid cbid_id "carol" "coll1" (det 900) in h ∈ snd ledger0_end /\ own "carol" h = false /\
   s_cbids (en_before h) !! cbid_id = Some b /\ s_cbids (en_after h) !! cbid_id = None /\
   MNft "coll1" "2" "carol" ∈ en_msgs h /\ listing_paid "ustars" h = 5).
Proof.
  assert (forall n, (n < length (snd ledger0_end))%nat -> nth_entry n ∈ snd ledger0_end) as Hin.
  { intros n [h Hh]%lookup_lt_is_Some. unfold nth_entry. rewrite Hh. by eapply elem_of_list_lookup_2. }
  assert (length (snd ledger0_end) = 7%nat) as Hl by by vm_compute.
  split; [exact p0_collision_free|]. split; [exact p0_prefix_free|]. split; [exact p0_slash_free|].
  split; [exact ledger0_trace|]. split; [exact Hl|].
  split; [split_and!; by vm_compute|]. split; [split_and!; by vm_compute|]. split; [split_and!; by vm_compute|].
  split; cbv zeta.
  - split; [apply Hin; rewrite Hl; lia|]. split; [by vm_compute|]. split; by vm_compute.
  - split; [apply Hin; rewrite Hl; lia|]. split; [by vm_compute|]. split; [by vm_compute|]. split; [by vm_compute|].
    split; [|by vm_compute].
    apply (elem_of_list_lookup_2 _ (length (en_msgs (nth_entry 5)) - 1)). by vm_compute.
Qed.
