(** The books of marketplace v1 over a whole history (V1LedgerSpec). *)
From stdpp Require Import relations.
From Verif Require Import Base BaseFacts Common Chain ChainFacts LedgerSpec Ledger V1Model V1Spec V1Facts V1Inv V1Reach V1Examples
  V1LedgerSpec V1Ledger.

(** * C125: every coin that ever came with a buyer's call came back, or bought an NFT, or was the reward for removing a
    stale bid, or backs a bid. *)
Theorem C125_buyer_books : forall p x st l u d, trace p x st l ->
  sum_over (paid_in u d) l =
  sum_over (paid_back u d) l + sum_over (spent u d) l + sum_over (rewarded u d) l + in_escrow u d st.
Proof. intros p x st l u d. apply books. Qed.
Print Assumptions C125_buyer_books.
(** What a buyer spends in own calls is nothing, or the price of a listing, whose NFT is sent to who the call names. *)
Theorem C125_own_purchase : forall p x st l h u, trace p x st l -> h ∈ l -> own u h = true ->
  (sells h = false /\ forall d, spent u d h = 0) \/ exists a, purchase u h a /\ forall d, spent u d h = stars d (k_price a).
Proof. exact own_purchase. Qed.
Print Assumptions C125_own_purchase.
(** A bid that leaves the book in any other call was sold into, and then the NFT goes to the bidder and at most one unit
    of the bid stays behind; or it is returned, less a reward. *)
Theorem C125_bid_left : forall p x st l h k b, trace p x st l -> h ∈ l -> own (b_bidder b) h = false ->
  s_bids (e_before h) !! k = Some b -> s_bids (e_after h) !! k = None ->
  if sells h
  then MNft (b_coll b) (tok_str (b_tok b)) (b_bidder b) ∈ e_msgs h /\
       exists dust, dust <= 1 /\ forall d, leaving d (e_msgs h) + stars d dust = stars d (b_price b)
  else exists reward, (reward = 0 \/ reward = b_price b * sp_reward (s_params (e_before h)) / 10 ^ 20) /\ reward <= b_price b /\
       forall d, paid_back (b_bidder b) d h = stars d (b_price b - reward) /\ rewarded (b_bidder b) d h = stars d reward.
Proof. exact bid_left. Qed.
Print Assumptions C125_bid_left.
Theorem C125_collection_bid_left : forall p x st l h k b, trace p x st l -> h ∈ l -> own (cb_bidder b) h = false ->
  s_cbids (e_before h) !! k = Some b -> s_cbids (e_after h) !! k = None ->
  if sells h
  then (exists t, MNft (cb_coll b) (tok_str t) (cb_bidder b) ∈ e_msgs h) /\
       exists dust, dust <= 1 /\ forall d, leaving d (e_msgs h) + stars d dust = stars d (cb_price b)
  else exists reward, (reward = 0 \/ reward = cb_price b * sp_reward (s_params (e_before h)) / 10 ^ 20) /\ reward <= cb_price b /\
       forall d, paid_back (cb_bidder b) d h = stars d (cb_price b - reward) /\ rewarded (cb_bidder b) d h = stars d reward.
Proof. exact cbid_left. Qed.
Print Assumptions C125_collection_bid_left.
(** All coins that ever came in went out again or back a bid, but for at most one unit per sale. *)
Theorem C125_contract_books : forall p x st l d, trace p x st l ->
  exists dust, dust <= sum_over sale_count l /\ sum_over (comes_in d) l = sum_over (goes_out d) l + all_bids d st + dust.
Proof. intros p x st l d. apply contract_books. Qed.
Print Assumptions C125_contract_books.
(** Every state of the contract on the chain is the end of such a history. *)
Theorem C125_on_chain : forall p x w, v1_reachable p x w -> exists l, trace p x (w_st w) l.
Proof. intros p x w H. by apply history_trace, reachable_history. Qed.
Print Assumptions C125_on_chain.

(** A history that can be run. *)
Definition step1 : Type := N * (addr * list coin * msg + sudo_msg).
Section Record.
Context (x : ext).
Fixpoint record (st : state) (xs : list step1) : result (state * list entry) :=
  match xs with
  | [] => Ok (st, [])
  | (t, a) :: xs =>
      '(st', h) ← match a with
        | inl (s, f, m) => '(st', ms) ← execute p1 x (view_of p1 vw0) (Env 10 (sec t)) s f st m;
                           ensure (negb (bool_decide (s = p_self p1))) EOther ;; Ok (st', User s f m st st' ms)
        | inr m => '(st', ms) ← sudo p1 (view_of p1 vw0) (Env 10 (sec t)) st m; Ok (st', Chain m st st' ms)
        end;
      '(st'', l) ← record st' xs; Ok (st'', h :: l)
  end.
Lemma record_trace xs : forall st l st' l', trace p1 x st l -> record st xs = Ok (st', l') -> trace p1 x st' (l ++ l').
Proof.
  induction xs as [|[t a] xs IH]; intros st l st' l' Ht H; cbn [record] in H.
  - injection H as <- <-. by rewrite app_nil_r.
  - apply bind_Ok in H as ([st1 h]&H1&H). apply bind_Ok in H as ([st2 l2]&H2&H). injection H as <- <-.
    assert (trace p1 x st1 (l ++ [h])) as Hn.
    { eapply tr_next; [exact Ht|]. destruct a as [[[s f] m]|m]; apply bind_Ok in H1 as ([s1 ms]&He&H1).
      - apply bind_Ok in H1 as (?&Hu&H1). apply ensure_Ok, negb_true_iff, bool_decide_eq_false in Hu. injection H1 as <- <-.
        by eapply rec_user.
      - injection H1 as <- <-. by eapply rec_chain. }
    specialize (IH _ _ _ _ Hn H2). by rewrite <- app_assoc in IH.
Qed.
End Record.
(** Bobby buys token 1 for 1010 in place of a bid of 900 (one unit is lost in rounding), and has a bid of 100 rejected.
    Carol's bid of 600 is accepted.  Daver replaces a collection bid of 700 by one of 500, which an operator removes for a
    reward of 25.  Edith's bid of 300 rests. *)
Definition ledger1 : list step1 := [
  (1000, inr (AddBidHook "hook2"));
  (1000, inl ("alice", [us 10], SetAsk FixedPrice "coll1" 1 (us 1010) None None (Some 100) (sec 2000)));
  (1000, inl ("bobby", [us 900], SetBid "coll1" 1 (sec 2500) None None));
  (1010, inl ("bobby", [us 1010], BuyNow "coll1" 1 (sec 2500) None None));
  (1020, inl ("carol", [us 600], SetBid "coll1" 2 (sec 2500) None None));
  (1030, inl ("alice", [], AcceptBid "coll1" 2 "carol" None));
  (1040, inl ("daver", [us 700], SetCollectionBid "coll1" (sec 1500) None));
  (1050, inl ("daver", [us 500], SetCollectionBid "coll1" (sec 1200) None));
  (1060, inl ("edith", [us 300], SetBid "coll1" 3 (sec 2500) None None));
  (1070, inl ("bobby", [us 100], SetBid "coll1" 4 (sec 2500) None None));
  (1080, inl ("alice", [], RejectBid "coll1" 4 "bobby"));
  (2000, inl ("opera", [], RemoveStaleCollectionBid "coll1" "daver"))].
Definition x1 : ext := Ext true.
Definition ledger1_end : state * list entry := match record x1 vst0 ledger1 with Ok r => r | Err _ => (vst0, []) end.
Lemma ledger1_trace : trace p1 x1 (fst ledger1_end) (snd ledger1_end).
Proof.
  assert (is_ok (record x1 vst0 ledger1) = true) as Hok by by vm_compute. unfold ledger1_end.
  destruct (record x1 vst0 ledger1) as [[st l]|] eqn:E; [|done]. cbn [fst snd]. change l with ([] ++ l).
  eapply record_trace; [|exact E]. apply (tr_start _ _ config1). by vm_compute.
Qed.
Definition book (f : entry -> N) : N := sum_over f (snd ledger1_end).
Definition nth_entry (n : nat) : entry := default (Chain (AddBidHook "") vst0 vst0 []) (snd ledger1_end !! n).
Example C125_case : trace p1 x1 (fst ledger1_end) (snd ledger1_end) /\ length (snd ledger1_end) = 12%nat /\
  (book (paid_in "bobby" "ustars") = 2010 /\ book (paid_back "bobby" "ustars") = 1000 /\
   book (spent "bobby" "ustars") = 1010 /\ book (rewarded "bobby" "ustars") = 0 /\ in_escrow "bobby" "ustars" (fst ledger1_end) = 0) /\
  (book (paid_in "daver" "ustars") = 1200 /\ book (paid_back "daver" "ustars") = 1175 /\
   book (spent "daver" "ustars") = 0 /\ book (rewarded "daver" "ustars") = 25 /\ in_escrow "daver" "ustars" (fst ledger1_end) = 0) /\
  (book (spent "carol" "ustars") = 600 /\ in_escrow "edith" "ustars" (fst ledger1_end) = 300) /\
  (book (comes_in "ustars") = 4120 /\ book (goes_out "ustars") = 3819 /\ all_bids "ustars" (fst ledger1_end) = 300 /\
   book sale_count = 2) /\
  (let h := nth_entry 3 in h ∈ snd ledger1_end /\ own "bobby" h = true /\ sells h = true) /\
  (let h := nth_entry 5 in h ∈ snd ledger1_end /\ own "carol" h = false /\ sells h = true /\
   s_bids (e_before h) !! ("coll1", 2, "carol") = Some (Bid "coll1" 2 "carol" 600 None (sec 2500)) /\
   s_bids (e_after h) !! ("coll1", 2, "carol") = None) /\
  (let h := nth_entry 11 in h ∈ snd ledger1_end /\ own "daver" h = false /\ sells h = false /\
   s_cbids (e_before h) !! ("coll1", "daver") = Some (CBid "coll1" "daver" 500 None (sec 1200)) /\
   s_cbids (e_after h) !! ("coll1", "daver") = None /\ paid_back "daver" "ustars" h = 475).
Proof.
  assert (forall n, (n < length (snd ledger1_end))%nat -> nth_entry n ∈ snd ledger1_end) as Hin.
  { intros n [h Hh]%lookup_lt_is_Some. unfold nth_entry. rewrite Hh. by eapply elem_of_list_lookup_2. }
  assert (length (snd ledger1_end) = 12%nat) as Hl by by vm_compute.
  split; [exact ledger1_trace|]. split; [exact Hl|].
  split; [split_and!; by vm_compute|]. split; [split_and!; by vm_compute|]. split; [split_and!; by vm_compute|].
  split; [split_and!; by vm_compute|].
  split; [|split]; cbv zeta; (split; [apply Hin; rewrite Hl; lia|]); split_and!; by vm_compute.
Qed.
