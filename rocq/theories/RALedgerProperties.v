(** The books of the reserve auction over a whole history (RALedgerSpec). *)
From stdpp Require Import relations.
From Verif Require Import Base BaseFacts Common Chain ChainFacts LedgerSpec Ledger RAModel RASpec RAFacts RAInv RAReach RAExamples
  RAProperties RALedgerSpec RALedger.

(** * C123: every coin ever bid came back when somebody bid more, or leads an auction, or bought one. *)
Theorem C123_bidder_books : forall p lb st l u d, trace p lb st l ->
  sum_over (bid_in u d) l = sum_over (bid_back u d) l + leading u d st + sum_over (won u d) l.
Proof. intros p lb st l u d. apply books. Qed.
Print Assumptions C123_bidder_books.
(** The NFT of an auction that is over goes to who led it in the same call. *)
Theorem C123_won_is_delivered : forall p lb st l h k hb, trace p lb st l -> h ∈ l -> over h k hb ->
  MNft k.1 k.2 (hb_bidder hb) ∈ e_msgs h.
Proof. exact won_delivered. Qed.
Print Assumptions C123_won_is_delivered.
(** What was bid for auctions that are over is paid out in full in the same call, and nothing else is. *)
Theorem C123_won_is_paid_out : forall p lb st l h d, trace p lb st l -> h ∈ l -> brings h = false ->
  goes_out d h = all_won d h.
Proof. intros p lb st l h d. apply won_paid. Qed.
Print Assumptions C123_won_is_paid_out.
(** All coins that ever came in went out again, or lead an auction, or overpaid a creation fee. *)
Theorem C123_contract_books : forall p lb st l d, trace p lb st l ->
  sum_over (comes_in d) l = sum_over (goes_out d) l + all_leads d st + sum_over (overpaid d) l.
Proof. intros p lb st l d. apply contract_books. Qed.
Print Assumptions C123_contract_books.
(** Every state of the contract on the chain is the end of such a history. *)
Theorem C123_on_chain : forall p lb w, ra_reachable p lb w -> exists l, trace p lb (w_st w) l.
Proof. intros p lb w H. by apply history_trace, reachable_history. Qed.
Print Assumptions C123_on_chain.

(** A history that can be run. *)
Definition step1 : Type := N * (addr * list coin * msg + sudo_msg).
Fixpoint record (st : state) (xs : list step1) : result (state * list entry) :=
  match xs with
  | [] => Ok (st, [])
  | (t, x) :: xs =>
      '(st', h) ← match x with
        | inl (s, f, m) => '(st', ms) ← execute p1 lib1 (view_of p1 rw0) (Env 10 (sec t)) s f st m;
                           ensure (negb (bool_decide (s = p_self p1))) EOther ;; Ok (st', User s f m st st' ms)
        | inr m => '(st', ms) ← sudo p1 lib1 (view_of p1 rw0) (Env 10 (sec t)) st m; Ok (st', Chain m st st' ms)
        end;
      '(st'', l) ← record st' xs; Ok (st'', h :: l)
  end.
Lemma record_trace xs : forall st l st' l', trace p1 lib1 st l -> record st xs = Ok (st', l') -> trace p1 lib1 st' (l ++ l').
Proof.
  induction xs as [|[t x] xs IH]; intros st l st' l' Ht H; cbn [record] in H.
  - injection H as <- <-. by rewrite app_nil_r.
  - apply bind_Ok in H as ([st1 h]&H1&H). apply bind_Ok in H as ([st2 l2]&H2&H). injection H as <- <-.
    assert (trace p1 lib1 st1 (l ++ [h])) as Hn.
    { eapply tr_next; [exact Ht|]. destruct x as [[[s f] m]|m]; apply bind_Ok in H1 as ([s1 ms]&He&H1).
      - apply bind_Ok in H1 as (?&Hu&H1). apply ensure_Ok, negb_true_iff, bool_decide_eq_false in Hu. injection H1 as <- <-.
        by eapply rec_user.
      - injection H1 as <- <-. by eapply rec_chain. }
    specialize (IH _ _ _ _ Hn H2). by rewrite <- app_assoc in IH.
Qed.
(** Bobby and carol bid for token 1; bobby wins it with 120.  Carol leads on token 2 with 200; alice overpaid the fee
    for that auction by 5. *)
Definition ledger1 : list step1 := [
  (1000, inr BeginBlock); (1000, inl ("alice", [us 10], CreateAuction "coll1" "1" (us 100) 3600 None));
  (1000, inl ("bobby", [us 100], PlaceBid "coll1" "1")); (1010, inl ("carol", [us 105], PlaceBid "coll1" "1"));
  (1020, inl ("bobby", [us 120], PlaceBid "coll1" "1"));
  (1030, inl ("alice", [us 15], CreateAuction "coll1" "2" (us 100) 86400 None));
  (1040, inl ("carol", [us 200], PlaceBid "coll1" "2")); (5000, inr EndBlock)].
Definition ledger1_end : state * list entry := match record rst0 ledger1 with Ok r => r | Err _ => (rst0, []) end.
Lemma ledger1_trace : trace p1 lib1 (fst ledger1_end) (snd ledger1_end).
Proof.
  assert (is_ok (record rst0 ledger1) = true) as Hok by by vm_compute. unfold ledger1_end.
  destruct (record rst0 ledger1) as [[st l]|] eqn:E; [|done]. cbn [fst snd]. change l with ([] ++ l).
  eapply record_trace; [|exact E]. apply (tr_start _ _ cfg1 [us 50]). by vm_compute.
Qed.
Definition book (f : entry -> N) : N := sum_over f (snd ledger1_end).
Example C123_case : trace p1 lib1 (fst ledger1_end) (snd ledger1_end) /\ length (snd ledger1_end) = 8%nat /\
  (book (bid_in "bobby" "ustars") = 220 /\ book (bid_back "bobby" "ustars") = 100 /\
   leading "bobby" "ustars" (fst ledger1_end) = 0 /\ book (won "bobby" "ustars") = 120) /\
  (book (bid_in "carol" "ustars") = 305 /\ book (bid_back "carol" "ustars") = 105 /\
   leading "carol" "ustars" (fst ledger1_end) = 200 /\ book (won "carol" "ustars") = 0) /\
  (book (comes_in "ustars") = 550 /\ book (goes_out "ustars") = 345 /\ all_leads "ustars" (fst ledger1_end) = 200 /\
   book (overpaid "ustars") = 5) /\
  exists h, last (snd ledger1_end) = Some h /\ over h ("coll1", "1") (HighBid (us 120) "bobby") /\ brings h = false /\
    e_msgs h = [MFairBurn (us 2); MSend "royal" [us 6]; MSend "alice" [us 112]; MNft "coll1" "1" "bobby"].
Proof.
  split; [exact ledger1_trace|]. split; [by vm_compute|].
  split; [split_and!; by vm_compute|]. split; [split_and!; by vm_compute|]. split; [split_and!; by vm_compute|].
  destruct (last (snd ledger1_end)) as [h|] eqn:E; [|by vm_compute in E]. exists h. split; [done|].
  assert (h = default h (last (snd ledger1_end))) as -> by (by rewrite E). clear E.
  unfold over. split; [|split; by vm_compute].
  eexists. split; [by vm_compute|]. split; by vm_compute.
Qed.
