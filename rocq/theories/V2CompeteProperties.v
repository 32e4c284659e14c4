(** More bids never hurt a seller, more listings never hurt a buyer (C164 of properties.jsonl).  The theorems are closed by lemmas proved
    elsewhere; what they rest on is printed beneath, and an example shows a concrete case meeting their hypotheses. *)
From stdpp Require Import relations.
From Verif Require Import Base BaseFacts Common Chain ChainFacts QuerySpec V2Model V2Spec V2Facts V2Inv V2Reach V2Examples
  V2Properties V2ExactSpec V2Exact V2ExactProperties V2Change V2QuoteSpec V2CompeteSpec V2Compete.

(** * C164 *)
(** An NFT is sold by a call on a book.  If the same call succeeds on a book with more bids, then it is sold there too, at the same price or a
    higher one, in the same denom, and to the same bid with the same payments unless one of the additional bids gets it. *)
Theorem C164_more_bids : forall p v e sender funds st t m a st' t' msgs msgs',
  collision_free p -> prefix_free p -> slash_free p ->
  small_history p st -> small_history p t -> small_call funds m -> selling sender p st m a -> more_bids st t ->
  execute p v e sender funds st m = Ok (st', msgs) -> execute p v e sender funds t m = Ok (t', msgs') -> s_asks st' !! a_id a = None ->
  exists mb mb', sold_to p v st a mb false st' msgs /\ sold_to p v t a mb' false t' msgs' /\ resting st mb /\ resting t mb' /\
    c_denom (price_of mb') = c_denom (price_of mb) /\ c_amount (price_of mb) <= c_amount (price_of mb') /\
    (resting st mb' -> mb' = mb /\ msgs' = msgs).
Proof. intros p v e sender funds st t m a st' t' msgs msgs' Hcf Hpf Hsl. by apply more_bids_sell. Qed.
Print Assumptions C164_more_bids.
(** The same for somebody who buys any NFT of a collection, from a book with more listings: the price is the same or lower. *)
Theorem C164_more_listings : forall p v e sender funds st t m coll d st' t' msgs msgs' c x to,
  collision_free p -> prefix_free p -> slash_free p ->
  small_history p st -> small_history p t -> small_call funds m -> buying_any st m coll d -> more_asks st t ->
  execute p v e sender funds st m = Ok (st', msgs) -> execute p v e sender funds t m = Ok (t', msgs') -> MNft c x to ∈ msgs ->
  exists a a' mb, sold_to p v st a mb true st' msgs /\ sold_to p v t a' mb true t' msgs' /\
    s_asks st !! a_id a = Some a /\ s_asks t !! a_id a' = Some a' /\
    c_denom (d_price (a_det a')) = c_denom (d_price (a_det a)) /\ c_amount (d_price (a_det a')) <= c_amount (d_price (a_det a)) /\
    (s_asks st !! a_id a' = Some a' -> a' = a /\ msgs' = msgs).
Proof. intros p v e sender funds st t m coll d st' t' msgs msgs' c x to Hcf Hpf Hsl. by apply more_asks_buy_any. Qed.
Print Assumptions C164_more_listings.
(** Somebody who buys one particular NFT does not notice other listings at all. *)
Theorem C164_other_listings : forall p v e sender funds st t m coll tok d st' t' msgs msgs' c x to,
  collision_free p -> prefix_free p -> slash_free p ->
  small_history p st -> small_history p t -> small_call funds m -> buying_one st m coll tok d -> more_asks st t ->
  execute p v e sender funds st m = Ok (st', msgs) -> execute p v e sender funds t m = Ok (t', msgs') -> MNft c x to ∈ msgs ->
  msgs' = msgs.
Proof. intros p v e sender funds st t m coll tok d st' t' msgs msgs' c x to Hcf Hpf Hsl. by apply more_asks_buy_one. Qed.
Print Assumptions C164_other_listings.

(** Token 2 sells to carol for 900.  After daver has bid 950 for it, it sells to daver; after edith has bid 850 it still sells to carol.
    The cheapest token of the collection costs 1000; after alice has listed token 3 for 930 it costs 930. *)
Definition bid950 : msg := SetBid "coll1" "2" (det 950).
Definition bid850 : msg := SetBid "coll1" "2" (det 850).
Definition list930 : msg := SetAsk "coll1" "3" (det 930).
Definition ste : state := state_of (call1 "daver" [us 950] bid950).
Definition stf : state := state_of (call1 "edith" [us 850] bid850).
Definition stg : state := state_of (call1 "alice" [us 5] list930).
Definition on (st : state) (s : addr) (f : list coin) (m : msg) : result (state * list cmsg) := execute p0 (view_of p0 w1) (env_of w1) s f st m.
Lemma next_small s f m : s <> p_self p0 -> small_call f m -> is_ok (call1 s f m) = true -> small_history p0 (state_of (call1 s f m)).
Proof.
  intros Hs Hc Hok. destruct (call1 s f m) as [[st ms]|] eqn:E; [|done]. eapply small_next; [exact st1_small|exact Hs|exact Hc|exact E].
Qed.
Lemma plain n c m : msg_coin m = Some (us c) -> n <= U128_MAX -> c <= U128_MAX -> small_call [us n] m.
Proof. intros Hm Hn Hc. split; [by repeat constructor|]. intros c' E. by replace c' with (us c) by congruence. Qed.
Lemma same_map {A} (x y : gmap string A) l : map_to_list x = l -> map_to_list y = l -> y = x.
Proof. intros <- E. apply map_to_list_inj. by rewrite E. Qed.
Lemma book_bids st : s_config st = s_config st1 -> map_to_list (s_asks st) = [(ask1_id, ask1)] -> s_bids st !! bid_id = Some bid1 ->
  s_cbids st !! cbid_id = Some cbid1 -> more_bids st1 st.
Proof.
  intros H1 H2 H3 H4. split; [done|]. split.
  { eapply same_map; [|exact H2]. by vm_compute. }
  split; intros i b H.
  - apply (one_entry _ bid_id bid1) in H as [-> ->]; [done|by vm_compute].
  - apply (one_entry _ cbid_id cbid1) in H as [-> ->]; [done|by vm_compute].
Qed.
Example C164_case :
  collision_free p0 /\ prefix_free p0 /\ slash_free p0 /\ small_history p0 st1 /\ small_history p0 ste /\ small_history p0 stf /\ small_history p0 stg /\
  (small_call [us 5] sell2 /\ selling "alice" p0 st1 sell2 (Ask "#coll12" "alice" "coll1" "2" (det 700)) /\ more_bids st1 ste /\ more_bids st1 stf /\
   is_ok (on st1 "alice" [us 5] sell2) = true /\ is_ok (on ste "alice" [us 5] sell2) = true /\ is_ok (on stf "alice" [us 5] sell2) = true /\
   s_asks (state_of (on st1 "alice" [us 5] sell2)) !! "#coll12" = None /\
   last (msgs_of (on st1 "alice" [us 5] sell2)) = Some (MNft "coll1" "2" "carol") /\
   last (msgs_of (on ste "alice" [us 5] sell2)) = Some (MNft "coll1" "2" "daver") /\
   msgs_of (on stf "alice" [us 5] sell2) = msgs_of (on st1 "alice" [us 5] sell2)) /\
  (small_call [us 1200] (BuyCollectionNft "coll1" (det 1200)) /\ buying_any st1 (BuyCollectionNft "coll1" (det 1200)) "coll1" (det 1200) /\
   buying_one st1 (BuySpecificNft "coll1" "1" (det 1200)) "coll1" "1" (det 1200) /\ more_asks st1 stg /\
   MNft "coll1" "1" "bobby" ∈ msgs_of (on st1 "bobby" [us 1200] (BuyCollectionNft "coll1" (det 1200))) /\
   MNft "coll1" "3" "bobby" ∈ msgs_of (on stg "bobby" [us 1200] (BuyCollectionNft "coll1" (det 1200))) /\
   last (msgs_of (on st1 "bobby" [us 1200] (BuyCollectionNft "coll1" (det 1200)))) = Some (MSend "bobby" [us 200]) /\
   last (msgs_of (on stg "bobby" [us 1200] (BuyCollectionNft "coll1" (det 1200)))) = Some (MSend "bobby" [us 270]) /\
   is_ok (on st1 "bobby" [us 1200] (BuySpecificNft "coll1" "1" (det 1200))) = true /\
   msgs_of (on stg "bobby" [us 1200] (BuySpecificNft "coll1" "1" (det 1200))) = msgs_of (on st1 "bobby" [us 1200] (BuySpecificNft "coll1" "1" (det 1200)))).
Proof.
  split; [exact p0_collision_free|]. split; [exact p0_prefix_free|]. split; [exact p0_slash_free|]. split; [exact st1_small|].
  split. { apply next_small; [done| |by vm_compute]. eapply plain; [reflexivity|unfold U128_MAX; lia..]. }
  split. { apply next_small; [done| |by vm_compute]. eapply plain; [reflexivity|unfold U128_MAX; lia..]. }
  split. { apply next_small; [done| |by vm_compute]. eapply plain; [reflexivity|unfold U128_MAX; lia..]. }
  split.
  - split; [apply small_sell2; unfold U128_MAX; lia|]. split; [exact (SellingNow "alice" p0 st1 "coll1" "2" (det 700))|].
    split; [apply book_bids; by vm_compute|]. split; [apply book_bids; by vm_compute|]. split_and!; by vm_compute.
  - split; [eapply plain; [reflexivity|unfold U128_MAX; lia..]|]. split; [constructor|]. split; [constructor|]. split.
    { split; [by vm_compute|]. split; [by vm_compute|]. split; [eapply same_map; [|by vm_compute]; by vm_compute|]. split; [eapply same_map; [|by vm_compute]; by vm_compute|].
      intros i a H. apply (one_entry _ ask1_id ask1) in H as [-> ->]; by vm_compute. }
    split; [apply elem_of_list_In; vm_compute; tauto|]. split; [apply elem_of_list_In; vm_compute; tauto|]. split_and!; by vm_compute.
Qed.
