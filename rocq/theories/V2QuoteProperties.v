(** The quote is the trade, marketplace v2 (C144 of properties.jsonl).  Each theorem is closed by a lemma proved elsewhere; what it rests
    on is printed beneath it, and an example shows a concrete case meeting its hypotheses. *)
From stdpp Require Import relations.
From Verif Require Import Base BaseFacts Common Chain ChainFacts IndexRange QuerySpec V2Model V2Spec V2Facts V2Inv V2Reach V2Examples
  V2Properties V2ExactSpec V2Exact V2ExactProperties V2QuoteSpec V2Quote.

(** * C144 *)
(** Who lists or sells an NFT sells it to the bid that the queries for the highest bids show, if it is high enough; otherwise nothing is
    sold, and the call was not an immediate one. *)
Theorem C144_v2_sell_as_quoted : forall p v e sender funds st m a st' msgs,
  collision_free p -> prefix_free p -> slash_free p -> small_history p st -> small_call funds m -> selling sender p st m a ->
  execute p v e sender funds st m = Ok (st', msgs) ->
  let price := d_price (a_det a) in
  (exists mb, sale_quote st (a_coll a) (a_tok a) (c_denom price) = Some mb /\ c_amount price <= c_amount (price_of mb) /\
     sold_to p v st a mb false st' msgs) \/
  ((forall mb, sale_quote st (a_coll a) (a_tok a) (c_denom price) = Some mb -> c_amount (price_of mb) < c_amount price) /\
   immediate m = false /\ forall c t to, ~ sells st m st' msgs c t to).
Proof. intros p v e sender funds st m a st' msgs Hcf Hpf Hsl. by apply sell_quoted. Qed.
Print Assumptions C144_v2_sell_as_quoted.
(** Who bids for any NFT of a collection gets the one that the query for the lowest ask shows, at its price. *)
Theorem C144_v2_buy_any_as_quoted : forall p v e sender funds st m coll d st' msgs,
  collision_free p -> prefix_free p -> slash_free p -> small_history p st -> small_call funds m -> buying_any st m coll d ->
  execute p v e sender funds st m = Ok (st', msgs) ->
  (exists a b, floor_quote st coll (c_denom (d_price d)) = Some a /\ c_amount (d_price (a_det a)) <= c_amount (d_price d) /\
     cb_creator b = sender /\ cb_coll b = coll /\ cb_det b = d /\ sold_to p v st a (MCBid b) true st' msgs) \/
  ((forall a, floor_quote st coll (c_denom (d_price d)) = Some a -> c_amount (d_price d) < c_amount (d_price (a_det a))) /\
   immediate m = false /\ forall c t to, ~ sells st m st' msgs c t to).
Proof. intros p v e sender funds st m coll d st' msgs Hcf Hpf Hsl. by apply buy_any_quoted. Qed.
Print Assumptions C144_v2_buy_any_as_quoted.
(** Who bids for one NFT gets it at the price of the listing found under its id. *)
Theorem C144_v2_buy_one_as_quoted : forall p v e sender funds st m coll tok d st' msgs,
  collision_free p -> prefix_free p -> slash_free p -> small_history p st -> small_call funds m -> buying_one st m coll tok d ->
  execute p v e sender funds st m = Ok (st', msgs) ->
  (exists a b, token_quote p st coll tok (c_denom (d_price d)) = Some a /\ c_amount (d_price (a_det a)) <= c_amount (d_price d) /\
     b_creator b = sender /\ b_coll b = coll /\ b_tok b = tok /\ b_det b = d /\ sold_to p v st a (MBid b) true st' msgs) \/
  ((forall a, token_quote p st coll tok (c_denom (d_price d)) = Some a -> c_amount (d_price d) < c_amount (d_price (a_det a))) /\
   immediate m = false /\ forall c t to, ~ sells st m st' msgs c t to).
Proof. intros p v e sender funds st m coll tok d st' msgs Hcf Hpf Hsl. by apply buy_one_quoted. Qed.
Print Assumptions C144_v2_buy_one_as_quoted.

(** The book of V2Examples: token 2 can be sold to carol for 900, token 1 is the cheapest of the collection at 1000. *)
Definition try144 (s : addr) (f : list coin) (m : msg) : result (state * list cmsg) := execute p0 (view_of p0 w1) (env_of w1) s f st1 m.
Definition pays_seller (r : result (state * list cmsg)) (x : addr) (n : N) : bool :=
  match r with Ok (_, ms) => bool_decide (MSend x [us n] ∈ ms) | Err _ => false end.
Example C144_case :
  collision_free p0 /\ prefix_free p0 /\ slash_free p0 /\ small_history p0 st1 /\
  (small_call [us 5] sell2 /\ selling "alice" p0 st1 sell2 (Ask "#coll12" "alice" "coll1" "2" (det 700)) /\
   sale_quote st1 "coll1" "2" "ustars" = Some (MCBid cbid1) /\ pays_seller (try144 "alice" [us 5] sell2) "alice" 837 = true /\
   is_ok (try144 "alice" [us 5] (SellNft "coll1" "2" (det 901))) = false) /\
  (small_call [us 1200] (BuyCollectionNft "coll1" (det 1200)) /\ buying_any st1 (BuyCollectionNft "coll1" (det 1200)) "coll1" (det 1200) /\
   floor_quote st1 "coll1" "ustars" = Some ask1 /\ token_quote p0 st1 "coll1" "1" "ustars" = Some ask1 /\
   token_quote p0 st1 "coll1" "2" "ustars" = None /\
   is_ok (try144 "bobby" [us 1200] (BuyCollectionNft "coll1" (det 1200))) = true /\
   is_ok (try144 "bobby" [us 1200] (BuySpecificNft "coll1" "2" (det 1200))) = false).
Proof.
  split; [exact p0_collision_free|]. split; [exact p0_prefix_free|]. split; [exact p0_slash_free|]. split; [exact st1_small|]. split.
  - split; [apply small_sell2; unfold U128_MAX; lia|]. split; [exact (SellingNow "alice" p0 st1 "coll1" "2" (det 700))|].
    split; [vm_compute; reflexivity|]. split; vm_compute; reflexivity.
  - split.
    { split; [constructor; [|constructor]; unfold small; cbn; lia|]. intros c [= <-]. unfold small. cbn. lia. }
    split; [constructor|]. split; [vm_compute; reflexivity|]. split; [vm_compute; reflexivity|]. split; [vm_compute; reflexivity|]. split; vm_compute; reflexivity.
Qed.
