(** The pages of the listings of marketplace v1 (C118, C88 and C89 of properties.jsonl).  Each theorem is closed by a lemma
    proved elsewhere; what it rests on is printed beneath it, and an example shows a concrete case meeting its hypotheses. *)
From stdpp Require Import relations pretty.
From Verif Require Import Base BaseFacts Common Chain ChainFacts IndexRange QuerySpec V1Model V1Spec V1Facts V1Inv V1Reach V1Query
  V1Pages V1Examples V1Refute.

Section Forms.
Context (p : params) (x : ext) (st : state) (H : v1_history p x st).
Let Hwf := history_wf _ _ _ H.

Lemma ask_pages_form inactive limit who : p_valid p who = true ->
  (forall start, exists rows, query_asks p st who inactive start limit = Ok rows /\
     page_of ask_by_token (fun a => listed st a /\ k_coll a = who /\ visible inactive a /\ default 0 start < k_tok a) limit rows) /\
  (forall start, exists rows, reverse_query_asks p st who inactive start limit = Ok rows /\
     page_of (fun a b => ask_by_token b a) (fun a => listed st a /\ k_coll a = who /\ visible inactive a /\ k_tok a < default 0 start) limit rows) /\
  (forall start, exists rows, query_asks_sorted_by_price p st who inactive start limit = Ok rows /\
     page_of ask_by_price (fun a => listed st a /\ k_coll a = who /\ visible inactive a /\ price_after start (k_price a) (k_tok a)) limit rows) /\
  (forall start, exists rows, reverse_query_asks_sorted_by_price p st who inactive start limit = Ok rows /\
     page_of (fun a b => ask_by_price b a) (fun a => listed st a /\ k_coll a = who /\ visible inactive a /\ price_below start (k_price a) (k_tok a)) limit rows) /\
  (forall start, (forall c t, start = Some (c, t) -> p_valid p c = true) ->
     exists rows, query_asks_by_seller p st who inactive start limit = Ok rows /\
     page_of ask_by_nft (fun a => listed st a /\ k_seller a = who /\ visible inactive a /\ nft_after start (k_coll a) (k_tok a)) limit rows).
Proof.
  intros Hv. repeat split; intros start.
  - by apply asks_page.
  - by apply reverse_asks_page.
  - by apply asks_price_page.
  - by apply reverse_asks_price_page.
  - by apply asks_seller_page.
Qed.
Lemma bid_pages_form limit who : p_valid p who = true ->
  (forall start, exists rows, query_bids_sorted_by_price p st who start limit = Ok rows /\
     page_of bid_by_price (fun b => bidding st b /\ b_coll b = who /\ bid_after start b) limit rows) /\
  (forall start, exists rows, reverse_query_bids_sorted_by_price p st who start limit = Ok rows /\
     page_of (fun a b => bid_by_price b a) (fun b => bidding st b /\ b_coll b = who /\ bid_below start b) limit rows) /\
  (forall start, (forall c t, start = Some (c, t) -> p_valid p c = true) ->
     exists rows, query_bids_by_bidder p st who start limit = Ok rows /\
     page_of bid_by_nft (fun b => bidding st b /\ b_bidder b = who /\ nft_after start (b_coll b) (b_tok b)) limit rows) /\
  (forall start, (forall c t, start = Some (c, t) -> p_valid p c = true) ->
     exists rows, query_bids_by_bidder_sorted_by_expiry p st who start limit = Ok rows /\
     page_of bid_by_expiry (fun b => bidding st b /\ b_bidder b = who /\ expiring_after st who start b) limit rows).
Proof.
  intros Hv. repeat split; intros start.
  - by apply bids_price_page.
  - by apply reverse_bids_price_page.
  - by apply bids_bidder_page.
  - by apply bids_expiry_page.
Qed.
Lemma cbid_pages_form limit who : p_valid p who = true ->
  (forall start, (forall n w, start = Some (n, w) -> p_valid p w = true) ->
     exists rows, query_collection_bids_sorted_by_price p st who start limit = Ok rows /\
     page_of cbid_by_price (fun b => cbidding st b /\ cb_coll b = who /\ cbid_after start b) limit rows) /\
  (forall start, (forall n w, start = Some (n, w) -> p_valid p w = true) ->
     exists rows, reverse_query_collection_bids_sorted_by_price p st who start limit = Ok rows /\
     page_of (fun a b => cbid_by_price b a) (fun b => cbidding st b /\ cb_coll b = who /\ cbid_below start b) limit rows) /\
  (forall start, (forall c, start = Some c -> p_valid p c = true) ->
     exists rows, query_collection_bids_by_bidder p st who start limit = Ok rows /\
     page_of cbid_by_coll (fun b => cbidding st b /\ cb_bidder b = who /\ (forall c, start = Some c -> coll_before c (cb_coll b))) limit rows) /\
  (forall start, (forall c w, start = Some (c, w) -> p_valid p c = true /\ p_valid p w = true) ->
     exists rows, query_collection_bids_by_bidder_sorted_by_expiry p st who start limit = Ok rows /\
     page_of cbid_by_expiry (fun b => cbidding st b /\ cb_bidder b = who /\ cbid_expiring_after st start b) limit rows).
Proof.
  intros Hv. repeat split; intros start.
  - by apply cbids_price_page.
  - by apply reverse_cbids_price_page.
  - by apply cbids_bidder_page.
  - by apply cbids_expiry_page.
Qed.
Lemma bids_first_form coll tok limit : p_valid p coll = true -> exists rows, query_bids p st coll tok None limit = Ok rows /\
  page_of bid_by_bidder (fun b => bidding st b /\ b_coll b = coll /\ b_tok b = tok) limit rows.
Proof. by apply bids_page. Qed.
Lemma bids_never_form coll tok start limit : p_valid p coll = true -> (String.length coll < 256)%nat -> starts_above 0 start ->
  query_bids p st coll tok (Some start) limit = Ok [].
Proof. by apply bids_offset. Qed.
Lemma expiry_form bidder c t limit : p_valid p bidder = true -> p_valid p c = true ->
  (forall o, s_bids st !! (c, t, bidder) = Some o ->
     exists rows, query_bids_by_bidder_sorted_by_expiry p st bidder (Some (c, t)) limit = Ok rows /\
       page_of bid_by_expiry (fun b => bidding st b /\ b_bidder b = bidder /\ bid_by_expiry o b) limit rows) /\
  (s_bids st !! (c, t, bidder) = None ->
     query_bids_by_bidder_sorted_by_expiry p st bidder (Some (c, t)) limit = query_bids_by_bidder_sorted_by_expiry p st bidder None limit).
Proof. intros Hb Hc. split; [intros o Ho; by apply (expiry_continues p x st H)|intros Ho; by apply expiry_starts_over]. Qed.
End Forms.

(** * C118: every page is exactly the next rows of its listing *)
Theorem C118_v1_ask_pages : forall p x st, v1_history p x st -> forall inactive limit who, p_valid p who = true ->
  (forall start, exists rows, query_asks p st who inactive start limit = Ok rows /\
     page_of ask_by_token (fun a => listed st a /\ k_coll a = who /\ visible inactive a /\ default 0 start < k_tok a) limit rows) /\
  (forall start, exists rows, reverse_query_asks p st who inactive start limit = Ok rows /\
     page_of (fun a b => ask_by_token b a) (fun a => listed st a /\ k_coll a = who /\ visible inactive a /\ k_tok a < default 0 start) limit rows) /\
  (forall start, exists rows, query_asks_sorted_by_price p st who inactive start limit = Ok rows /\
     page_of ask_by_price (fun a => listed st a /\ k_coll a = who /\ visible inactive a /\ price_after start (k_price a) (k_tok a)) limit rows) /\
  (forall start, exists rows, reverse_query_asks_sorted_by_price p st who inactive start limit = Ok rows /\
     page_of (fun a b => ask_by_price b a) (fun a => listed st a /\ k_coll a = who /\ visible inactive a /\ price_below start (k_price a) (k_tok a)) limit rows) /\
  (forall start, (forall c t, start = Some (c, t) -> p_valid p c = true) ->
     exists rows, query_asks_by_seller p st who inactive start limit = Ok rows /\
     page_of ask_by_nft (fun a => listed st a /\ k_seller a = who /\ visible inactive a /\ nft_after start (k_coll a) (k_tok a)) limit rows).
Proof. exact ask_pages_form. Qed.
Print Assumptions C118_v1_ask_pages.
Example C118_ask_case x : v1_history p1 x (w_st (vw1 x)) /\ p_valid p1 "coll1" = true /\ p_valid p1 "alice" = true /\
  query_asks p1 (w_st (vw1 x)) "coll1" None (Some 1) (Some 1) = Ok [ask2] /\
  reverse_query_asks p1 (w_st (vw1 x)) "coll1" None (Some 3) (Some 1) = Ok [ask2] /\
  query_asks_sorted_by_price p1 (w_st (vw1 x)) "coll1" None (Some (500, 2)) None = Ok [ask3; ask1] /\
  reverse_query_asks_sorted_by_price p1 (w_st (vw1 x)) "coll1" None (Some (900, 0)) None = Ok [ask3; ask2] /\
  query_asks_by_seller p1 (w_st (vw1 x)) "alice" None (Some ("coll1", 2)) None = Ok [ask3].
Proof. split; [apply vw1_history|]. by vm_compute. Qed.

Theorem C118_v1_bid_pages : forall p x st, v1_history p x st -> forall limit who, p_valid p who = true ->
  (forall start, exists rows, query_bids_sorted_by_price p st who start limit = Ok rows /\
     page_of bid_by_price (fun b => bidding st b /\ b_coll b = who /\ bid_after start b) limit rows) /\
  (forall start, exists rows, reverse_query_bids_sorted_by_price p st who start limit = Ok rows /\
     page_of (fun a b => bid_by_price b a) (fun b => bidding st b /\ b_coll b = who /\ bid_below start b) limit rows) /\
  (forall start, (forall c t, start = Some (c, t) -> p_valid p c = true) ->
     exists rows, query_bids_by_bidder p st who start limit = Ok rows /\
     page_of bid_by_nft (fun b => bidding st b /\ b_bidder b = who /\ nft_after start (b_coll b) (b_tok b)) limit rows) /\
  (forall start, (forall c t, start = Some (c, t) -> p_valid p c = true) ->
     exists rows, query_bids_by_bidder_sorted_by_expiry p st who start limit = Ok rows /\
     page_of bid_by_expiry (fun b => bidding st b /\ b_bidder b = who /\ expiring_after st who start b) limit rows).
Proof. exact bid_pages_form. Qed.
Print Assumptions C118_v1_bid_pages.
Definition bobby_book (x : ext) : state := w_st (after x (vw1 x) bobby_bids).
Definition bobby_bid (t n : N) : bid := Bid "coll2" t "bobby" n None (sec (2500 + t)).
Lemma bobby_history x : v1_history p1 x (bobby_book x).
Proof. apply after_history; [apply vw1_reachable|by vm_compute]. Qed.
Example C118_bid_case x : v1_history p1 x (bobby_book x) /\ p_valid p1 "coll2" = true /\ p_valid p1 "bobby" = true /\
  query_bids_sorted_by_price p1 (bobby_book x) "coll2" (Some (20, 1, "bobby")) None = Ok [bobby_bid 2 30; bobby_bid 3 40] /\
  reverse_query_bids_sorted_by_price p1 (bobby_book x) "coll2" (Some (40, 3, "bobby")) (Some 1) = Ok [bobby_bid 2 30] /\
  query_bids_by_bidder p1 (bobby_book x) "bobby" (Some ("coll1", 1)) (Some 2) = Ok [bobby_bid 1 20; bobby_bid 2 30] /\
  query_bids_by_bidder_sorted_by_expiry p1 (bobby_book x) "bobby" (Some ("coll2", 2)) None = Ok [bobby_bid 3 40].
Proof. split; [apply bobby_history|]. by vm_compute. Qed.

Theorem C118_v1_collection_bid_pages : forall p x st, v1_history p x st -> forall limit who, p_valid p who = true ->
  (forall start, (forall n w, start = Some (n, w) -> p_valid p w = true) ->
     exists rows, query_collection_bids_sorted_by_price p st who start limit = Ok rows /\
     page_of cbid_by_price (fun b => cbidding st b /\ cb_coll b = who /\ cbid_after start b) limit rows) /\
  (forall start, (forall n w, start = Some (n, w) -> p_valid p w = true) ->
     exists rows, reverse_query_collection_bids_sorted_by_price p st who start limit = Ok rows /\
     page_of (fun a b => cbid_by_price b a) (fun b => cbidding st b /\ cb_coll b = who /\ cbid_below start b) limit rows) /\
  (forall start, (forall c, start = Some c -> p_valid p c = true) ->
     exists rows, query_collection_bids_by_bidder p st who start limit = Ok rows /\
     page_of cbid_by_coll (fun b => cbidding st b /\ cb_bidder b = who /\ (forall c, start = Some c -> coll_before c (cb_coll b))) limit rows) /\
  (forall start, (forall c w, start = Some (c, w) -> p_valid p c = true /\ p_valid p w = true) ->
     exists rows, query_collection_bids_by_bidder_sorted_by_expiry p st who start limit = Ok rows /\
     page_of cbid_by_expiry (fun b => cbidding st b /\ cb_bidder b = who /\ cbid_expiring_after st start b) limit rows).
Proof. exact cbid_pages_form. Qed.
Print Assumptions C118_v1_collection_bid_pages.
Definition cbid2 : cbid := CBid "coll1" "bobby" 400 None (sec 1500).
Example C118_collection_bid_case x : v1_history p1 x (w_st (vw1 x)) /\ p_valid p1 "coll1" = true /\ p_valid p1 "daver" = true /\
  query_collection_bids_sorted_by_price p1 (w_st (vw1 x)) "coll1" None None = Ok [cbid2; cbid1] /\
  query_collection_bids_sorted_by_price p1 (w_st (vw1 x)) "coll1" (Some (400, "bobby")) None = Ok [cbid1] /\
  reverse_query_collection_bids_sorted_by_price p1 (w_st (vw1 x)) "coll1" (Some (700, "daver")) None = Ok [cbid2] /\
  query_collection_bids_by_bidder p1 (w_st (vw1 x)) "daver" None None = Ok [cbid1] /\
  query_collection_bids_by_bidder_sorted_by_expiry p1 (w_st (vw1 x)) "daver" (Some ("coll1", "bobby")) None = Ok [cbid1].
Proof. split; [apply vw1_history|]. by vm_compute. Qed.

(** * C88: the first page is right, but with an offset every page is empty.  Missing: reading on, which is refuted *)
Theorem C88_v1_bids_first_page_partial : forall p x st, v1_history p x st -> forall coll tok limit, p_valid p coll = true ->
  exists rows, query_bids p st coll tok None limit = Ok rows /\
    page_of bid_by_bidder (fun b => bidding st b /\ b_coll b = coll /\ b_tok b = tok) limit rows.
Proof. exact bids_first_form. Qed.
Print Assumptions C88_v1_bids_first_page_partial.
Theorem C88_v1_bids_never_continue : forall p x st, v1_history p x st -> forall coll tok start limit,
  p_valid p coll = true -> (String.length coll < 256)%nat -> starts_above 0 start -> query_bids p st coll tok (Some start) limit = Ok [].
Proof. exact bids_never_form. Qed.
Print Assumptions C88_v1_bids_never_continue.
Definition carol_bid : bid := Bid "coll2" 1 "carol" 30 None (sec 2500).
Definition three_on_nft (x : ext) : state := w_st (after x (vw1 x) three_bids).
Example C88_case x : v1_history p1 x (three_on_nft x) /\ (String.length "coll2" < 256)%nat /\ starts_above 0 "bobby" /\
  query_bids p1 (three_on_nft x) "coll2" 1 None (Some 2) = Ok [Bid "coll2" 1 "bobby" 20 None (sec 2500); carol_bid] /\
  query_bids p1 (three_on_nft x) "coll2" 1 (Some "bobby") None = Ok [].
Proof. split; [apply after_history; [apply vw1_reachable|by vm_compute]|]. split; [cbn; lia|]. split; [by vm_compute|]. by vm_compute. Qed.

(** * C89: reading on by expiry is right as long as the bid of the offset rests.  Missing: the case where it is gone, which is refuted *)
Theorem C89_v1_expiry_paging_partial : forall p x st, v1_history p x st -> forall bidder c t limit,
  p_valid p bidder = true -> p_valid p c = true ->
  (forall o, s_bids st !! (c, t, bidder) = Some o ->
     exists rows, query_bids_by_bidder_sorted_by_expiry p st bidder (Some (c, t)) limit = Ok rows /\
       page_of bid_by_expiry (fun b => bidding st b /\ b_bidder b = bidder /\ bid_by_expiry o b) limit rows) /\
  (s_bids st !! (c, t, bidder) = None ->
     query_bids_by_bidder_sorted_by_expiry p st bidder (Some (c, t)) limit = query_bids_by_bidder_sorted_by_expiry p st bidder None limit).
Proof. exact expiry_form. Qed.
Print Assumptions C89_v1_expiry_paging_partial.
Example C89_case x : v1_history p1 x (bobby_book x) /\ s_bids (bobby_book x) !! ("coll2", 1, "bobby") = Some (bobby_bid 1 20) /\
  query_bids_by_bidder_sorted_by_expiry p1 (bobby_book x) "bobby" (Some ("coll2", 1)) None = Ok [bobby_bid 2 30; bobby_bid 3 40] /\
  s_bids (bobby_book x) !! ("coll2", 9, "bobby") = None /\
  query_bids_by_bidder_sorted_by_expiry p1 (bobby_book x) "bobby" (Some ("coll2", 9)) None = Ok [bid1; bobby_bid 1 20; bobby_bid 2 30; bobby_bid 3 40].
Proof. split; [apply bobby_history|]. by vm_compute. Qed.
