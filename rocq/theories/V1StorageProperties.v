(** The storage of marketplace v1 in bytes (C120 of properties.jsonl).  Each theorem is closed by a lemma proved elsewhere; what it rests
    on is printed beneath it, and an example shows a concrete case meeting its hypotheses. *)
From stdpp Require Import relations pretty.
From Verif Require Import Base BaseFacts Common Chain IndexRange IndexFacts QuerySpec V1Model Storage V1Storage.
From Verif Require Migrate V1Examples.

Local Infix "+++" := String.append (at level 60, right associativity).

(** Every state whose keys can be written has a store, and only one but for absent and empty hook lists. *)
Theorem C120_v1_stored info st : fits st ->
  (exists s : store, stored info st s) /\
  forall s s' : store, stored info st s -> stored info st s' -> forall b, b ∉ hook_items -> s !! b = s' !! b.
Proof. intros Hf. split; [by apply stored_exists|apply stored_unique]. Qed.
Print Assumptions C120_v1_stored.
(** Writing to the bytes is writing to the state, for any number of writes. *)
Theorem C120_v1_writes info st s ws : fits st -> Forall write_fits ws -> stored info st s ->
  fits (foldl write_state st ws) /\ stored info (foldl write_state st ws) (foldl write_bytes s ws).
Proof. exact (writes_stored info ws st s). Qed.
Print Assumptions C120_v1_writes.
(** Reading the bytes is reading the state: loads, and every index and map that a query reads. *)
Theorem C120_v1_reads info st (s : store) : fits st -> stored info st s ->
  ((forall k, ask_key_fits k -> Storage.load ask_table k s = s_asks st !! k) /\
   (forall k, bid_key_fits k -> Storage.load bid_table k s = s_bids st !! k) /\
   (forall k, cbid_key_fits k -> Storage.load cbid_table k s = s_cbids st !! k)) /\
  (forall coll o, short coll -> opts_in ask_key_fits o -> read_index ask_table (lp "asks__collection" +++ lps [coll]) (enc_opts ask_enc o) s = snd <$> index_scan ask_leb fst (entries (fun a => coll_is coll (k_coll a)) (s_asks st)) o) /\
  (forall coll o, short coll -> opts_in (price_dom ask_key_fits) o -> read_index ask_table (lp "asks__collection_price" +++ lps [coll]) (enc_opts (price_enc ask_enc) o) s = snd <$> index_scan (price_leb ask_leb) (price_key k_price) (entries (fun a => coll_is coll (k_coll a)) (s_asks st)) o) /\
  (forall seller o, short seller -> opts_in ask_key_fits o -> read_index ask_table (lp "asks__seller" +++ lps [seller]) (enc_opts ask_enc o) s = snd <$> index_scan ask_leb fst (entries (fun a => bool_decide (k_seller a = seller)) (s_asks st)) o) /\
  (forall coll o, short coll -> opts_in (price_dom bid_key_fits) o -> read_index bid_table (lp "bids__collection_price" +++ lps [coll]) (enc_opts (price_enc bid_enc) o) s = snd <$> index_scan (price_leb bid_leb) (price_key b_price) (entries (fun b => coll_is coll (b_coll b)) (s_bids st)) o) /\
  (forall bidder o, short bidder -> opts_in bid_key_fits o -> read_index bid_table (lp "bids__bidder" +++ lps [bidder]) (enc_opts bid_enc o) s = snd <$> index_scan bid_leb fst (entries (fun b => bool_decide (b_bidder b = bidder)) (s_bids st)) o) /\
  (forall bidder o, short bidder -> opts_in (expiry_dom bid_key_fits) o -> read_index bid_table (lp "bids__bidder_expires_at" +++ lps [bidder]) (enc_opts (expiry_enc bid_enc) o) s = snd <$> index_scan (price_leb bid_leb) (price_key (fun b => t_seconds (b_expires b))) (entries (fun b => bool_decide (b_bidder b = bidder)) (s_bids st)) o) /\
  (forall coll tok o, short coll -> tok < 2 ^ 32 -> read_index bid_table (lp "bids__collection_token_id" +++ lps [coll; be_bytes 4 tok]) (enc_opts (fun b : string => b) o) s = snd <$> index_scan str_leb (fun y => raw_bid_key (fst y)) (entries (fun b => coll_is coll (b_coll b) && (b_tok b =? tok)) (s_bids st)) o) /\
  (forall coll o, short coll -> opts_in (price_dom cbid_key_fits) o -> read_index cbid_table (lp "col_bids__collection_price" +++ lps [coll]) (enc_opts (price_enc cbid_enc) o) s = snd <$> index_scan (price_leb cbid_leb) (price_key cb_price) (entries (fun b => coll_is coll (cb_coll b)) (s_cbids st)) o) /\
  (forall bidder o, short bidder -> opts_in cbid_key_fits o -> read_index cbid_table (lp "col_bids__bidder" +++ lps [bidder]) (enc_opts cbid_enc o) s = snd <$> index_scan cbid_leb fst (entries (fun b => bool_decide (cb_bidder b = bidder)) (s_cbids st)) o) /\
  (forall bidder o, short bidder -> opts_in (expiry_dom cbid_key_fits) o -> read_index cbid_table (lp "col_bids__bidder_expires_at" +++ lps [bidder]) (enc_opts (expiry_enc cbid_enc) o) s = snd <$> index_scan (price_leb cbid_leb) (price_key (fun b => t_seconds (cb_expires b))) (entries (fun b => bool_decide (cb_bidder b = bidder)) (s_cbids st)) o) /\
  (forall o, opts_in ask_key_fits o -> read_map ask_table (lp "asks") (enc_opts ask_enc o) s = snd <$> index_scan ask_leb fst (map_to_list (s_asks st)) o).
Proof.
  intros Hf Hs. split; [by eapply loads_stored|]. split_and!; intros.
  - by eapply read_asks_collection.
  - by eapply read_asks_price.
  - by eapply read_asks_seller.
  - by eapply read_bids_price.
  - by eapply read_bids_bidder.
  - by eapply read_bids_expiry.
  - by eapply read_bids_token.
  - by eapply read_cbids_price.
  - by eapply read_cbids_bidder.
  - by eapply read_cbids_expiry.
  - by eapply read_asks.
Qed.
Print Assumptions C120_v1_reads.
(** A reachable state: three asks, two bids and two collection bids, one of them expired. *)
Definition checks (st : state) : bool :=
  forallb (fun u : string * N * ask => let '(k, a) := u in
    (N.of_nat (String.length (fst k)) <? 65536) && (snd k <? 2 ^ 32) && (N.of_nat (String.length (k_coll a)) <? 65536) &&
    (N.of_nat (String.length (k_seller a)) <? 65536) && (k_price a <? 2 ^ 128)) (map_to_list (s_asks st)) &&
  forallb (fun u : string * N * string * bid => let '(k, b) := u in
    (N.of_nat (String.length (fst (fst k))) <? 65536) && (snd (fst k) <? 2 ^ 32) && (N.of_nat (String.length (b_coll b)) <? 65536) &&
    (N.of_nat (String.length (b_bidder b)) <? 65536) && (b_tok b <? 2 ^ 32) && (b_price b <? 2 ^ 128) && (b_expires b <? 2 ^ 64)) (map_to_list (s_bids st)) &&
  forallb (fun u : string * string * cbid => let '(k, b) := u in
    (N.of_nat (String.length (fst k)) <? 65536) && (N.of_nat (String.length (cb_coll b)) <? 65536) &&
    (N.of_nat (String.length (cb_bidder b)) <? 65536) && (cb_price b <? 2 ^ 128) && (cb_expires b <? 2 ^ 64)) (map_to_list (s_cbids st)).
Lemma checks_fits st : checks st = true -> fits st.
Proof.
  unfold checks. rewrite !andb_true_iff, !forallb_forall. intros [[Ha Hb] Hc]. unfold fits, ask_key_fits, bid_key_fits, ask_fits, bid_fits, cbid_key_fits, cbid_fits, ask_key_fits, short.
  split_and!; intros k y Hy%elem_of_map_to_list%elem_of_list_In.
  - specialize (Ha _ Hy). cbn beta iota in Ha. rewrite !andb_true_iff, !N.ltb_lt in Ha. tauto.
  - specialize (Hb _ Hy). cbn beta iota in Hb. rewrite !andb_true_iff, !N.ltb_lt in Hb. tauto.
  - specialize (Hc _ Hy). cbn beta iota in Hc. rewrite !andb_true_iff, !N.ltb_lt in Hc. tauto.
Qed.
Lemma vw1_fits x : fits (w_st (V1Examples.vw1 x)).
Proof. apply checks_fits. by vm_compute. Qed.
Example C120_v1_case x : exists s : store, stored None (w_st (V1Examples.vw1 x)) s /\
  read_index ask_table (lp "asks__collection_price" +++ lps ["coll1"]) (enc_opts (price_enc ask_enc) (asc (Some (500, ("coll1", 2))))) s =
  [V1Examples.ask3; V1Examples.ask1].
Proof.
  destruct (stored_exists None _ (vw1_fits x)) as [s Hs]. exists s. split; [done|].
  assert (opts_in (price_dom ask_key_fits) (asc (Some (500, ("coll1", 2))))) as Ho by (intros ? [[= <-]|[=]]; by vm_compute).
  etransitivity; [apply (read_asks_price None _ s "coll1" _ (vw1_fits x) Hs); [by vm_compute|exact Ho]|]. by vm_compute.
Qed.
(** On the bytes themselves: a bid is raised above another one and a third is withdrawn. *)
Definition put (b : bid) : write := WBid (b_coll b, b_tok b, b_bidder b) b.
Definition bid_at (t : N) (w : addr) (n e : N) : bid := Bid "coll1" t w n None (e * NANOS).
Example C120_v1_bytes :
  let s := foldl write_bytes (blank None (s_params V1Examples.vst0) [] [] [] [])
    [put (bid_at 1 "bobby" 5 900); put (bid_at 256 "carol" 300 800); put (bid_at 2 "bobby" 7 700); put (bid_at 1 "bobby" 70000 900);
     put (bid_at 3 "daver" 9 900); WNoBid ("coll1", 3, "daver")] in
  read_index bid_table (lp "bids__collection_price" +++ lps ["coll1"]) (enc_opts (price_enc bid_enc) (asc None)) s =
    [bid_at 2 "bobby" 7 700; bid_at 256 "carol" 300 800; bid_at 1 "bobby" 70000 900] /\
  read_index bid_table (lp "bids__bidder_expires_at" +++ lps ["bobby"]) (enc_opts (expiry_enc bid_enc) (asc None)) s =
    [bid_at 2 "bobby" 7 700; bid_at 1 "bobby" 70000 900] /\
  Storage.load bid_table ("coll1", 3, "daver") s = None.
Proof. vm_compute. split_and!; reflexivity. Qed.
(** The whole layout in bytes: with one entry of each kind the store has exactly these keys. *)
Fixpoint bytes (l : list N) : string := match l with [] => "" | n :: l => String (Ascii.ascii_of_N n) (bytes l) end.
Definition is_keys (s : store) (ks : list string) : bool :=
  forallb (fun k => match s !! k with Some _ => true | None => false end) ks && bool_decide (size s = length ks).
Example C120_v1_layout :
  let s := foldl write_bytes (blank (Some (Migrate.Cw2 Migrate.v1_name Migrate.v1_version)) (s_params V1Examples.vst0) [] [] [] [])
    [WAsk ("coll1", 258) (Ask FixedPrice "coll1" 258 "alice" 5 None None None (7 * NANOS) true); put (bid_at 1 "bobby" 3 513);
     WCBid ("coll1", "carol") (CBid "coll1" "carol" 6 None (8 * NANOS))] in
  let n16 n := bytes [0; 16; 0; 0; 0; 0; 0; 0; 0; 0; 0; 0; 0; 0; 0; 0; 0; n] in
  let coll := bytes [0; 5] +++ "coll1" in let bobby := bytes [0; 5] +++ "bobby" in let carol := bytes [0; 5] +++ "carol" in
  let ak := coll +++ bytes [0; 0; 1; 2] in let bk := coll +++ bytes [0; 4; 0; 0; 0; 1] +++ "bobby" in let ck := coll +++ "carol" in
  is_keys s
    ["contract_info"; "sudo-params"; "ask-hooks"; "bid-hooks"; "sale-hooks"; "collection-bid-hooks";
     bytes [0; 4] +++ "asks" +++ ak; bytes [0; 16] +++ "asks__collection" +++ coll +++ ak;
     bytes [0; 22] +++ "asks__collection_price" +++ coll +++ n16 5 +++ ak; bytes [0; 12] +++ "asks__seller" +++ bytes [0; 5] +++ "alice" +++ ak;
     bytes [0; 4] +++ "bids" +++ bk; bytes [0; 16] +++ "bids__collection" +++ coll +++ bk;
     bytes [0; 25] +++ "bids__collection_token_id" +++ coll +++ bytes [0; 4; 0; 0; 0; 1] +++ bk;
     bytes [0; 22] +++ "bids__collection_price" +++ coll +++ n16 3 +++ bk; bytes [0; 12] +++ "bids__bidder" +++ bobby +++ bk;
     bytes [0; 23] +++ "bids__bidder_expires_at" +++ bobby +++ bytes [0; 8; 0; 0; 0; 0; 0; 0; 2; 1] +++ bk;
     bytes [0; 8] +++ "col_bids" +++ ck; bytes [0; 20] +++ "col_bids__collection" +++ coll +++ ck;
     bytes [0; 26] +++ "col_bids__collection_price" +++ coll +++ n16 6 +++ ck; bytes [0; 16] +++ "col_bids__bidder" +++ carol +++ ck;
     bytes [0; 27] +++ "col_bids__bidder_expires_at" +++ carol +++ bytes [0; 8; 0; 0; 0; 0; 0; 0; 0; 8] +++ ck] = true.
Proof. vm_compute. reflexivity. Qed.
