(** The storage of the reserve auction in bytes (C120 of properties.jsonl).  Each theorem is closed by a lemma proved elsewhere; what it rests
    on is printed beneath it, and an example shows a concrete case meeting its hypotheses. *)
From stdpp Require Import relations pretty.
From Verif Require Import Base BaseFacts Common Chain IndexRange IndexFacts QuerySpec RAModel Storage RAStorage.
From Verif Require Migrate RAExamples.

Local Infix "+++" := String.append (at level 60, right associativity).

(** Every state whose keys can be written has exactly one store. *)
Theorem C120_ra_stored info st : fits st ->
  (exists s : store, stored info st s) /\ forall s s' : store, stored info st s -> stored info st s' -> s = s'.
Proof. intros Hf. split; [by apply stored_exists|apply stored_unique]. Qed.
Print Assumptions C120_ra_stored.
(** Writing to the bytes is writing to the state, for any number of writes. *)
Theorem C120_ra_writes info st s ws : fits st -> Forall write_fits ws -> stored info st s ->
  fits (foldl write_state st ws) /\ stored info (foldl write_state st ws) (foldl write_bytes s ws).
Proof. exact (writes_stored info ws st s). Qed.
Print Assumptions C120_ra_writes.
(** Reading the bytes is reading the state: loads, the auctions of a seller, the auctions by end time, the minimum prices. *)
Theorem C120_ra_reads info st (s : store) : fits st -> stored info st s ->
  ((forall d, load min_table d s = s_mins st !! d) /\ (forall k, key_fits k -> load auction_table k s = s_auctions st !! k)) /\
  (forall seller o, short seller -> opts_in key_fits o ->
     read_index auction_table (lp "a__s" +++ lps [seller]) (enc_opts akey_enc o) s =
     snd <$> index_scan akey_leb fst (List.filter (fun x => bool_decide (a_seller (snd x) = seller)) (map_to_list (s_auctions st))) o) /\
  (forall o, opts_in ekey_fits o ->
     read_index auction_table (lp "a__et") (enc_opts ekey_enc o) s = snd <$> index_scan ekey_leb entry_ekey (map_to_list (s_auctions st)) o) /\
  (forall o, read_pairs min_table (lp "mrp") (enc_opts (fun d : string => d) o) s = index_scan str_leb fst (map_to_list (s_mins st)) o).
Proof.
  intros Hf Hs. split; [by eapply loads_stored|]. split_and!; intros.
  - by eapply read_seller.
  - by eapply read_end_time.
  - by eapply read_mins.
Qed.
Print Assumptions C120_ra_reads.
(** The auctions an end block settles, read from the bytes. *)
Theorem C120_ra_due info st (s : store) bound limit : fits st -> stored info st s -> bound < 2 ^ 64 ->
  take (N.to_nat limit) (read_index auction_table (lp "a__et") (enc_opts ekey_enc (QOpts (Some false) None None (Some (BExcl (bound, ("", "")))))) s) =
  due_auctions st bound limit.
Proof. exact (read_due info st s bound limit). Qed.
Print Assumptions C120_ra_due.
(** A reachable state: one auction with a high bid. *)
Lemma rw1_fits lb : fits (w_st (RAExamples.rw1 lb)).
Proof.
  intros k a Ha. apply elem_of_map_to_list in Ha. rewrite RAExamples.rw1_auctions in Ha. apply elem_of_list_singleton in Ha as [= -> ->].
  split; [by vm_compute|]. split; [by vm_compute|]. intros t [= <-]. by vm_compute.
Qed.
Example C120_ra_case lb : exists s : store, stored None (w_st (RAExamples.rw1 lb)) s /\
  take 10 (read_index auction_table (lp "a__et") (enc_opts ekey_enc (QOpts (Some false) None None (Some (BExcl (5000, ("", "")))))) s) = [RAExamples.auction1].
Proof.
  destruct (stored_exists None _ (rw1_fits lb)) as [s Hs]. exists s. split; [done|].
  change 10%nat with (N.to_nat 10). rewrite (read_due None _ s 5000 10 (rw1_fits lb) Hs) by done. unfold due_auctions. rewrite RAExamples.rw1_auctions. by vm_compute.
Qed.
(** On the bytes themselves: the end of an auction is moved behind that of another, a third has no end yet, and one is removed. *)
Definition auction_at (c t : string) (e : option N) : auction := Auction c t "alice" (Coin "ustars" 100) 3600 e None None None.
Definition put (a : auction) : write := WAuction (a_key a) a.
Example C120_ra_bytes :
  let s := foldl write_bytes (blank None RAExamples.cfg1 (HaltManager 0 []))
    [put (auction_at "coll1" "1" (Some (5 * NANOS))); put (auction_at "coll1" "2" (Some (300 * NANOS))); put (auction_at "c" "9" None);
     put (auction_at "coll1" "3" None); put (auction_at "coll1" "1" (Some (70000 * NANOS))); WNoAuction ("coll1", "3")] in
  read_index auction_table (lp "a__et") (enc_opts ekey_enc qo_default) s =
    [auction_at "coll1" "2" (Some (300 * NANOS)); auction_at "coll1" "1" (Some (70000 * NANOS)); auction_at "c" "9" None] /\
  read_index auction_table (lp "a__s" +++ lps ["alice"]) (enc_opts akey_enc qo_default) s =
    [auction_at "c" "9" None; auction_at "coll1" "1" (Some (70000 * NANOS)); auction_at "coll1" "2" (Some (300 * NANOS))].
Proof. vm_compute. split; reflexivity. Qed.
(** The whole layout in bytes: with one entry of each kind the store has exactly these keys. *)
Fixpoint bytes (l : list N) : string := match l with [] => "" | n :: l => String (Ascii.ascii_of_N n) (bytes l) end.
Definition is_keys (s : store) (ks : list string) : bool :=
  forallb (fun k => match s !! k with Some _ => true | None => false end) ks && bool_decide (size s = length ks).
Example C120_ra_layout :
  let s := foldl write_bytes (blank (Some (Migrate.Cw2 Migrate.ra_name Migrate.ra_version)) RAExamples.cfg1 (HaltManager 0 []))
    [WMin "uatom" 5; put (auction_at "coll1" "77" (Some (258 * NANOS))); put (auction_at "c" "9" None)] in
  is_keys s
    ["contract_info"; "cfg"; "hm"; bytes [0; 3] +++ "mrp" +++ "uatom";
     bytes [0; 1] +++ "a" +++ bytes [0; 5] +++ "coll1" +++ "77"; bytes [0; 1] +++ "a" +++ bytes [0; 1] +++ "c" +++ "9";
     bytes [0; 4] +++ "a__s" +++ bytes [0; 5] +++ "alice" +++ bytes [0; 5] +++ "coll1" +++ "77";
     bytes [0; 4] +++ "a__s" +++ bytes [0; 5] +++ "alice" +++ bytes [0; 1] +++ "c" +++ "9";
     bytes [0; 5] +++ "a__et" +++ bytes [0; 8; 0; 0; 0; 0; 0; 0; 1; 2] +++ bytes [0; 5] +++ "coll1" +++ "77";
     bytes [0; 5] +++ "a__et" +++ bytes [0; 8; 255; 255; 255; 255; 255; 255; 255; 255] +++ bytes [0; 1] +++ "c" +++ "9"] = true.
Proof. vm_compute. reflexivity. Qed.
