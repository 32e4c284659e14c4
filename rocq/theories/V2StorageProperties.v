(** The storage of marketplace v2 in bytes (C120 of properties.jsonl).  Each theorem is closed by a lemma proved elsewhere; what it rests
    on is printed beneath it, and an example shows a concrete case meeting its hypotheses. *)
From stdpp Require Import relations pretty.
From Verif Require Import Base BaseFacts Common IndexRange IndexFacts QuerySpec V2Model Storage V2Storage.
From Verif Require Migrate V2Examples.

Local Infix "+++" := String.append (at level 60, right associativity).

(** Every state whose keys can be written has exactly one store. *)
Theorem C120_v2_stored info st : fits st ->
  (exists s : store, stored info st s) /\ forall s s' : store, stored info st s -> stored info st s' -> s = s'.
Proof. intros Hf. split; [by apply stored_exists|apply stored_unique]. Qed.
Print Assumptions C120_v2_stored.
(** Writing to the bytes is writing to the state, for any number of writes. *)
Theorem C120_v2_writes info st s ws : fits st -> Forall write_fits ws -> stored info st s ->
  fits (foldl write_state st ws) /\ stored info (foldl write_state st ws) (foldl write_bytes s ws).
Proof. exact (writes_stored info ws st s). Qed.
Print Assumptions C120_v2_writes.
(** Reading the bytes is reading the state. *)
Theorem C120_v2_reads info st (s : store) : fits st -> stored info st s ->
  ((forall c, load denom_table c s = s_denoms st !! c) /\ (forall d, load fee_table d s = s_fees st !! d) /\
   (forall i, load ask_table i s = s_asks st !! i) /\ (forall i, load bid_table i s = s_bids st !! i) /\
   (forall i, load cbid_table i s = s_cbids st !! i)) /\
  (forall coll dn o, short coll -> short dn -> opts_in price_dom o ->
     read_page ask_table ask_price_index [coll; dn] price_enc o s = query_asks_by_collection_denom st coll dn o) /\
  (forall coll tok dn o, short (token_index_str coll tok) -> short dn -> opts_in price_dom o ->
     read_page bid_table bid_price_index [token_index_str coll tok; dn] price_enc o s = query_bids_by_token_price st coll tok dn o) /\
  (forall coll dn o, short coll -> short dn -> opts_in price_dom o ->
     read_page cbid_table cbid_price_index [coll; dn] price_enc o s = query_collection_bids_by_price st coll dn o) /\
  (forall creator coll o, short creator -> short coll ->
     read_page ask_table ask_creator_index [creator; coll] (fun i : string => i) o s = query_asks_by_creator_collection st creator coll o /\
     read_page bid_table bid_creator_index [creator; coll] (fun i : string => i) o s = query_bids_by_creator_collection st creator coll o /\
     read_page cbid_table cbid_creator_index [creator; coll] (fun i : string => i) o s = query_collection_bids_by_creator_collection st creator coll o).
Proof.
  intros Hf Hs. split; [by eapply loads_stored|]. split_and!; intros.
  - by eapply read_asks_by_price.
  - by eapply read_bids_by_price.
  - by eapply read_cbids_by_price.
  - split_and!; [by eapply read_asks_by_creator|by eapply read_bids_by_creator|by eapply read_cbids_by_creator].
Qed.
Print Assumptions C120_v2_reads.
(** A reachable state: one ask, one bid, one collection bid. *)
Lemma st1_fits : fits V2Examples.st1.
Proof.
  split_and!; intros i y Hy.
  - apply V2Examples.asks1 in Hy as [_ ->]. by vm_compute.
  - apply V2Examples.bids1 in Hy as [_ ->]. by vm_compute.
  - apply V2Examples.cbids1 in Hy as [_ ->]. by vm_compute.
Qed.
Example C120_v2_case : exists s : store, stored None V2Examples.st1 s /\ load ask_table V2Examples.ask1_id s = Some V2Examples.ask1 /\
  read_page bid_table bid_price_index ["coll1/2"; "ustars"] price_enc qo_default s = [V2Examples.bid1].
Proof.
  destruct (stored_exists None _ st1_fits) as [s Hs]. exists s. split; [done|]. split.
  - destruct (loads_stored _ _ _ st1_fits Hs) as (_&_&H&_). rewrite H. apply V2Examples.st1_orders.
  - assert (opts_in price_dom qo_default) as Ho by (intros ? [[=]|[=]]).
    transitivity (query_bids_by_token_price V2Examples.st1 "coll1" "2" "ustars" qo_default); [|by vm_compute].
    apply (read_bids_by_price None V2Examples.st1 s "coll1" "2" "ustars"); [exact st1_fits|exact Hs|by vm_compute|by vm_compute|exact Ho].
Qed.
(** On the bytes themselves: two asks, the first of them repriced above the second, and a third removed. *)
Definition ask_at (i tok : string) (n : N) : ask := Ask i "alice" "coll1" tok (Details (Coin "ustars" n) None None).
Example C120_v2_bytes :
  let s := foldl write_bytes (blank None V2Examples.cfg0 0)
    [WAsk "x" (ask_at "x" "1" 5); WAsk "y" (ask_at "y" "2" 300); WAsk "z" (ask_at "z" "3" 7); WAsk "x" (ask_at "x" "1" 70000); WNoAsk "z"] in
  read_page ask_table ask_price_index ["coll1"; "ustars"] price_enc qo_default s = [ask_at "y" "2" 300; ask_at "x" "1" 70000] /\
  size s = 8%nat.
Proof. vm_compute. split; reflexivity. Qed.
(** The whole layout in bytes: with one entry of each kind the store has exactly these keys. *)
Fixpoint bytes (l : list N) : string := match l with [] => "" | n :: l => String (Ascii.ascii_of_N n) (bytes l) end.
Definition is_keys (s : store) (ks : list string) : bool :=
  forallb (fun k => match s !! k with Some _ => true | None => false end) ks && bool_decide (size s = length ks).
Example C120_v2_layout :
  let s := foldl write_bytes (blank (Some (Migrate.Cw2 Migrate.v2_name Migrate.v2_version)) V2Examples.cfg0 0)
    [WDenom "coll2" "uatom"; WFee "uatom" 5; WAsk "x" (ask_at "x" "1" 258);
     WBid "y" (Bid "y" "bobby" "coll1" "7" (Details (Coin "ustars" 3) None None));
     WCBid "z" (CBid "z" "carol" "coll1" (Details (Coin "ustars" 65536) None None))] in
  is_keys s
    ["contract_info"; "C"; "N";
     bytes [0; 1] +++ "Dcoll2"; bytes [0; 1] +++ "Luatom"; bytes [0; 1] +++ "ax"; bytes [0; 1] +++ "oy"; bytes [0; 1] +++ "cz";
     bytes [0; 3] +++ "a_p" +++ bytes [0; 5] +++ "coll1" +++ bytes [0; 6] +++ "ustars" +++ bytes [0; 16; 0; 0; 0; 0; 0; 0; 0; 0; 0; 0; 0; 0; 0; 0; 1; 2] +++ "x";
     bytes [0; 3] +++ "a_c" +++ bytes [0; 5] +++ "alice" +++ bytes [0; 5] +++ "coll1" +++ "x";
     bytes [0; 3] +++ "o_p" +++ bytes [0; 7] +++ "coll1/7" +++ bytes [0; 6] +++ "ustars" +++ bytes [0; 16; 0; 0; 0; 0; 0; 0; 0; 0; 0; 0; 0; 0; 0; 0; 0; 3] +++ "y";
     bytes [0; 3] +++ "o_c" +++ bytes [0; 5] +++ "bobby" +++ bytes [0; 5] +++ "coll1" +++ "y";
     bytes [0; 3] +++ "c_p" +++ bytes [0; 5] +++ "coll1" +++ bytes [0; 6] +++ "ustars" +++ bytes [0; 16; 0; 0; 0; 0; 0; 0; 0; 0; 0; 0; 0; 0; 0; 1; 0; 0] +++ "z";
     bytes [0; 3] +++ "c_c" +++ bytes [0; 5] +++ "carol" +++ bytes [0; 5] +++ "coll1" +++ "z"] = true.
Proof. vm_compute. reflexivity. Qed.
