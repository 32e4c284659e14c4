(** A new reserve price is a cancelled auction created again (C158 of properties.jsonl).  The theorem is closed by a lemma proved elsewhere;
    what it rests on is printed beneath it, and an example shows a concrete case meeting its hypotheses. *)
From stdpp Require Import relations.
From Verif Require Import Base BaseFacts Common Chain ChainFacts QuerySpec RAModel RASpec RAFacts RAInv RAReach RAExamples RARefute
  RAProperties RAChangeSpec RAChange.

(** * C158 *)
(** The seller of an auction that could be opened again as it is, and who has the creation fee at hand, changes its reserve price exactly if they
    could cancel the auction and create it again with the new one: the storage is the same, and the messages are but for the fee and the NFT,
    which goes to the seller and back. *)
Theorem C158_reopen_same : forall p lb v v0 e e0 sender funds st coll tok a reserve st1 msgs1,
  ra_history p lb st -> sender <> p_self p -> (forall c, c ∈ funds -> c_amount c <= U128_MAX) ->
  execute p lb v0 e0 sender [] st (CancelAuction coll tok) = Ok (st1, msgs1) -> s_auctions st !! (coll, tok) = Some a ->
  could_reopen p lb v (e_time e) sender st a -> pays_fee (cf_create_fee (s_config st)) funds ->
  msgs1 = [MNft coll tok sender] /\
  forall st2, execute p lb v e sender [] st (UpdateReservePrice coll tok reserve) = Ok (st2, []) <->
    execute p lb v e sender funds st1 (CreateAuction coll tok reserve (a_duration a) (a_recipient a)) =
      Ok (st2, fee_burnt (cf_create_fee (s_config st)) ++ [MNft coll tok (p_self p)]).
Proof. exact reopen_same. Qed.
Print Assumptions C158_reopen_same.

(** Alice's auction of token 1 has no bid yet.  In the world [w159], where alice has cancelled it, they create it again for 250 instead of 100. *)
Definition w158 : world state := after lib1 rw0 [Sudo BeginBlock; create1].
Definition w159 : world state := after lib1 w158 [Tx "alice" [] (CancelAuction "coll1" "1")].
(** Alice has approved the contract again. *)
Definition v159 : view := View (q_owner (view_of p1 w159)) (fun _ _ _ => true) (q_info (view_of p1 w159)) (q_royalty (view_of p1 w159)) None.
Definition st158 : state := w_st w158.
Definition auction158 : auction := Auction "coll1" "1" "alice" (us 100) 3600 None None None None.
Definition with_price (n : N) : auction := Auction "coll1" "1" "alice" (us n) 3600 None None None None.
Definition in_view (v : view) (s : addr) (f : list coin) (st : state) (m : msg) : result (state * list cmsg) :=
  execute p1 lib1 v (Env 20 (sec 2000)) s f st m.
Definition table (r : result (state * list cmsg)) : option (list (akey * auction) * list cmsg) :=
  match r with Ok (s, ms) => Some (map_to_list (s_auctions s), ms) | Err _ => None end.
Example C158_case : ra_history p1 lib1 st158 /\
  is_ok (in_view (view_of p1 w158) "alice" [] st158 (CancelAuction "coll1" "1")) = true /\
  map_to_list (s_auctions st158) = [(("coll1", "1"), auction158)] /\ map_to_list (s_auctions (w_st w159)) = [] /\
  could_reopen p1 lib1 v159 (sec 2000) "alice" st158 auction158 /\
  pays_fee (cf_create_fee (s_config st158)) [us 10] /\
  table (in_view v159 "alice" [] st158 (UpdateReservePrice "coll1" "1" (us 250))) =
    Some ([(("coll1", "1"), with_price 250)], []) /\
  table (in_view v159 "alice" [us 10] (w_st w159) (CreateAuction "coll1" "1" (us 250) 3600 None)) =
    Some ([(("coll1", "1"), with_price 250)], [MFairBurn (us 10); MNft "coll1" "1" "aucti"]) /\
  is_ok (in_view v159 "alice" [] st158 (UpdateReservePrice "coll1" "1" (us 1))) = false /\
  is_ok (in_view v159 "alice" [us 10] (w_st w159) (CreateAuction "coll1" "1" (us 1) 3600 None)) = false.
Proof.
  split.
  { apply reachable_history, after_reachable; [apply rw0_reachable|by vm_compute]. }
  split; [by vm_compute|]. split; [by vm_compute|]. split; [by vm_compute|]. split.
  { split; [by vm_compute|]. split; [by vm_compute|]. split; [|vm_compute; split; discriminate].
    assert (q_info v159 (a_coll auction158) = Some (CollectionInfo None (Some ("royal", 50000000000000000)))) as -> by (vm_compute; reflexivity).
    done. }
  split.
  { right. split; [by vm_compute|]. exists [], (us 10), []. split_and!; [done|constructor|by vm_compute|vm_compute; discriminate]. }
  vm_compute. split_and!; reflexivity.
Qed.
