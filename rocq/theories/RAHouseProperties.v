(** What is auctioned, by whom, and who leads depends on the auctions alone (C163 of properties.jsonl).  The theorem is closed by a lemma
    proved elsewhere; what it rests on is printed beneath it, and an example shows a concrete case meeting its hypotheses. *)
From stdpp Require Import relations.
From Verif Require Import Base BaseFacts Common Chain ChainFacts QuerySpec RAModel RASpec RAFacts RAInv RAReach RAExamples RAProperties
  RAHouseSpec RAHouse.

(** * C163 *)
(** Two storages with the same auctions but for their times, whatever their configurations, minimum reserve prices and halts, at whatever
    times, and whatever the other contracts answer.  If a call succeeds in both, then it leaves the same auctions but for their times and
    moves the same NFTs to the same people, unless it is a settlement that a halt postpones in one of them only.  A bid also pays the same
    coins back to the same bidder. *)
Theorem C163_same_sale : forall p lb st1 st2 v1 v2 e1 e2 sender funds m st1' st2' msgs1 msgs2,
  same_auctions st1 st2 ->
  execute p lb v1 e1 sender funds st1 m = Ok (st1', msgs1) -> execute p lb v2 e2 sender funds st2 m = Ok (st2', msgs2) ->
  (settles m = true -> (nft_moves msgs1 = [] <-> nft_moves msgs2 = [])) ->
  same_auctions st1' st2' /\ nft_moves msgs1 = nft_moves msgs2 /\ (forall coll tok, m = PlaceBid coll tok -> msgs1 = msgs2).
Proof. apply same_sale. Qed.
Print Assumptions C163_same_sale.

(** Carol leads with 105.  Elsewhere the fee is 10%, the increment 20%, the extension an hour, and no royalty is advertised. *)
Definition dear : config := Config "fairb" 100000000000000000 200000000000000000 10 50 3600 (us 77) 10 1200 600 60.
Definition st1d : state := State dear ∅ (HaltManager 5 []) (s_auctions st1).
Definition no_info : view := View (q_owner (view_of p1 w1)) (q_approval (view_of p1 w1)) (fun _ => Some (CollectionInfo None None)) (q_royalty (view_of p1 w1)) (q_admin (view_of p1 w1)).
Definition there (e : env) (s : addr) (f : list coin) (m : msg) : result (state * list cmsg) := execute p1 lib1 no_info e s f st1d m.
Lemma st1d_same : same_auctions st1 st1d.
Proof. intros k. change (s_auctions st1d) with (s_auctions st1). destruct (s_auctions st1 !! k); [|done]. by repeat split. Qed.
Example C163_case : ra_history p1 lib1 st1 /\ same_auctions st1 st1d /\
  (let one := call (late 1020) "bobby" [us 200] (PlaceBid "coll1" "1") in
   let two := there (late 1500) "bobby" [us 200] (PlaceBid "coll1" "1") in
   is_ok one = true /\ is_ok two = true /\ msgs_of one = [MSend "carol" [us 105]] /\ msgs_of two = [MSend "carol" [us 105]] /\
   (a_end <$> s_auctions (state_of one) !! (("coll1", "1") : akey)) <> (a_end <$> s_auctions (state_of two) !! (("coll1", "1") : akey))) /\
  (let one := call (late 5000) "daver" [] (SettleAuction "coll1" "1") in
   let two := there (late 6000) "daver" [] (SettleAuction "coll1" "1") in
   is_ok one = true /\ is_ok two = true /\ length (msgs_of one) <> length (msgs_of two) /\
   nft_moves (msgs_of one) = [("coll1", "1", "carol")] /\ nft_moves (msgs_of two) = [("coll1", "1", "carol")] /\
   (settles (SettleAuction "coll1" "1") = true -> (nft_moves (msgs_of one) = [] <-> nft_moves (msgs_of two) = []))).
Proof.
  split; [exact st1_history|]. split; [exact st1d_same|]. split.
  - vm_compute. split_and!; (reflexivity || discriminate).
  - cbv zeta. split; [by vm_compute|]. split; [by vm_compute|]. split; [vm_compute; discriminate|]. split; [by vm_compute|]. split; [by vm_compute|].
    intros _. vm_compute. split; discriminate.
Qed.
