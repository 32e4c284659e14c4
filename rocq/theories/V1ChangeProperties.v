(** Replacing an order of v1 is taking it back and placing another (C157 of properties.jsonl).  Each theorem is closed by a lemma proved elsewhere;
    what it rests on is printed beneath it, and an example shows a concrete case meeting its hypotheses. *)
From stdpp Require Import relations pretty.
From Verif Require Import Base BaseFacts Common Chain V1Model V1Spec V1Reach V1Examples V1Properties V1ChangeSpec V1Change.

(** * C157 *)
(** A bidder who can take their bid for an NFT back and then calls SetBid, BuyNow or BuyFor gets the same result as with that call alone, be it a
    success or an error: the same storage, the same messages after the old price, which comes back either way.  Only those who listen for bids do
    not hear that the old one is gone. *)
Theorem C157_bid_replaced : forall p x v v0 e e0 sender funds st m coll tok st1 msgs1,
  v1_history p x st -> bids_for m coll tok ->
  execute_sub p x v0 e0 sender [] st (RemoveBid coll tok) = Ok (st1, msgs1) ->
  exists old, s_bids st !! (coll, tok, sender) = Some old /\
    msgs1 = paid_back sender (b_price old) :: heard (s_bid_hooks st) (HBid old HDelete) /\
    execute_sub p x v e sender funds st m = preceded_by (paid_back sender (b_price old)) (execute_sub p x v e sender funds st1 m).
Proof. exact bid_replaced. Qed.
Print Assumptions C157_bid_replaced.
(** The same of a bid for a whole collection. *)
Theorem C157_collection_bid_replaced : forall p x v v0 e e0 sender funds st coll t b st1 msgs1,
  v1_history p x st -> execute_sub p x v0 e0 sender [] st (RemoveCollectionBid coll) = Ok (st1, msgs1) ->
  exists old, s_cbids st !! (coll, sender) = Some old /\
    msgs1 = paid_back sender (cb_price old) :: heard (s_cbid_hooks st) (HCBid old HDelete) /\
    execute_sub p x v e sender funds st (SetCollectionBid coll t b) =
      preceded_by (paid_back sender (cb_price old)) (execute_sub p x v e sender funds st1 (SetCollectionBid coll t b)).
Proof. exact cbid_replaced. Qed.
Print Assumptions C157_collection_bid_replaced.
(** Whether a listing is removed first or not makes no difference to a new listing of the NFT, by whomever. *)
Theorem C157_listing_replaced : forall p x v v0 e e0 sender sender0 funds st ty coll tok price to reserve b t st1 msgs1,
  execute_sub p x v0 e0 sender0 [] st (RemoveAsk coll tok) = Ok (st1, msgs1) ->
  execute_sub p x v e sender funds st1 (SetAsk ty coll tok price to reserve b t) =
  execute_sub p x v e sender funds st (SetAsk ty coll tok price to reserve b t).
Proof. exact ask_replaced. Qed.
Print Assumptions C157_listing_replaced.

(** Bobby, whose bid for token 1 is 950, bids 970 or buys it for 1000, and pays too little for either; daver raises 700 for the collection to 720;
    alice lists token 1 again for 1500. *)
Definition after_removal (x : ext) (s : addr) (m : msg) : state :=
  match execute_sub p1 x (view_of p1 (vw1 x)) (env_of (vw1 x)) s [] (w_st (vw1 x)) m with Ok (st, _) => st | Err _ => w_st (vw1 x) end.
Definition told_all (x : ext) (st : state) (s : addr) (f : list coin) (m : msg)
    : option (list (string * N * ask) * list (string * N * string * bid) * list (string * string * cbid) * list smsg) :=
  match execute_sub p1 x (view_of p1 (vw1 x)) (env_of (vw1 x)) s f st m with
  | Ok (st, ms) => Some (map_to_list (s_asks st), map_to_list (s_bids st), map_to_list (s_cbids st), ms)
  | Err _ => None
  end.
Definition more (y : smsg) {A} (o : option (A * list smsg)) : option (A * list smsg) :=
  match o with Some (a, ms) => Some (a, y :: ms) | None => None end.
Definition bid157 : msg := SetBid "coll1" 1 (sec 2500) None None.
Definition cbid157 : msg := SetCollectionBid "coll1" (sec 4000) None.
Definition ask157 : msg := SetAsk FixedPrice "coll1" 1 (us 1500) None None None (sec 3000).
Example C157_case x : v1_history p1 x (w_st (vw1 x)) /\ bids_for bid157 "coll1" 1 /\ bids_for buy1 "coll1" 1 /\
  is_ok (execute_sub p1 x (view_of p1 (vw1 x)) (env_of (vw1 x)) "bobby" [] (w_st (vw1 x)) (RemoveBid "coll1" 1)) = true /\
  is_ok (execute_sub p1 x (view_of p1 (vw1 x)) (env_of (vw1 x)) "daver" [] (w_st (vw1 x)) (RemoveCollectionBid "coll1")) = true /\
  is_ok (execute_sub p1 x (view_of p1 (vw1 x)) (env_of (vw1 x)) "alice" [] (w_st (vw1 x)) (RemoveAsk "coll1" 1)) = true /\
  (let st1 := after_removal x "bobby" (RemoveBid "coll1" 1) in
   let back := paid_back "bobby" 950 in
   told_all x (w_st (vw1 x)) "bobby" [us 970] bid157 = more back (told_all x st1 "bobby" [us 970] bid157) /\
   told_all x (w_st (vw1 x)) "bobby" [us 970] bid157 <> None /\
   told_all x (w_st (vw1 x)) "bobby" [us 1000] buy1 = more back (told_all x st1 "bobby" [us 1000] buy1) /\
   told_all x (w_st (vw1 x)) "bobby" [us 1000] buy1 <> None /\
   told_all x (w_st (vw1 x)) "bobby" [us 1] bid157 = None /\ told_all x st1 "bobby" [us 1] bid157 = None) /\
  (let st1 := after_removal x "daver" (RemoveCollectionBid "coll1") in
   told_all x (w_st (vw1 x)) "daver" [us 720] cbid157 = more (paid_back "daver" 700) (told_all x st1 "daver" [us 720] cbid157) /\
   told_all x (w_st (vw1 x)) "daver" [us 720] cbid157 <> None) /\
  (let st1 := after_removal x "alice" (RemoveAsk "coll1" 1) in
   told_all x (w_st (vw1 x)) "alice" [us 10] ask157 = told_all x st1 "alice" [us 10] ask157 /\
   told_all x st1 "alice" [us 10] ask157 <> None).
Proof.
  split; [apply vw1_history|]. split; [left; by do 3 eexists|]. split; [right; left; by do 3 eexists|].
  vm_compute. split_and!; (reflexivity || discriminate).
Qed.
