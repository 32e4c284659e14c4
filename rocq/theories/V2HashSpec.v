(** What marketplace v2 hashes and which addresses it looks at, call by call; histories over given finite sets of both. *)
From stdpp Require Import relations.
From Verif Require Import Base Common Chain ChainFacts V2Model V2Spec V2ExactSpec V2LocalSpec.

(** * What a call hashes *)
Definition hashed (e : env) (st : state) (m : msg) : list string :=
  let numbered what := what +:+ be8 (e_height e) +:+ be8 (next_count st) in
  match m with
  | SetAsk coll tok _ | SellNft coll tok _ => [coll +:+ tok]
  | SetBid coll tok _ | BuySpecificNft coll tok _ => [coll +:+ tok; numbered (coll +:+ tok)]
  | SetCollectionBid coll _ | BuyCollectionNft coll _ => [numbered coll]
  | AcceptAsk i _ => match s_asks st !! i with Some a => [numbered (a_coll a +:+ a_tok a)] | None => [] end
  | UpdateBid i _ | AcceptBid i _ => match s_bids st !! i with Some b => [b_coll b +:+ b_tok b] | None => [] end
  | AcceptCollectionBid i tok _ => match s_cbids st !! i with Some b => [cb_coll b +:+ tok] | None => [] end
  | _ => []
  end.
(** * Which addresses it looks at *)
Definition in_config (c : config) : list string := [cf_fee_manager c; cf_registry c].
Definition in_details (d : details) : list string := option_list (d_recipient d) ++ option_list (d_finder d).
Definition in_msg (m : msg) : list string :=
  match m with
  | UpdateConfig c => in_config c
  | UpdateCollectionDenom coll _ => [coll]
  | SetAsk coll _ d | SellNft coll _ d | SetBid coll _ d | BuySpecificNft coll _ d | SetCollectionBid coll d
  | BuyCollectionNft coll d => coll :: in_details d
  | UpdateAsk _ d | AcceptAsk _ d | UpdateBid _ d | AcceptBid _ d | UpdateCollectionBid _ d | AcceptCollectionBid _ _ d => in_details d
  | _ => []
  end.
(** The royalty addresses that the collection of the call and the listed collections report. *)
Definition royal (v : view) (coll : addr) : list string :=
  match q_info v coll with
  | Some ci => match ci_royalty ci with Some (pa, _) => [pa] | None => [] end
  | None => []
  end.
Definition addresses (v : view) (st : state) (m : msg) : list string :=
  in_msg m ++ (option_list (market st m) ≫= royal v) ++
  (((fun kv => a_coll kv.2) <$> map_to_list (s_asks st)) ≫= royal v).

(** * Histories in which all hashed strings are in [S] and all addresses in [A] *)
Definition within (p : params) (S A : list string) (v : view) (e : env) (sender : addr) (funds : list coin) (st : state) (m : msg)
    : result (state * list cmsg) :=
  if bool_decide (hashed e st m ⊆ S /\ addresses v st m ⊆ A) then execute p v e sender funds st m else Err EOther.
Definition history_over (p : params) (S A : list string) (n : nat) (st : state) : Prop :=
  exists c st0, instantiate p c = Ok st0 /\ in_config c ⊆ A /\ nsteps (hstep p (within p S A)) n st0 st.
Definition reachable_over (p : params) (S A : list string) (w : world state) : Prop :=
  exists w0 c, instantiate p c = Ok (w_st w0) /\ in_config c ⊆ A /\ nft_wf p w0 /\ rtc (step p (within p S A) v2_sudo) w0 w.
(** No two of the strings hashed have the same hash; no address looked at is the beginning of another, or has a slash. *)
Definition no_collision (p : params) (S : list string) : Prop :=
  forall x y, x ∈ S -> y ∈ S -> p_hash p x = p_hash p y -> x = y.
Definition no_prefix (p : params) (A : list string) : Prop :=
  forall s t r, s ∈ A -> t ∈ A -> p_valid p s = true -> p_valid p t = true -> s +:+ r = t -> s = t.
Definition no_slash (p : params) (A : list string) : Prop :=
  forall s, s ∈ A -> p_valid p s = true -> has_slash s = false.
(** The same for histories of 128-bit amounts. *)
Definition small_history_over (p : params) (S A : list string) (st : state) : Prop :=
  exists c st0, instantiate p c = Ok st0 /\ in_config c ⊆ A /\
    rtc (fun s s' => exists v e sender funds m msgs,
           sender <> p_self p /\ small_call funds m /\ within p S A v e sender funds s m = Ok (s', msgs)) st0 st.
