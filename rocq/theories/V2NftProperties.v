(** The books of NFTs of marketplace v2 over a whole history (NftBooksSpec, V2NftSpec). *)
From stdpp Require Import relations.
From Verif Require Import Base BaseFacts Common Chain ChainFacts NftBooksSpec V2Model V2Spec V2Facts V2Inv V2Reach V2Examples
  V2LedgerSpec V2Ledger V2LedgerProperties V2NftSpec V2Nft.

(** * C135, marketplace v2: every NFT is taken in by a listing and handed out once. *)
(** One call orders at most one move of an NFT: into the contract when it is listed, to the recipient the seller named
    when the listing is taken back, to the winning side when it is sold. *)
Theorem C135_v2_moves_of_a_call : forall p st l h k, collision_free p -> prefix_free p -> trace p st l -> h ∈ l ->
  nft_step (p_self p) h k (moves k (en_msgs h)).
Proof. intros p st l h k Hcf Hpf. by apply entry_moves. Qed.
Print Assumptions C135_v2_moves_of_a_call.
(** Over a whole history no NFT is taken in twice without being handed out in between, and it is in at the end exactly
    when it is listed. *)
Theorem C135_v2_books : forall p st l k b, collision_free p -> prefix_free p -> trace p st l -> (b = true <-> listed st k) ->
  listed_or_passed (p_self p) (all_moves k l) b.
Proof. intros p st l k b Hcf Hpf. by apply nft_books. Qed.
Print Assumptions C135_v2_books.

(** The history of C124: bobby buys token 1 off the book; token 2 goes straight from alice to carol. *)
Definition ledger2 : list tx := take 2 ledger0.
Definition ledger2_end : state * list entry := match record st0 ledger2 with Ok r => r | Err _ => (st0, []) end.
Lemma ledger2_trace : trace p0 (fst ledger2_end) (snd ledger2_end).
Proof.
  assert (is_ok (record st0 ledger2) = true) as Hok by by vm_compute. unfold ledger2_end.
  destruct (record st0 ledger2) as [[st l]|] eqn:E; [|done]. cbn [fst snd]. change l with ([] ++ l).
  eapply record_trace; [|exact E]. apply (tr_start _ cfg0). by vm_compute.
Qed.
Example C135_v2_case : collision_free p0 /\ prefix_free p0 /\ trace p0 (fst ledger0_end) (snd ledger0_end) /\
  all_moves ("coll1", "1") (snd ledger0_end) = [p_self p0; "bobby"] /\
  all_moves ("coll1", "2") (snd ledger0_end) = ["carol"] /\ size (s_asks (fst ledger0_end)) = 0%nat /\
  trace p0 (fst ledger2_end) (snd ledger2_end) /\
  all_moves ("coll1", "1") (snd ledger2_end) = [p_self p0] /\ listed (fst ledger2_end) ("coll1", "1").
Proof.
  split; [exact p0_collision_free|]. split; [exact p0_prefix_free|]. split; [exact ledger0_trace|].
  split; [by vm_compute|]. split; [by vm_compute|]. split; [by vm_compute|]. split; [exact ledger2_trace|].
  split; [by vm_compute|].
  destruct (map_to_list (s_asks (fst ledger2_end))) as [|[i a] q] eqn:E; [by vm_compute in E|].
  exists i, a. split; [apply elem_of_map_to_list; rewrite E; left|].
  assert (map (fun x : string * ask => (a_coll (snd x), a_tok (snd x))) (map_to_list (s_asks (fst ledger2_end))) = [("coll1", "1")]) as Hm
    by by vm_compute.
  rewrite E in Hm. cbn [map snd] in Hm. injection Hm as H1 H2 _. by rewrite H1, H2.
Qed.

(** Handed out is not always to somebody else: a buyer may name the contract as the recipient.  Then the NFT goes to
    the contract although it is not listed. *)
Definition ledger3 : list tx := [
  ("bobby", [us 800], SetBid "coll1" "2" (Details (us 800) (Some (p_self p0)) None));
  ("alice", [], AcceptBid bid_id (det 800))].
Definition ledger3_end : state * list entry := match record st0 ledger3 with Ok r => r | Err _ => (st0, []) end.
Theorem C135_v2_never_to_itself_refuted : exists p st l k, collision_free p /\ prefix_free p /\ trace p st l /\
  ~ listed st k /\ all_moves k l = [p_self p].
Proof.
  exists p0, (fst ledger3_end), (snd ledger3_end), ("coll1", "2").
  split; [exact p0_collision_free|]. split; [exact p0_prefix_free|]. split; [|split].
  - assert (is_ok (record st0 ledger3) = true) as Hok by by vm_compute. unfold ledger3_end.
    destruct (record st0 ledger3) as [[st l]|] eqn:E; [|done]. cbn [fst snd]. change l with ([] ++ l).
    eapply record_trace; [|exact E]. apply (tr_start _ cfg0). by vm_compute.
  - intros (i&a&Ha&_). assert (map_to_list (s_asks (fst ledger3_end)) = []) as E by by vm_compute.
    apply elem_of_map_to_list in Ha. rewrite E in Ha. by apply elem_of_nil in Ha.
  - by vm_compute.
Qed.
Print Assumptions C135_v2_never_to_itself_refuted.
