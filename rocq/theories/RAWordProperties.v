(** The limit of auctions per block on a 32-bit machine (C149 of properties.jsonl).  Each theorem is closed by a lemma proved elsewhere; what
    it rests on is printed beneath it, and an example shows a concrete case meeting its hypotheses. *)
From stdpp Require Import relations.
From Verif Require Import Base BaseFacts Common Chain ChainFacts QuerySpec RAModel RASpec RAFacts RAIndex RAInv RAReach RAFinal RAExamples
  RAProperties RAExactSpec RAExact RAWordModel RAWordSpec RAWord.

(** * C149 *)
(** Full statement: [forall p lb limit, 0 < limit -> keeps_settling p lb limit].  It is false of the code as compiled: the cast to [usize]
    keeps the last 32 bits only.  Alice auctions a token, bobby bids, governance raises the limit to 2^32, and from then on EndBlock goes
    through without settling anything. *)
Definition v149 : view := view_of p1 rw0.
Definition now149 : N := sec 4700.
Definition raise (n : N) : sudo_msg := UpdateParams (ParamsUpdate None None None None None None (Some n) None None None).
Definition bid149 : result (state * list cmsg) :=
  r ← execute p1 lib1 v149 (Env 10 (sec 1000)) "alice" [us 10] rst0 (CreateAuction "coll1" "1" (us 100) 3600 None);
  execute p1 lib1 v149 (Env 10 (sec 1000)) "bobby" [us 100] (fst r) (PlaceBid "coll1" "1").
Definition state_of (r : result (state * list cmsg)) : state := match r with Ok (st, _) => st | Err _ => rst0 end.
Definition limited (n : N) : state := state_of (r ← bid149; sudo_32 p1 lib1 v149 (Env 11 (sec 1001)) (fst r) (raise n)).
Definition auction149 : auction := Auction "coll1" "1" "alice" (us 100) 3600 (Some (sec 4600)) None (Some (HighBid (us 100) "bobby")) (Some (sec 1000)).

Lemma state_of_ok (r : result (state * list cmsg)) : is_ok r = true -> exists ms, r = Ok (state_of r, ms).
Proof. destruct r as [[st ms]|]; [by eexists|done]. Qed.
Lemma limited_history n : is_ok (r ← bid149; sudo_32 p1 lib1 v149 (Env 11 (sec 1001)) (fst r) (raise n)) = true -> ra_history_32 p1 lib1 (limited n).
Proof.
  intros H. destruct (state_of_ok _ H) as (ms&E). fold (limited n) in E. apply bind_Ok in E as ([st2 ms2]&E2&E3).
  unfold bid149 in E2. apply bind_Ok in E2 as ([st1 ms1]&E1&E2).
  exists cfg1, [us 50], rst0. split; [vm_compute; reflexivity|].
  assert ("alice" <> p_self p1 /\ "bobby" <> p_self p1) as [Ha Hb] by done.
  eapply rtc_l; [exact (call_execute_32 _ _ _ _ _ _ _ _ _ _ Ha E1)|].
  eapply rtc_l; [exact (call_execute_32 _ _ _ _ _ _ _ _ _ _ Hb E2)|].
  eapply rtc_l; [exact (call_sudo_32 _ _ _ _ _ _ _ _ E3)|apply rtc_refl].
Qed.
Lemma limited_only n b : map_to_list (s_auctions (limited n)) = [(("coll1", "1"), auction149)] ->
  s_auctions (limited n) !! (a_coll b, a_tok b) = Some b -> b = auction149.
Proof.
  intros E Hb. apply elem_of_map_to_list in Hb.
  assert (((a_coll b, a_tok b), b) ∈ [(("coll1", "1"), auction149)]) as Hb' by (rewrite <-E; exact Hb).
  apply elem_of_list_singleton in Hb'. congruence.
Qed.
Definition ended (n : N) : result (state * list cmsg) := sudo_32 p1 lib1 v149 (Env 20 now149) (limited n) EndBlock.

Theorem C149_keeps_settling_refuted : exists p lb limit, 0 < limit /\ ~ keeps_settling p lb limit.
Proof.
  exists p1, lib1, 4294967296. split; [done|]. intros H.
  destruct (state_of_ok (ended 4294967296)) as (ms&E); [vm_compute; reflexivity|].
  assert (s_auctions (state_of (ended 4294967296)) !! ("coll1", "1") = None) as HN.
  { apply (H (limited 4294967296) v149 (Env 20 now149) _ ms auction149 (sec 4600)).
    - apply limited_history. vm_compute. reflexivity.
    - vm_compute. reflexivity.
    - exact E.
    - vm_compute. reflexivity.
    - exists (sec 4600). split; [done|]. vm_compute. discriminate.
    - done.
    - assert (hm_windows (s_halt (limited 4294967296)) = []) as Ew by (vm_compute; reflexivity).
      intros (w&Hw&_). rewrite Ew in Hw. by apply elem_of_nil in Hw.
    - intros b Hb _. left. apply (limited_only 4294967296); [vm_compute; reflexivity|exact Hb]. }
  revert HN. vm_compute. discriminate.
Qed.
Print Assumptions C149_keeps_settling_refuted.

(** The part that holds: with a limit whose last 32 bits are not all zero, in particular with every positive limit below 2^32. *)
Theorem C149_keeps_settling_partial : forall p lb limit, low_bits limit <> 0 -> keeps_settling p lb limit.
Proof. exact keeps_settling_low. Qed.
Print Assumptions C149_keeps_settling_partial.
(** In general EndBlock processes the first due auctions, as many as the last 32 bits of the limit say, and nothing else. *)
Theorem C149_end_block_effect : forall p lb st v e st' msgs,
  ra_history_32 p lb st -> sudo_32 p lb v e st EndBlock = Ok (st', msgs) ->
  exists l os, first_due st (e_time e) (low_bits (cf_max_settle (s_config st))) l /\
    Forall2 (fun a o => outcome lb v (e_time e) (s_config st) (s_halt st) a (fst o) (snd o)) l os /\
    s_mins st' = s_mins st /\
    (forall i a o, l !! i = Some a -> os !! i = Some o -> s_auctions st' !! (a_coll a, a_tok a) = fst o) /\
    (forall k, (forall a, a ∈ l -> (a_coll a, a_tok a) <> k) -> s_auctions st' !! k = s_auctions st !! k) /\
    msgs = concat (snd <$> os).
Proof. exact end_block_32. Qed.
Print Assumptions C149_end_block_effect.
(** Everything else proved of the contract carries over: its histories on a 32-bit machine are, with the low limit in place of the limit,
    histories of the model, and every call answers the same. *)
Theorem C149_histories : forall p lb st, ra_history_32 p lb st -> ra_history p lb (low_state st).
Proof. exact history_low. Qed.
Print Assumptions C149_histories.
Theorem C149_calls : forall p lb v e s f st m, execute p lb v e s f (low_state st) m = low_answer (execute p lb v e s f st m).
Proof. exact execute_low. Qed.
Print Assumptions C149_calls.
Theorem C149_privileged_calls : forall p lb v e st m, sudo p lb v e (low_state st) (low_msg m) = low_answer (sudo_32 p lb v e st m).
Proof. exact sudo_low. Qed.
Print Assumptions C149_privileged_calls.
(** With a limit below 2^32 there is no difference at all. *)
Theorem C149_no_difference : forall p lb v e st m, cf_max_settle (s_config st) < 4294967296 -> sudo_32 p lb v e st m = sudo p lb v e st m.
Proof. exact sudo_same. Qed.
Print Assumptions C149_no_difference.

(** The same auction with the limits 7 and 2^32 + 1: EndBlock sells it.  With the limit 2^32 it is left, with no message. *)
Definition left_over (r : result (state * list cmsg)) : option (nat * list cmsg) :=
  match r with Ok (st, ms) => Some (length (map_to_list (s_auctions st)), ms) | Err _ => None end.
Example C149_case :
  ra_history_32 p1 lib1 (limited 7) /\ ra_history_32 p1 lib1 (limited 4294967297) /\
  low_bits 7 <> 0 /\ low_bits 4294967297 <> 0 /\ low_bits 4294967296 = 0 /\ cf_max_settle (s_config (limited 7)) = 7 /\
  left_over (ended 7) = Some (0%nat, [MFairBurn (us 2); MSend "royal" [us 5]; MSend "alice" [us 93]; MNft "coll1" "1" "bobby"]) /\
  left_over (ended 4294967297) = left_over (ended 7) /\ left_over (ended 4294967296) = Some (1%nat, []).
Proof.
  split; [apply limited_history; vm_compute; reflexivity|]. split; [apply limited_history; vm_compute; reflexivity|].
  vm_compute. split_and!; (reflexivity || discriminate).
Qed.
