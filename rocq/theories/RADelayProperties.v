(** The clock and the calls of the reserve auction (C152 of properties.jsonl).  Each theorem is closed by a lemma proved elsewhere; what it
    rests on is printed beneath it, and an example shows a concrete case meeting its hypotheses. *)
From stdpp Require Import relations.
From Verif Require Import Base BaseFacts Common Chain ChainFacts QuerySpec RAModel RASpec RAFacts RAInv RAReach RAExamples RARefute
  RAProperties RAExactSpec RAExact RAExactProperties RADelaySpec RADelay.

(** * C152 *)
(** A call that goes through at one time goes through at any later one, unless it is a bid and the auction has ended by then.  The messages are
    the same, and so is the storage but for the clock of the auction, which never runs out earlier; calls that set no clock leave the same storage. *)
Theorem C152_delay : forall p lb v e e' sender funds st m st' msgs,
  ra_history p lb st -> (forall c, c ∈ funds -> c_amount c <= U128_MAX) ->
  e_time e <= e_time e' -> in_time st (e_time e') m -> clock_fits st (e_time e') m ->
  execute p lb v e sender funds st m = Ok (st', msgs) ->
  exists st'', execute p lb v e' sender funds st m = Ok (st'', msgs) /\ same_but_clock (named m) st' st'' /\ (sets_no_clock st m -> st'' = st').
Proof. exact later_goes. Qed.
Print Assumptions C152_delay.
(** No bid goes through after the end. *)
Theorem C152_deadline : forall p lb v e sender funds st m r,
  ra_history p lb st -> (forall c, c ∈ funds -> c_amount c <= U128_MAX) ->
  execute p lb v e sender funds st m = Ok r -> in_time st (e_time e) m.
Proof. exact goes_in_time. Qed.
Print Assumptions C152_deadline.

(** The auction ends at 4600 s.  Bobby's 200 is the same bid at 2000 s and at 4599 s, but then it keeps the auction open until 5499 s; at 4600 s it
    is too late.  A settlement is the same whenever it comes.  After a halt the auction is postponed by 3600 s from whenever it is settled. *)
Definition left_at (w : world state) (t : N) (s : addr) (f : list coin) (m : msg) : option (list (akey * auction) * list cmsg) :=
  match execute p1 lib1 (view_of p1 w) (Env 20 t) s f (w_st w) m with Ok (st, ms) => Some (map_to_list (s_auctions st), ms) | Err _ => None end.
Definition led_by_bobby (t : N) : auction :=
  Auction "coll1" "1" "alice" (us 100) 3600 (Some t) None (Some (HighBid (us 200) "bobby")) (Some (sec 1000)).
Definition bid1 : msg := PlaceBid "coll1" "1".
Definition settle1 : msg := SettleAuction "coll1" "1".
Example C152_case : ra_history p1 lib1 st1 /\ (forall c, c ∈ [us 200] -> c_amount c <= U128_MAX) /\ clock_fits st1 (sec 4599) bid1 /\
  in_time st1 (sec 4599) bid1 /\ ~ in_time st1 (sec 4600) bid1 /\ sets_no_clock st1 settle1 /\
  left_at w1 (sec 2000) "bobby" [us 200] bid1 = Some ([(("coll1", "1"), led_by_bobby (sec 4600))], [MSend "carol" [us 105]]) /\
  left_at w1 (sec 4599) "bobby" [us 200] bid1 = Some ([(("coll1", "1"), led_by_bobby (sec 5499))], [MSend "carol" [us 105]]) /\
  left_at w1 (sec 4600) "bobby" [us 200] bid1 = None /\
  left_at w1 (sec 4600) "dave1" [] settle1 =
    Some ([], [MFairBurn (us 2); MSend "royal" [us 5]; MSend "alice" [us 98]; MNft "coll1" "1" "carol"]) /\
  left_at w1 (sec 99999) "dave1" [] settle1 = left_at w1 (sec 4600) "dave1" [] settle1 /\
  ra_reachable p1 lib1 w_halt /\
  left_at w_halt (sec 4700) "dave1" [] settle1 = Some ([(("coll1", "1"), with_end auction1 (sec 8300))], []) /\
  left_at w_halt (sec 5000) "dave1" [] settle1 = Some ([(("coll1", "1"), with_end auction1 (sec 8600))], []).
Proof.
  split; [exact st1_history|]. split; [apply one_small; unfold U128_MAX; lia|]. split; [|split; [|split; [|split]]].
  - split; [|by vm_compute]. intros a Ha. assert (a = auction1) as -> by (apply (inj Some); etrans; [symmetry; exact Ha|exact st1_auction]). by vm_compute.
  - intros a t Ha Et. rewrite st1_auction in Ha. injection Ha as <-. injection Et as <-. by vm_compute.
  - intros H. specialize (H auction1 (sec 4600) st1_auction eq_refl). by vm_compute in H.
  - intros a t Ha Et. rewrite st1_auction in Ha. injection Ha as <-. injection Et as <-. intros (w&Hw&_).
    replace (hm_windows (s_halt st1)) with (@nil halt_window) in Hw by (by vm_compute). by apply elem_of_nil in Hw.
  - do 5 (split; [vm_compute; reflexivity|]). split; [exact (proj1 C44_case)|]. split; vm_compute; reflexivity.
Qed.
