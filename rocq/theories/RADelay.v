(** Proofs for C152 (RADelaySpec). *)
From stdpp Require Import relations.
From Verif Require Import Base BaseFacts Common Chain ChainFacts QuerySpec RAModel RASpec RAFacts RAInv RAReach RAExactSpec RAExact RADelaySpec.

Section Delay.
Context (p : params) (lb : lib).

Lemma put_clock st k o o' : same_or_longer o o' -> same_but_clock k (put_auction st k o) (put_auction st k o').
Proof.
  intros H. split_and!; try done.
  - destruct o, o'; cbn [put_auction s_auctions]; by rewrite ?lookup_insert, ?lookup_delete.
  - intros k' Hk. destruct o, o'; cbn [put_auction s_auctions];
      rewrite ?lookup_insert_ne, ?lookup_delete_ne by congruence; done.
Qed.
Lemma seconds_mono t t' : t <= t' -> t_seconds t <= t_seconds t'.
Proof. intros H. unfold t_seconds. apply N.div_le_mono; [done|exact H]. Qed.
Lemma before_seconds t now d : t_seconds t < t_seconds now + d -> t <= now + d * NANOS.
Proof.
  unfold t_seconds. intros H.
  pose proof (N.mod_lt t NANOS). pose proof (N.div_mod' t NANOS) as E1. pose proof (N.div_mod' now NANOS) as E2.
  unfold NANOS in *. lia.
Qed.

Lemma later_calls v now now' sender funds st m st' msgs :
  now <= now' -> in_time st now' m -> clock_fits st now' m -> calls p lb v now sender funds st m st' msgs ->
  exists st'', calls p lb v now' sender funds st m st'' msgs /\ same_but_clock (named m) st' st'' /\ (sets_no_clock st m -> st'' = st').
Proof.
  intros Ht Hi (Hf1&Hf2&Hf3) H.
  destruct H as [coll tok reserve duration recipient Ho Hf|coll tok reserve a x Hf Ha Hs Hn Hx Hle|
      coll tok a Hf Ha Hs Hn|coll tok a n a' ms Ha Hs Hf Hpos Hb Hmax|coll tok a o ms Hf Ha Ho].
  - eexists. split_and!; [|apply put_clock, same_auction|done]. apply opens; [|done]. destruct Ho. split; try done.
    destruct (q_info v coll); [|done]. intros t Et. specialize (mo_started _ Et). lia.
  - eexists. split_and!; [|apply put_clock, same_auction|done]. by eapply reprices.
  - eexists. split_and!; [|apply put_clock, same_auction|done]. by eapply cancels.
  - destruct Hb as [H1 H2 H3 H4|first hb t H1 H2 H3 H4 H5].
    + set (b := Auction (a_coll a) (a_tok a) (a_seller a) (a_reserve a) (a_duration a) None (a_recipient a)
                 (Some (HighBid (Coin (c_denom (a_reserve a)) n) sender)) None).
      exists (put_auction st (coll, tok) (Some (with_clock b (now' + a_duration a * NANOS) (Some now')))). split_and!; [| |done].
      * apply (bids p lb v now' sender funds st coll tok a n); try done; [by apply (first_bid now' (s_config st) sender n a)|]. intros t Et. injection Et as <-. by apply Hf1.
      * apply put_clock, (longer b). lia.
    + set (b := Auction (a_coll a) (a_tok a) (a_seller a) (a_reserve a) (a_duration a) None (a_recipient a)
                 (Some (HighBid (Coin (c_denom (a_reserve a)) n) sender)) None).
      set (t' := if decide (t_seconds t < t_seconds now' + cf_extend (s_config st)) then now' + cf_extend (s_config st) * NANOS else t).
      exists (put_auction st (coll, tok) (Some (with_clock b t' (Some first)))).
      pose proof (seconds_mono _ _ Ht) as Hsec.
      assert ((if decide (t_seconds t < t_seconds now + cf_extend (s_config st)) then now + cf_extend (s_config st) * NANOS else t) <= t') as Htt.
      { subst t'. destruct (decide (t_seconds t < t_seconds now + _)), (decide (t_seconds t < t_seconds now' + _)); try lia.
        by apply before_seconds. }
      split_and!; [| |done].
      * apply (bids p lb v now' sender funds st coll tok a n); try done; [apply (later_bid now' (s_config st) sender n a first hb t); try done; by apply (Hi a)|].
        intros u Eu. injection Eu as <-. specialize (Hmax _ eq_refl). cbn [a_end] in Hmax. subst t'.
        destruct (decide (t_seconds t < t_seconds now' + _)); [exact Hf2|].
        destruct (decide (t_seconds t < t_seconds now + _)); [lia|done].
      * by apply put_clock, (longer b).
  - destruct Ho as [Ho Hroy]. destruct Ho as [t E1 E2 E3 E4|t hb sp E1 E2 E3 E4 E5 E6].
    + exists (put_auction st (coll, tok) (Some (with_end a (now' + cf_halt_postpone (s_config st) * NANOS)))). split_and!.
      * eapply settles; try done. split; [|done]. apply (postponed _ _ _ _ _ _ t); try done. lia.
      * apply put_clock. apply (longer a _ _ (a_first a) (a_first a)). lia.
      * intros Hc. by destruct (Hc a t Ha E1).
    + exists (put_auction st (coll, tok) None). split_and!; [|apply put_clock, same_auction|done].
      eapply settles; try done. split; [|done]. apply (sold _ _ _ _ _ _ t hb sp); try done. lia.
Qed.
Lemma later_goes v e e' sender funds st m st' msgs :
  ra_history p lb st -> (forall c, c ∈ funds -> c_amount c <= U128_MAX) ->
  e_time e <= e_time e' -> in_time st (e_time e') m -> clock_fits st (e_time e') m ->
  execute p lb v e sender funds st m = Ok (st', msgs) ->
  exists st'', execute p lb v e' sender funds st m = Ok (st'', msgs) /\ same_but_clock (named m) st' st'' /\ (sets_no_clock st m -> st'' = st').
Proof.
  intros Hh Hs Ht Hi Hf He. apply (calls_exact p lb st Hh) in He; [|done].
  destruct (later_calls _ _ (e_time e') _ _ _ _ _ _ Ht Hi Hf He) as (st''&Hc&Hr). exists st''. split; [|done].
  by apply (calls_exact p lb st Hh).
Qed.
Lemma goes_in_time v e sender funds st m r : ra_history p lb st -> (forall c, c ∈ funds -> c_amount c <= U128_MAX) ->
  execute p lb v e sender funds st m = Ok r -> in_time st (e_time e) m.
Proof.
  intros Hh Hs He. destruct r as [st' msgs]. apply (calls_exact p lb st Hh) in He; [|done]. destruct He; try done.
  intros a0 t Ha0 Et. assert (a0 = a) as -> by congruence.
  destruct H3 as [? ? E3|? ? u ? ? E3]; congruence.
Qed.
End Delay.
