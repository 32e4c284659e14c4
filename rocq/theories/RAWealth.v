(** A group of accounts gains coins only from auctions that outsiders win. *)
From stdpp Require Import relations.
From Verif Require Import Base BaseFacts Common Chain ChainFacts QuerySpec SaleFacts LedgerSpec Ledger RAModel RASpec RAFacts RAInv
  RAReach RAExactSpec RAExact RALedgerSpec RALedger RAWealthSpec.

Lemma total_split {K A} `{Countable K} (f g h : K -> A -> N) (m : gmap K A) :
  (forall k x, f k x = g k x + h k x) -> total f m = total g m + total h m.
Proof.
  intros E. induction m as [|k x m Hk IH] using map_ind; [by rewrite !total_empty|].
  rewrite !total_insert_new by done. rewrite IH, E. lia.
Qed.

Section Wealth.
Context (p : params) (lb : lib) (G : addr -> bool) (d : denom).
Notation out_of := (fun x => negb (G x)).
Lemma escrowed_shares st : escrowed G d st = shares d G st.
Proof. done. Qed.
Lemma sales_shares h : sales G d h = shares_gone d out_of (e_before h) (e_after h).
Proof.
  apply total_ext. intros k a _. destruct (_ !! k); [done|]. unfold share. destruct (a_high a) as [hb|]; [|done]. by destruct (G _).
Qed.
Lemma got_le h : got G d h <= goes_out d h.
Proof.
  unfold got, goes_out, leaving. induction (e_msgs h) as [|m l IH]; [done|]. cbn [sum_over]. destruct m; try lia. destruct (G to); lia.
Qed.
Lemma won_split h : all_won d h = shares_gone d G (e_before h) (e_after h) + sales G d h.
Proof.
  rewrite sales_shares. unfold all_won, shares_gone, gone. apply total_split. intros k a.
  destruct (_ !! k); [done|]. unfold share. destruct (a_high a) as [hb|]; [|done]. destruct (G _); cbn; lia.
Qed.
Lemma step_gain st st' h : ra_history p lb st -> recorded p lb st st' h ->
  got G d h + escrowed G d st' <= put G d h + escrowed G d st + sales G d h.
Proof.
  intros Hst H. rewrite !escrowed_shares. destruct (brings h) eqn:Hb.
  - destruct H as [v e s f m ms Hs H|v e m ms H]; [|done]. unfold got. cbn [put e_msgs].
    apply (calls_sound p lb st Hst) in H.
    destruct H as [coll tok reserve duration recipient Hmo Hpf|coll tok reserve a mn -> Ha Hse Hhi Hmn Hle
      |coll tok a -> Ha Hse Hhi|coll tok a n a' ms Ha Hse -> Hn Hr Hend|coll tok a o ms -> Ha [Hout _]]; try done.
    + assert (shares d G (put_auction st (coll, tok) (Some (Auction coll tok s reserve duration None recipient None None))) = shares d G st) as ->.
      { unfold shares, put_auction. cbn [s_auctions]. rewrite total_insert_new by apply Hmo. unfold share at 1. cbn [a_high]. lia. }
      assert (sum_over (fun m => match m with MSend to cs => if G to then coins_of d cs else 0 | _ => 0 end)
        (fee_burnt (cf_create_fee (s_config st)) ++ [MNft coll tok (p_self p)]) = 0) as ->.
      { unfold fee_burnt. by destruct (decide _). }
      lia.
    + destruct (put_some d G st (coll, tok) a a' Ha) as [H _].
      assert (forall x hb, a_high x = Some hb -> share d G x = if G (hb_bidder hb) then of_denom d (hb_coin hb) else 0) as Hsh.
      { intros x hb Hx. unfold share. by rewrite Hx. }
      rewrite (Hsh a' (HighBid (Coin (c_denom (a_reserve a)) n) s)) in H by (by destruct Hr). cbn [hb_bidder hb_coin] in H.
      unfold coins_of. destruct Hr as [Hf Hh He Hr|first hb t Hf Hh He Hlt Hr]; cbn [sum_over].
      * assert (share d G a = 0) as H0 by (unfold share; by rewrite Hh). rewrite H0 in H. destruct (G s); lia.
      * rewrite (Hsh a hb Hh) in H. destruct (G s), (G (hb_bidder hb)); lia.
  - pose proof (step_all p lb d st st' h Hst H Hb) as [H1 H2]. pose proof (step_contract p lb d st st' h Hst H) as H3.
    assert (overpaid d h = 0) as H4 by (by destruct h as [s f [] ? ? ?|]).
    pose proof (got_le h) as H5. pose proof (won_split h) as H6.
    assert (shares d G st = shares d G st' + shares_gone d G (e_before h) (e_after h)) as H7; [|lia].
    destruct H as [v e s f m ms Hs H|v e m ms H]; cbn [e_before e_after].
    + apply (calls_sound p lb st Hst) in H.
      destruct H as [coll tok reserve duration recipient Hmo Hpf|coll tok reserve a mn -> Ha Hse Hhi Hmn Hle
        |coll tok a -> Ha Hse Hhi|coll tok a n a' ms Ha Hse -> Hn Hr Hend|coll tok a o ms -> Ha [Hout _]]; try done.
      * destruct (put_same d G st _ a (with_reserve a reserve) Ha) as [-> ->]; [done|]. lia.
      * by eapply put_none.
      * by eapply outcome_put.
    + apply (sudo_sound p lb st Hst) in H. by eapply sudo_shares.
Qed.
Lemma history_gain st l : trace p lb st l ->
  sum_over (got G d) l + escrowed G d st <= sum_over (put G d) l + sum_over (sales G d) l.
Proof.
  induction 1 as [c mins st H|st l h st' Ht IH H].
  - cbn [sum_over]. unfold escrowed. rewrite total_zero; [done|]. intros k a Ha.
    unfold instantiate in H. apply bind_Ok in H as (?&_&H). apply bind_Ok in H as ([]&Hc&H). apply bind_Ok in H as (m&_&H).
    injection H as <-. cbn in Ha. by rewrite lookup_empty in Ha.
  - rewrite !sum_over_app. cbn [sum_over]. pose proof (step_gain st st' h (trace_history _ _ _ _ Ht) H). lia.
Qed.
(** A call settles to the members at most what the auctions that end bring. *)
Lemma entry_gain st l h : trace p lb st l -> h ∈ l ->
  got G d h + escrowed G d (e_after h) <= put G d h + escrowed G d (e_before h) + sales G d h.
Proof. intros Ht Hh. destruct (entry_recorded _ _ _ _ _ Ht Hh) as [Hst H]. by apply step_gain. Qed.
End Wealth.
