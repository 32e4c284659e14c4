(** What is auctioned, by whom, and who leads depends on the auctions alone. *)
From stdpp Require Import relations.
From Verif Require Import Base Common Chain BaseFacts ChainFacts QuerySpec RAModel RASpec RAHouseSpec.

Section House.
Context (p : params) (lb : lib).

Lemma moves_app l l' : nft_moves (l ++ l') = nft_moves l ++ nft_moves l'.
Proof. apply omap_app. Qed.
Lemma same_get s t k a b : same_auctions s t -> s_auctions s !! k = Some a -> s_auctions t !! k = Some b -> same_but_times a b.
Proof. intros H Ha Hb. specialize (H k). by rewrite Ha, Hb in H. Qed.
Lemma same_save s t a b : same_auctions s t -> same_but_times a b -> same_auctions (save_auction s a) (save_auction t b).
Proof.
  intros H Hab k. unfold save_auction. cbn. assert (a_key a = a_key b) as E by (unfold a_key; destruct Hab as (->&->&_); done).
  rewrite E. destruct (decide (k = a_key b)) as [->|Hk]; [by rewrite !lookup_insert|]. rewrite !lookup_insert_ne by done. apply H.
Qed.
Lemma same_remove s t a b : same_auctions s t -> same_but_times a b -> same_auctions (remove_auction s a) (remove_auction t b).
Proof.
  intros H Hab k. unfold remove_auction. cbn. assert (a_key a = a_key b) as E by (unfold a_key; destruct Hab as (->&->&_); done).
  rewrite E. destruct (decide (k = a_key b)) as [->|Hk]; [by rewrite !lookup_delete|]. rewrite !lookup_delete_ne by done. apply H.
Qed.
Lemma load_Ok st k a : load_auction st k = Ok a -> s_auctions st !! k = Some a.
Proof. unfold load_auction. by destruct (s_auctions st !! k); intros [= ->]. Qed.
Lemma mv_part to d n : nft_moves (send_part to d n) = [].
Proof. unfold send_part. by case_match. Qed.
Lemma mv_payout sale s fee roy resp ms : payout_nft_sale_fees lb sale s fee roy resp = Ok ms -> nft_moves ms = nft_moves resp.
Proof.
  unfold payout_nft_sale_fees. intros H. repeat (case_match || inv_ok); subst; rewrite ?moves_app, ?mv_part; cbn; by rewrite ?app_nil_r.
Qed.

Section Two.
Context (st1 st2 : state) (Hb : same_auctions st1 st2) (v1 v2 : view) (e1 e2 : env) (s : addr) (f : list coin) (st1' st2' : state) (ms1 ms2 : list cmsg).
Lemma create_same coll tok d r to : execute_create_auction p lb v1 e1 s f st1 coll tok d r to = Ok (st1', ms1) ->
  execute_create_auction p lb v2 e2 s f st2 coll tok d r to = Ok (st2', ms2) -> same_auctions st1' st2' /\ nft_moves ms1 = nft_moves ms2.
Proof.
  unfold execute_create_auction. cbv zeta. intros H1 H2. inv_ok; cbn [fst snd] in *; inv_ok; (split; [apply same_save; [done|]; by repeat split|]);
    unfold transfer_nft; rewrite ?moves_app; done.
Qed.
Lemma reprice_same coll tok r : execute_update_reserve_price s f st1 coll tok r = Ok (st1', ms1) ->
  execute_update_reserve_price s f st2 coll tok r = Ok (st2', ms2) -> same_auctions st1' st2' /\ nft_moves ms1 = nft_moves ms2 /\ ms1 = ms2.
Proof.
  unfold execute_update_reserve_price. cbv zeta. intros H1 H2. inv_ok.
  match goal with A : load_auction st1 _ = Ok ?a, B : load_auction st2 _ = Ok ?b |- _ => pose proof (same_get _ _ _ _ _ Hb (load_Ok _ _ _ A) (load_Ok _ _ _ B)) as Hs end.
  split; [|done]. apply same_save; [done|]. unfold same_but_times in *. cbn. tauto.
Qed.
Lemma cancel_same coll tok : execute_cancel_auction s f st1 coll tok = Ok (st1', ms1) ->
  execute_cancel_auction s f st2 coll tok = Ok (st2', ms2) -> same_auctions st1' st2' /\ nft_moves ms1 = nft_moves ms2 /\ ms1 = ms2.
Proof.
  unfold execute_cancel_auction. intros H1 H2. inv_ok.
  match goal with A : load_auction st1 _ = Ok ?a, B : load_auction st2 _ = Ok ?b |- _ => pose proof (same_get _ _ _ _ _ Hb (load_Ok _ _ _ A) (load_Ok _ _ _ B)) as Hs end.
  split; [by apply same_remove|]. destruct Hs as (_&_&->&_). done.
Qed.
Lemma bid_same coll tok : execute_place_bid e1 s f st1 coll tok = Ok (st1', ms1) ->
  execute_place_bid e2 s f st2 coll tok = Ok (st2', ms2) -> same_auctions st1' st2' /\ ms1 = ms2.
Proof.
  unfold execute_place_bid. cbv zeta. intros H1 H2.
  apply bind_Ok in H1 as (a&La&H1). apply bind_Ok in H2 as (b&Lb&H2).
  pose proof (same_get _ _ _ _ _ Hb (load_Ok _ _ _ La) (load_Ok _ _ _ Lb)) as Hs. pose proof Hs as (C&T&S&R&D&F&Hh&Hf).
  assert (a_denom b = a_denom a) as Ed by (unfold a_denom; by rewrite R). rewrite Ed in H2.
  apply bind_Ok in H1 as (n&Hn&H1). apply bind_Ok in H2 as (n'&Hn'&H2). assert (n' = n) as -> by congruence.
  apply bind_Ok in H1 as (_&_&H1). apply bind_Ok in H2 as (_&_&H2). apply bind_Ok in H1 as (m1&_&H1). apply bind_Ok in H2 as (m2&_&H2).
  apply bind_Ok in H1 as (_&_&H1). apply bind_Ok in H2 as (_&_&H2). apply bind_Ok in H1 as (_&_&H1). apply bind_Ok in H2 as (_&_&H2).
  apply bind_Ok in H1 as ([[fa ea] ra]&Ha&H1). apply bind_Ok in H2 as ([[fb eb] rb]&Hbb&H2).
  assert (fa <> None /\ fb <> None /\ ra = rb) as (Hfa&Hfb&->).
  { rewrite <-Hh in Hbb. destruct (a_first a) as [t|], (a_first b) as [t'|].
    - destruct (a_high a) as [hb|]; [|done]. inv_ok; split_and!; try done; congruence.
    - exfalso. by apply proj2 in Hf; specialize (Hf eq_refl).
    - exfalso. by apply proj1 in Hf; specialize (Hf eq_refl).
    - inv_ok. done. }
  injection H1 as <- <-. injection H2 as <- <-. split; [|done]. apply same_save; [done|]. unfold same_but_times. cbn.
  split_and!; done.
Qed.
Lemma settle_same coll tok : execute_settle_auction p lb v1 e1 f st1 coll tok = Ok (st1', ms1) ->
  execute_settle_auction p lb v2 e2 f st2 coll tok = Ok (st2', ms2) ->
  (nft_moves ms1 <> [] -> nft_moves ms2 <> [] -> same_auctions st1' st2' /\ nft_moves ms1 = nft_moves ms2) /\
  (nft_moves ms1 = [] -> nft_moves ms2 = [] -> same_auctions st1' st2').
Proof.
  unfold execute_settle_auction. intros H1 H2. apply bind_Ok in H1 as (_&_&H1). apply bind_Ok in H2 as (_&_&H2).
  apply bind_Ok in H1 as (a&La&H1). apply bind_Ok in H2 as (b&Lb&H2).
  pose proof (same_get _ _ _ _ _ Hb (load_Ok _ _ _ La) (load_Ok _ _ _ Lb)) as Hs. pose proof Hs as (C&T&S&R&D&F&Hh&Hf).
  unfold settle_auction in H1, H2. destruct (a_end a) as [ta|]; [|done]. destruct (a_end b) as [tb|]; [|done].
  apply bind_Ok in H1 as (_&_&H1). apply bind_Ok in H2 as (_&_&H2).
  assert (forall st v c a st' ms, (match a_high a with
      | Some hb => roy ← load_collection_royalties p lb v (a_coll a); resp ← payout_nft_sale_fees lb (hb_coin hb) (funds_recipient a) c roy [];
                   Ok (remove_auction st a, transfer_nft (a_coll a) (a_tok a) (hb_bidder hb) resp)
      | None => Err EPanic end) = Ok (st', ms) ->
    exists hb, a_high a = Some hb /\ st' = remove_auction st a /\ nft_moves ms = [(a_coll a, a_tok a, hb_bidder hb)]) as Hsale.
  { intros st v c au st' ms H. destruct (a_high au) as [hb|]; [|done]. apply bind_Ok in H as (roy&_&H). apply bind_Ok in H as (resp&Hp%mv_payout&H).
    injection H as <- <-. exists hb. split_and!; [done|done|]. unfold transfer_nft. by rewrite moves_app, Hp. }
  destruct (within_halt_window (s_halt st1) _), (within_halt_window (s_halt st2) _).
  - apply bind_Ok in H1 as (ea&_&[= <- <-]). apply bind_Ok in H2 as (eb&_&[= <- <-]). split; [done|]. intros _ _. apply same_save; [done|].
    unfold same_but_times. cbn. split_and!; done.
  - apply bind_Ok in H1 as (ea&_&[= <- <-]). apply Hsale in H2 as (hb&_&_&->). done.
  - apply bind_Ok in H2 as (ea&_&[= <- <-]). apply Hsale in H1 as (hb&_&_&->). done.
  - apply Hsale in H1 as (h1&G1&->&M1). apply Hsale in H2 as (h2&G2&->&M2). rewrite M1, M2. assert (h2 = h1) as -> by congruence.
    split; [|done]. intros _ _. split; [by apply same_remove|]. by rewrite C, T.
Qed.
End Two.
Lemma same_sale st1 st2 v1 v2 e1 e2 s f m st1' st2' ms1 ms2 : same_auctions st1 st2 ->
  execute p lb v1 e1 s f st1 m = Ok (st1', ms1) -> execute p lb v2 e2 s f st2 m = Ok (st2', ms2) ->
  (settles m = true -> (nft_moves ms1 = [] <-> nft_moves ms2 = [])) ->
  same_auctions st1' st2' /\ nft_moves ms1 = nft_moves ms2 /\ (forall coll tok, m = PlaceBid coll tok -> ms1 = ms2).
Proof.
  intros Hb H1 H2 Hm. destruct m; cbn [execute] in H1, H2;
    apply bind_Ok in H1 as (c1&Hc1&H1); apply bind_Ok in H2 as (c2&Hc2&H2); assert (c2 = c1) as -> by congruence.
  - apply bind_Ok in H1 as (r1&Hr1&H1). apply bind_Ok in H2 as (r2&Hr2&H2). assert (r2 = r1) as -> by congruence.
    destruct (create_same _ _ Hb _ _ _ _ _ _ _ _ _ _ _ _ _ _ _ H1 H2) as [??]. done.
  - destruct (reprice_same _ _ Hb _ _ _ _ _ _ _ _ _ H1 H2) as (?&?&?). done.
  - destruct (cancel_same _ _ Hb _ _ _ _ _ _ _ _ H1 H2) as (?&?&?). done.
  - destruct (bid_same _ _ Hb _ _ _ _ _ _ _ _ _ _ H1 H2) as (?&->). done.
  - specialize (Hm eq_refl). destruct (settle_same _ _ Hb _ _ _ _ _ _ _ _ _ _ _ H1 H2) as [G1 G2].
    destruct (nft_moves ms1) as [|x1 l1] eqn:E1.
    + rewrite (proj1 Hm eq_refl) in *. split_and!; [by apply G2|done|done].
    + destruct (nft_moves ms2) as [|x2 l2] eqn:E2; [by discriminate (proj2 Hm eq_refl)|].
      destruct G1 as [? ?]; [done|done|]. split_and!; done.
Qed.
End House.
