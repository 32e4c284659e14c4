(** The NFT books of the reserve auction. *)
From stdpp Require Import relations.
From Verif Require Import Base BaseFacts Common Chain ChainFacts QuerySpec SaleFacts LedgerSpec NftBooksSpec RAModel RASpec RAFacts RAInv
  RAReach RAIndex RAExactSpec RAExact RALedgerSpec RALedger RANftSpec.

Section RANft.
Context (p : params) (lb : lib).

Lemma moves_app k l l' : moves k (l ++ l') = moves k l ++ moves k l'.
Proof. apply omap_app. Qed.
Lemma moves_one (k : akey) c t to : moves k [MNft c t to] = if decide (k = (c, t)) then [to] else [].
Proof. cbn. destruct (decide (k = (c, t))); by case_decide. Qed.
Lemma moves_fee k o : moves k (fee_burnt o) = [].
Proof. unfold fee_burnt. by case_decide. Qed.
Lemma moves_settlement (k : nft) a hb sp : moves k (settlement a hb sp) = if decide (k = (a_coll a, a_tok a)) then [hb_bidder hb] else [].
Proof.
  unfold settlement, burn_part, pay_part. rewrite !moves_app. repeat case_match; cbn; repeat case_decide; done.
Qed.
Lemma moves_bid now cfg s n a a' ms (k : nft) : bid_result now cfg s n a a' ms -> moves k ms = [].
Proof. by intros []. Qed.
Lemma moves_outcome v now cfg h a o ms (k : nft) : outcome lb v now cfg h a o ms ->
  (moves k ms = [] /\ is_Some o) \/
  (o = None /\ exists hb, a_high a = Some hb /\ moves k ms = if decide (k = (a_coll a, a_tok a)) then [hb_bidder hb] else []).
Proof.
  intros [t _ _ _ _|t hb sp _ _ _ Hh _ _]; [left; split; [done|by eexists]|]. right. split; [done|]. exists hb. split; [done|].
  apply moves_settlement.
Qed.
Lemma no_moves v now cfg h (k : nft) l os :
  Forall2 (fun a o => handled p lb v now cfg h a (fst o) (snd o)) l os ->
  (forall a, a ∈ l -> (a_coll a, a_tok a) <> k) -> moves k (concat (snd <$> os)) = [].
Proof.
  induction 1 as [|a o l os [Ho _] _ IH]; intros Hk; [done|]. cbn [fmap list_fmap concat]. rewrite moves_app, IH by (intros; apply Hk; by right).
  rewrite app_nil_r. destruct (moves_outcome _ _ _ _ _ _ _ k Ho) as [[-> _]|(_&hb&_&->)]; [done|].
  rewrite decide_False; [done|]. intros ->. eapply Hk; [by left|done].
Qed.
Lemma block_moves v now cfg h (k : nft) st st' l os :
  Forall2 (fun a o => handled p lb v now cfg h a (fst o) (snd o)) l os -> NoDup ((fun a => (a_coll a, a_tok a)) <$> l) ->
  (forall a, a ∈ l -> s_auctions st !! (a_coll a, a_tok a) = Some a) ->
  (forall i a o, l !! i = Some a -> os !! i = Some o -> s_auctions st' !! (a_coll a, a_tok a) = fst o) ->
  (exists a, a ∈ l /\ (a_coll a, a_tok a) = k) ->
  moves k (concat (snd <$> os)) = due_moves (p_self p) st st' k.
Proof.
  induction 1 as [|a o l os [Ho Hr] HF IH]; intros Hnd Hst Hd (b&Hb&Hk); [by apply elem_of_nil in Hb|].
  cbn [fmap list_fmap concat] in *. rewrite moves_app. apply NoDup_cons in Hnd as [Hni Hnd].
  destruct (decide ((a_coll a, a_tok a) = k)) as [E|E].
  - rewrite (no_moves v now cfg h k l os HF), app_nil_r.
    2:{ intros a' Ha' E'. apply Hni. rewrite E, <- E'. by apply (elem_of_list_fmap_1 (fun a => (a_coll a, a_tok a))). }
    assert (s_auctions st !! (k : akey) = Some a) as Ha by (rewrite <- E; apply (Hst a); by left).
    assert (s_auctions st' !! (k : akey) = fst o) as Ha' by (rewrite <- E; by apply (Hd 0%nat a o)).
    unfold due_moves. rewrite Ha, Ha'.
    destruct (moves_outcome _ _ _ _ _ _ _ k Ho) as [[-> [a' ->]]|(->&hb&Hhb&->)]; [done|].
    rewrite decide_True by done. unfold title. by rewrite Hhb.
  - assert (moves k (snd o) = []) as ->.
    { destruct (moves_outcome _ _ _ _ _ _ _ k Ho) as [[-> _]|(_&hb&_&->)]; [done|]. by rewrite decide_False. }
    apply IH; [done| | |].
    + intros x Hx. apply Hst. by right.
    + intros i x y Hx Hy. by apply (Hd (S i)).
    + exists b. split; [|done]. by apply elem_of_cons in Hb as [->|Hb].
Qed.
Lemma first_due_nodup st now limit l : first_due st now limit l -> NoDup ((fun a => (a_coll a, a_tok a)) <$> l).
Proof.
  intros Hfd. apply NoDup_fmap_2_strong.
  - intros a b Ha Hb E. apply (fd_due _ _ _ _ Hfd) in Ha as [Ha _], Hb as [Hb _]. cbv beta in E. rewrite E in Ha.
    pose proof (eq_trans (eq_sym Ha) Hb). congruence.
  - eapply sorted_nodup; [|exact (fd_sorted _ _ _ _ Hfd)]. intros b. apply end_before_irrefl.
Qed.
Lemma put_moves st (k k' : akey) o : due_moves (p_self p) st (put_auction st k' o) k =
  if decide (k = k') then match s_auctions st !! k, o with None, Some _ => [p_self p] | Some a, None => [title a] | _, _ => [] end else [].
Proof.
  unfold due_moves, put_auction. cbn [s_auctions]. destruct o as [a|]; case_decide; subst.
  - by rewrite lookup_insert.
  - rewrite lookup_insert_ne by done. by destruct (s_auctions st !! k).
  - by rewrite lookup_delete.
  - rewrite lookup_delete_ne by done. by destruct (s_auctions st !! k).
Qed.
Lemma same_moves st st' (k : akey) : s_auctions st' !! k = s_auctions st !! k -> due_moves (p_self p) st st' k = [].
Proof. intros E. unfold due_moves. rewrite E. by destruct (s_auctions st !! k). Qed.

Lemma step_moves st st' h (k : akey) : ra_history p lb st -> recorded p lb st st' h -> moves k (e_msgs h) = due_moves (p_self p) st st' k.
Proof.
  intros Hst [v e s f m ms Hs H|v e m ms H]; cbn [e_msgs].
  - apply (calls_sound p lb st Hst) in H.
    destruct H as [coll tok reserve duration recipient Hmo Hpf|coll tok reserve b mn -> Hb Hse Hbi Hmn Hle
      |coll tok b -> Hb Hse Hbi|coll tok b n a' ms Hb Hse -> Hn Hr Hend|coll tok b o ms -> Hb [Hout _]]; rewrite put_moves.
    + rewrite moves_app, moves_fee, moves_one. cbn [app]. destruct (decide (k = (coll, tok))) as [->|E]; [|done].
      assert (s_auctions st !! ((coll, tok) : akey) = None) as -> by apply (mo_free _ _ _ _ _ _ _ _ _ _ _ Hmo). done.
    + destruct (decide (k = (coll, tok))) as [->|E]; [|done].
      assert (s_auctions st !! ((coll, tok) : akey) = Some b) as -> by exact Hb. done.
    + rewrite moves_one. destruct (decide (k = (coll, tok))) as [->|E]; [|done]. unfold title.
      assert (s_auctions st !! ((coll, tok) : akey) = Some b) as -> by exact Hb. by rewrite Hbi, Hse.
    + rewrite (moves_bid _ _ _ _ _ _ _ k Hr). destruct (decide (k = (coll, tok))) as [->|E]; [|done].
      assert (s_auctions st !! ((coll, tok) : akey) = Some b) as -> by exact Hb. done.
    + destruct (stored p lb st Hst _ _ Hb) as [Hk _]. unfold a_key in Hk. injection Hk as <- <-.
      destruct (decide (k = (a_coll b, a_tok b))) as [->|E].
      * assert (s_auctions st !! ((a_coll b, a_tok b) : akey) = Some b) as -> by exact Hb.
        destruct (moves_outcome _ _ _ _ _ _ _ (a_coll b, a_tok b) Hout) as [[-> [a' ->]]|(->&hb&Hhb&->)]; [done|].
        rewrite decide_True by done. unfold title. by rewrite Hhb.
      * destruct (moves_outcome _ _ _ _ _ _ _ k Hout) as [[-> _]|(_&hb&_&->)]; [done|]. by rewrite decide_False.
  - apply (sudo_sound p lb st Hst) in H.
    destruct H as [Hp _ _|Hp _|l0 os st1 Hfd HF [_ _ Hdone Hother] _ _|m0 st1 Hg].
    + by rewrite same_moves.
    + by rewrite same_moves.
    + destruct (decide (Exists (fun b => (a_coll b, a_tok b) = k) l0)) as [HE|HE].
      * eapply block_moves; try done.
        -- eapply first_due_nodup. exact Hfd.
        -- intros a Ha. apply (proj1 (fd_due _ _ _ _ Hfd a Ha)).
        -- by apply Exists_exists in HE.
      * assert (forall b, b ∈ l0 -> (a_coll b, a_tok b) <> k) as Hn by (intros b Hb Hk; apply HE, Exists_exists; eauto).
        rewrite (no_moves _ _ _ _ _ _ _ HF Hn), same_moves; [done|]. by apply Hother.
    + assert (s_auctions st1 = s_auctions st) as He by (by destruct Hg). rewrite same_moves; [done|]. by rewrite He.
Qed.
Lemma entry_moves st l h (k : akey) : trace p lb st l -> h ∈ l ->
  moves k (e_msgs h) = due_moves (p_self p) (e_before h) (e_after h) k.
Proof. intros Ht Hh. destruct (entry_recorded _ _ _ _ _ Ht Hh) as [Hst H]. by apply step_moves. Qed.

Lemma title_not_self st k a : ra_history p lb st -> s_auctions st !! k = Some a -> title a <> p_self p.
Proof.
  intros Hst Ha. destruct (stored p lb st Hst _ _ Ha) as [_ Hok]. unfold title. destruct (a_high a) as [hb|] eqn:E.
  - by destruct (aok_bid _ _ Hok _ E) as (_&_&_&?).
  - by apply (aok_seller _ _ Hok).
Qed.
Lemma nft_books st l (k : akey) : trace p lb st l -> in_and_out (p_self p) (all_moves k l) (bool_decide (is_Some (s_auctions st !! k))).
Proof.
  induction 1 as [c mins st H|st l h st' Ht IH H].
  - unfold all_moves. cbn. unfold instantiate in H. inv_ok. cbn [s_auctions]. rewrite lookup_empty, bool_decide_false; [constructor|]. by intros [? ?].
  - pose proof (trace_history _ _ _ _ Ht) as Hst. unfold all_moves in *. rewrite fmap_app, concat_app. cbn [fmap list_fmap concat].
    rewrite app_nil_r, (step_moves _ _ _ k Hst H). unfold due_moves.
    destruct (s_auctions st !! k) as [a|] eqn:E1, (s_auctions st' !! k) as [a'|] eqn:E2.
    + rewrite app_nil_r. by rewrite !bool_decide_true in * by by eexists.
    + rewrite bool_decide_true in IH by by eexists. rewrite bool_decide_false by by intros [? ?].
      apply given; [done|]. by eapply title_not_self.
    + rewrite bool_decide_false in IH by by intros [? ?]. rewrite bool_decide_true by by eexists. by apply taken.
    + rewrite app_nil_r. by rewrite !bool_decide_false in * by by intros [? ?].
Qed.
End RANft.
