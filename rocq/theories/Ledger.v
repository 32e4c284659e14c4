(** Facts about the sums of LedgerSpec. *)
From Verif Require Import Base BaseFacts Common Chain ChainFacts LedgerSpec.

Lemma sum_over_app {A} (f : A -> N) l1 l2 : sum_over f (l1 ++ l2) = sum_over f l1 + sum_over f l2.
Proof. induction l1 as [|x l IH]; [done|]. cbn [app sum_over]. rewrite IH. lia. Qed.
Lemma sum_over_ext {A} (f g : A -> N) l : (forall x, x ∈ l -> f x = g x) -> sum_over f l = sum_over g l.
Proof.
  induction l as [|x l IH]; intros H; [done|]. cbn [sum_over].
  rewrite (H x), IH; [done| |left]. intros y Hy. apply H. by right.
Qed.
Lemma sum_over_zero {A} (f : A -> N) l : (forall x, x ∈ l -> f x = 0) -> sum_over f l = 0.
Proof.
  induction l as [|x l IH]; intros H; [done|]. cbn [sum_over].
  rewrite (H x), IH; [done| |left]. intros y Hy. apply H. by right.
Qed.

Section Total.
Context {K A : Type} `{Countable K}.
Implicit Types (f g : K -> A -> N) (m : gmap K A).

Lemma total_empty f : total f ∅ = 0.
Proof. unfold total. by rewrite map_fold_empty. Qed.
Lemma total_insert_new f m k x : m !! k = None -> total f (<[k := x]> m) = f k x + total f m.
Proof. intros Hk. unfold total. rewrite map_fold_insert_L; [done|intros; lia|done]. Qed.
Lemma total_delete f m k x : m !! k = Some x -> total f m = f k x + total f (delete k m).
Proof.
  intros Hk. rewrite <- (insert_delete m k x Hk) at 1. apply total_insert_new. by rewrite lookup_delete.
Qed.
Lemma total_put f m k x y : m !! k = Some x -> total f (<[k := y]> m) + f k x = total f m + f k y.
Proof.
  intros Hk. rewrite (total_delete f m k x Hk), (total_delete f (<[k:=y]> m) k y) by (by rewrite lookup_insert).
  rewrite delete_insert_delete. lia.
Qed.
Lemma total_ext f g m : (forall k x, m !! k = Some x -> f k x = g k x) -> total f m = total g m.
Proof.
  induction m as [|k x m Hk IH] using map_ind; intros Hfg; [by rewrite !total_empty|].
  rewrite !total_insert_new by done. rewrite (Hfg k x) by (by rewrite lookup_insert). rewrite IH; [done|].
  intros k' x' Hk'. apply Hfg. rewrite lookup_insert_ne; [done|]. intros ->. congruence.
Qed.
Lemma total_zero f m : (forall k x, m !! k = Some x -> f k x = 0) -> total f m = 0.
Proof.
  induction m as [|k x m Hk IH] using map_ind; intros Hf; [by rewrite total_empty|].
  rewrite total_insert_new by done. rewrite (Hf k x) by (by rewrite lookup_insert). rewrite IH; [done|].
  intros k' x' Hk'. apply Hf. rewrite lookup_insert_ne; [done|]. intros ->. congruence.
Qed.
Lemma total_le f m k x : m !! k = Some x -> f k x <= total f m.
Proof. intros Hk. rewrite (total_delete f m k x Hk). lia. Qed.

(** Entries that stay keep their value, and nothing is new: the difference is what is gone. *)
Lemma gone_split f m m' :
  (forall k, match m !! k, m' !! k with Some x, Some y => f k x = f k y | None, Some _ => False | _, None => True end) ->
  total f m = total f m' + gone f m m'.
Proof.
  revert m'. induction m as [|k x m Hk IH] using map_ind; intros m' Hs.
  - assert (m' = ∅) as ->.
    { apply map_eq. intros k. rewrite lookup_empty. specialize (Hs k). rewrite lookup_empty in Hs. by destruct (m' !! k). }
    unfold gone. by rewrite !total_empty.
  - rewrite total_insert_new by done. unfold gone. rewrite total_insert_new by done.
    assert (total f m = total f (delete k m') + gone f m (delete k m')) as ->.
    { apply IH. intros k'. specialize (Hs k'). destruct (decide (k' = k)) as [->|Hn].
      - rewrite Hk, lookup_delete. done.
      - rewrite lookup_insert_ne in Hs by done. by rewrite lookup_delete_ne. }
    assert (gone f m (delete k m') = total (fun k x => match m' !! k with None => f k x | Some _ => 0 end) m) as ->.
    { apply total_ext. intros k' x' Hk'. rewrite lookup_delete_ne; [done|]. intros ->. congruence. }
    specialize (Hs k). rewrite lookup_insert in Hs. destruct (m' !! k) as [y|] eqn:E.
    + rewrite (total_delete f m' k y E), Hs. lia.
    + rewrite delete_notin by done. lia.
Qed.
Lemma gone_none f m m' : (forall k x, m !! k = Some x -> is_Some (m' !! k)) -> gone f m m' = 0.
Proof. intros Hm. apply total_zero. intros k x Hk. by destruct (Hm k x Hk) as [y ->]. Qed.
Lemma gone_delete f m k x : m !! k = Some x -> gone f m (delete k m) = f k x.
Proof.
  intros Hk. unfold gone. rewrite (total_delete _ m k x Hk), lookup_delete.
  rewrite total_zero; [lia|]. intros k' x' Hk'. by rewrite Hk'.
Qed.
Lemma gone_same f m : gone f m m = 0.
Proof. apply gone_none. intros k x ->. eauto. Qed.
Lemma gone_insert f m k x : gone f m (<[k := x]> m) = 0.
Proof. apply gone_none. intros k' x' Hk'. rewrite lookup_insert_is_Some. destruct (decide (k = k')); eauto. Qed.
End Total.

Lemma coins_of_app d cs cs' : coins_of d (cs ++ cs') = coins_of d cs + coins_of d cs'.
Proof. apply sum_over_app. Qed.
Lemma sent_to_app u d ms ms' : sent_to u d (ms ++ ms') = sent_to u d ms + sent_to u d ms'.
Proof. apply sum_over_app. Qed.
Lemma leaving_app d ms ms' : leaving d (ms ++ ms') = leaving d ms + leaving d ms'.
Proof. apply sum_over_app. Qed.

Lemma leaving_out d ms : leaving d ms = out ms d.
Proof.
  unfold leaving. induction ms as [|m ms IH]; [done|]. cbn [sum_over out]. rewrite IH. f_equal.
  destruct m; cbn [out_one]; try done.
  - induction coins as [|c cs IHc]; [done|]. cbn [amt]. rewrite <- IHc. unfold coins_of. cbn [sum_over]. f_equal.
    unfold of_denom. case_decide; case_bool_decide; done.
  - cbn [amt]. unfold of_denom. case_decide; case_bool_decide; try done; lia.
Qed.
Lemma coins_amt d cs : coins_of d cs = amt cs d.
Proof.
  induction cs as [|c cs IHc]; [done|]. cbn [amt]. rewrite <- IHc. unfold coins_of. cbn [sum_over]. f_equal.
  unfold of_denom. case_decide; case_bool_decide; done.
Qed.

(** ** The last NFT transfer *)
Definition is_nft (x : cmsg) : bool := match x with MNft _ _ _ => true | _ => false end.
Lemma after_nft_none ms : Forall (fun m => is_nft m = false) ms -> after_nft ms = ms.
Proof.
  induction ms as [|m ms IH]; intros Hf; [done|]. apply Forall_cons in Hf as [Hm Hf]. cbn [after_nft].
  assert (existsb (fun x => match x with MNft _ _ _ => true | _ => false end) ms = false) as ->.
  { clear - Hf. induction Hf as [|m ms Hm _ IH]; [done|]. cbn [existsb]. rewrite IH. by destruct m. }
  by destruct m.
Qed.
Lemma after_nft_app ms c t to post : Forall (fun m => is_nft m = false) post -> after_nft (ms ++ MNft c t to :: post) = post.
Proof.
  intros Hf. induction ms as [|m ms IH].
  - cbn [app after_nft].
    assert (existsb (fun x => match x with MNft _ _ _ => true | _ => false end) post = false) as ->; [|done].
    clear - Hf. induction Hf as [|m ms Hm _ IH]; [done|]. cbn [existsb]. rewrite IH. by destruct m.
  - cbn [app after_nft].
    assert (existsb (fun x => match x with MNft _ _ _ => true | _ => false end) (ms ++ MNft c t to :: post) = true) as ->; [|done].
    rewrite existsb_app. cbn [existsb]. by rewrite orb_true_r.
Qed.
Lemma upto_nft_none ms : Forall (fun m => is_nft m = false) ms -> upto_nft ms = [].
Proof. intros Hf. unfold upto_nft. rewrite after_nft_none by done. by rewrite Nat.sub_diag. Qed.
Lemma upto_nft_app ms c t to post : Forall (fun m => is_nft m = false) post ->
  upto_nft (ms ++ MNft c t to :: post) = ms ++ [MNft c t to].
Proof.
  intros Hf. unfold upto_nft. rewrite after_nft_app by done.
  replace (ms ++ MNft c t to :: post) with ((ms ++ [MNft c t to]) ++ post) by (by rewrite <- app_assoc).
  rewrite (app_length _ post), Nat.add_sub. by rewrite take_app.
Qed.
