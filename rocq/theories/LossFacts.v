(** An NFT that a response sends is where it was sent afterwards. *)
From Verif Require Import Base BaseFacts Common Chain ChainFacts LedgerSpec NftBooksSpec TxSpec TxFacts TheftSpec.

Lemma moved_once p ms c t to : p_honest p c = true -> NoDup (honest_out p ms) -> MNft c t to ∈ ms -> moved_to c t ms = Some to.
Proof.
  intros Hh. induction ms as [|m ms IH]; intros Hn Hin; [by apply elem_of_nil in Hin|]. rewrite moved_to_cons.
  change (m :: ms) with ([m] ++ ms) in Hn. rewrite honest_out_app in Hn. apply NoDup_app in Hn as (_&Hx&Hn).
  apply elem_of_cons in Hin as [<-|Hin]; [|by rewrite (IH Hn Hin)].
  assert (moved_to c t ms = None) as ->; [|by rewrite decide_True].
  assert ((c, t) ∉ honest_out p ms) as Hno by (apply Hx; unfold honest_out; cbn; rewrite Hh; left).
  clear - Hno Hh. induction ms as [|m ms IH]; [done|]. rewrite moved_to_cons.
  change (m :: ms) with ([m] ++ ms) in Hno. rewrite honest_out_app, not_elem_of_app in Hno. destruct Hno as [H1 H2]. rewrite (IH H2).
  destruct m as [|c' t' to'| | |]; try done. rewrite decide_False; [done|]. intros [-> ->]. apply H1. unfold honest_out. cbn. rewrite Hh. left.
Qed.
Lemma delivered {S} p (w : world S) sender funds st' ms w' c t to : settled_as p w sender funds st' ms w' -> p_honest p c = true ->
  NoDup (honest_out p ms) -> MNft c t to ∈ ms -> w_nft w' c t = Some to.
Proof. intros H Hh Hn Hin. rewrite (sa_nft _ _ _ _ _ _ _ H), (moved_once p ms c t to Hh Hn Hin). by rewrite Hh. Qed.
Lemma bank_kept {S} p (w : world S) sender funds st' ms w' u d : settled_as p w sender funds st' ms w' -> u <> sender -> u <> p_self p ->
  w_bank w' u d = w_bank w u d + sent_to u d ms.
Proof. intros H H1 H2. pose proof (sa_bank _ _ _ _ _ _ _ H u d) as E. rewrite !decide_False in E by done. lia. Qed.
Lemma moved_in c t ms to : moved_to c t ms = Some to -> MNft c t to ∈ ms.
Proof.
  induction ms as [|m ms IH]; [done|]. rewrite moved_to_cons. destruct (moved_to c t ms) as [y|].
  - intros [= ->]. right. by apply IH.
  - destruct m as [|c' t' to'| | |]; try done. destruct (decide _) as [[-> ->]|]; [|done]. intros [= ->]. left.
Qed.
Lemma moved_moves c t ms : moved_to c t ms = last (moves (c, t) ms).
Proof.
  unfold moved_to, moves. f_equal. induction ms as [|m ms IH]; [done|]. destruct m as [|c' t' to'| | |]; try exact IH.
  cbn. rewrite IH. destruct (decide (c' = c /\ t' = t)) as [[-> ->]|Hn]; [by rewrite decide_True|]. rewrite decide_False; [done|].
  intros [= -> ->]. by apply Hn.
Qed.
Lemma not_moved {S} p (w : world S) sender funds st' ms w' c t : settled_as p w sender funds st' ms w' -> moved_to c t ms = None -> nft_left w w' c t.
Proof. intros H E. split; [|intros x]; [rewrite (sa_nft _ _ _ _ _ _ _ H)|rewrite (sa_appr _ _ _ _ _ _ _ H)]; by rewrite E. Qed.
