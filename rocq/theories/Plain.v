(** Dispatch of messages that run no foreign code: bank sends, burns and transfers of standard NFTs. *)
From stdpp Require Import relations.
From Verif Require Import Base Common Chain BaseFacts ChainFacts.

(** Coins that a message list pays to an account. *)
Fixpoint credit (ms : list cmsg) (x : addr) (d : denom) : N :=
  match ms with
  | [] => 0
  | MSend to cs :: ms => (if decide (to = x) then amt cs d else 0) + credit ms x d
  | _ :: ms => credit ms x d
  end.
(** The account that a message list finally moves an NFT to, if any. *)
Fixpoint moved (ms : list cmsg) (c : addr) (t : token) : option addr :=
  match ms with
  | [] => None
  | MNft c' t' to :: ms =>
      match moved ms c t with
      | Some x => Some x
      | None => if decide (c' = c /\ t' = t) then Some to else None
      end
  | _ :: ms => moved ms c t
  end.
Definition nfts (ms : list cmsg) : list (addr * token) :=
  omap (fun m => match m with MNft c t _ => Some (c, t) | _ => None end) ms.

Lemma credit_app ms1 ms2 x d : credit (ms1 ++ ms2) x d = credit ms1 x d + credit ms2 x d.
Proof. induction ms1 as [|m ms1 IH]; cbn; [lia|]. destruct m; rewrite IH; lia. Qed.
Lemma moved_none ms c t : (c, t) ∉ nfts ms -> moved ms c t = None.
Proof.
  induction ms as [|m ms IH]; [done|]. destruct m; cbn; try exact IH.
  intros H. apply not_elem_of_cons in H as [H1 H2]. rewrite IH by done. rewrite decide_False; [done|]. intros [-> ->]. done.
Qed.
Lemma nfts_app ms1 ms2 : nfts (ms1 ++ ms2) = nfts ms1 ++ nfts ms2.
Proof. apply omap_app. Qed.
Lemma moved_app ms1 ms2 c t :
  moved (ms1 ++ ms2) c t = match moved ms2 c t with Some x => Some x | None => moved ms1 c t end.
Proof.
  induction ms1 as [|m ms1 IH]; cbn; [by destruct (moved ms2 c t)|]. destruct m; rewrite ?IH; try done.
  by destruct (moved ms2 c t).
Qed.

Section Plain.
Context {S M : Type} (p : params).
Context (handler : view -> env -> addr -> list coin -> S -> M -> result (S * list cmsg)).
Implicit Types w : world S.

Definition plain (m : cmsg) : Prop :=
  match m with
  | MSend _ _ | MFairBurn _ => True
  | MNft c _ _ => p_honest p c = true
  | _ => False
  end.

Lemma bank_move_eq (b : bank) self to cs x d : covers b self cs = true ->
  bank_move b self to cs x d + (if decide (x = self) then amt cs d else 0) = b x d + (if decide (to = x) then amt cs d else 0).
Proof.
  intros Hc. pose proof (proj1 (covers_spec _ _ _) Hc d) as H. unfold bank_move, bank_add, bank_sub.
  destruct (decide (x = self)) as [->|Hx].
  - rewrite (bool_decide_eq_true_2 (self = self)) by done. destruct (decide (to = self)) as [->|Ht].
    + rewrite bool_decide_eq_true_2 by done. lia.
    + rewrite bool_decide_eq_false_2 by congruence. lia.
  - rewrite (bool_decide_eq_false_2 (x = self)) by done. destruct (decide (to = x)) as [->|Ht].
    + rewrite bool_decide_eq_true_2 by done. lia.
    + rewrite bool_decide_eq_false_2 by congruence. lia.
Qed.

Lemma dispatch_plain w ms w' : dispatch p handler w ms w' -> Forall plain ms ->
  w_st w' = w_st w /\ w_time w' = w_time w /\ w_height w' = w_height w /\ w_ora w' = w_ora w /\
  (forall x d, w_bank w' x d + (if decide (x = p_self p) then out ms d else 0) = w_bank w x d + credit ms x d) /\
  (forall c t, w_nft w' c t = match moved ms c t with Some o => Some o | None => w_nft w c t end).
Proof.
  induction 1 as [w|w to cs ms w' Hok Hc Hd IH|w c t to ms w' Hs Hh Hct Hd IH|w c t to ms w1 w' Hs Hh Ha Hd IH
    |w r c ms w1 w' Hr He Hd IH|w r c ms w1 w' Hr He Hd IH|w c ms w' Hp Hc Hd IH|w h ms w1 w' Ha Hd IH]; intros Hpl.
  - split_and!; try done. intros x d. cbn. destruct (decide _); lia.
  - apply Forall_cons in Hpl as [_ Hpl]. destruct (IH Hpl) as (H1&H2&H3&H4&H5&H6). cbn -[bank_move] in *.
    split_and!; try done. intros x d. specialize (H5 x d). pose proof (bank_move_eq _ _ to _ x d Hc). repeat case_decide; lia.
  - apply Forall_cons in Hpl as [_ Hpl]. destruct (IH Hpl) as (H1&H2&H3&H4&H5&H6). cbn in *.
    split_and!; try done. intros c' t'. rewrite H6. destruct (moved ms c' t'); [done|].
    destruct (decide (c = c' /\ t = t')) as [[-> ->]|Hne]; [by rewrite bool_decide_eq_true_2|].
    rewrite bool_decide_eq_false_2; [done|]. intros [-> ->]. by apply Hne.
  - apply Forall_cons in Hpl as [Hp _]. cbn in Hp. congruence.
  - by apply Forall_cons in Hpl as [? _].
  - by apply Forall_cons in Hpl as [? _].
  - apply Forall_cons in Hpl as [_ Hpl]. destruct (IH Hpl) as (H1&H2&H3&H4&H5&H6). cbn -[covers] in *.
    split_and!; try done. intros x d. specialize (H5 x d). pose proof (proj1 (covers_spec _ _ _) Hc d) as Hcd. cbn in Hcd.
    unfold bank_sub in H5. cbn in H5. destruct (decide (x = p_self p)) as [->|Hx].
    + rewrite (bool_decide_eq_true_2 (p_self p = p_self p)) in H5 by done. lia.
    + rewrite (bool_decide_eq_false_2 (x = p_self p)) in H5 by done. lia.
  - by apply Forall_cons in Hpl as [? _].
Qed.

(** ** Success *)
Definition sendable (m : cmsg) : Prop :=
  match m with
  | MSend to cs => send_ok p to cs = true
  | MFairBurn c => 0 < c_amount c
  | MNft c _ _ => p_honest p c = true /\ c <> p_self p
  | _ => False
  end.
Lemma sendable_plain ms : Forall sendable ms -> Forall plain ms.
Proof. intros H. eapply Forall_impl; [exact H|]. intros m Hm. destruct m; cbn in *; tauto. Qed.

Lemma run_plain w ms :
  Forall sendable ms -> (forall d, out ms d <= w_bank w (p_self p) d) ->
  NoDup (nfts ms) -> (forall c t, (c, t) ∈ nfts ms -> w_nft w c t = Some (p_self p)) ->
  exists w', run_msgs p w ms = Ok w'.
Proof.
  revert w. induction ms as [|m ms IH]; intros w Hs Hb Hn Ho; [by eexists|].
  apply Forall_cons in Hs as [Hm Hs]. destruct m as [to cs|c t to|r c|c|h]; cbn in Hm; try done.
  - cbn -[covers send_ok bank_move]. rewrite Hm. assert (covers (w_bank w) (p_self p) cs = true) as Hc.
    { apply covers_spec. intros d. specialize (Hb d). cbn in Hb. lia. }
    rewrite Hc. cbn -[bank_move]. apply IH; try done. intros d.
    pose proof (bank_move_eq _ (p_self p) to _ (p_self p) d Hc) as He. specialize (Hb d). cbn -[bank_move] in *.
    rewrite decide_True in He by done. lia.
  - destruct Hm as [Hh Hc]. cbn. rewrite (bool_decide_eq_false_2 _ Hc). cbn. rewrite Hh. cbn in Hn, Ho.
    assert (w_nft w c t = Some (p_self p)) as Hown by (apply Ho; set_solver).
    unfold can_transfer. rewrite Hown. rewrite (bool_decide_eq_true_2 (p_self p = p_self p)) by done. cbn.
    apply NoDup_cons in Hn as [Hin Hn]. apply IH; try done. intros c' t' Hin'. cbn.
    rewrite bool_decide_eq_false_2; [apply Ho; by apply elem_of_list_further|]. intros [-> ->]. done.
  - cbn -[covers]. rewrite (proj2 (N.ltb_lt _ _) Hm). assert (covers (w_bank w) (p_self p) [c] = true) as Hc.
    { apply covers_spec. intros d. specialize (Hb d). cbn in *. lia. }
    rewrite Hc. cbn. apply IH; try done. intros d. cbn. unfold bank_sub. rewrite bool_decide_eq_true_2 by done.
    specialize (Hb d). cbn in *. lia.
Qed.
End Plain.
