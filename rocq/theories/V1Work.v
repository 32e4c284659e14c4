(** Marketplace v1: a call sends few messages besides the hooks of one list, and changes few entries. *)
From Verif Require Import Base BaseFacts Common V1Model V1Spec V1Facts WorkSpec Work.

Lemma erase_plain l : map erase (map SPlain l) = l.
Proof. rewrite map_map. cbn. apply map_id. Qed.
Lemma erase_hooks c l : map erase (map (fun h => SHook h c) l) = hook_msgs l.
Proof. by rewrite map_map. Qed.
Lemma called_hooks l : called (hook_msgs l) = l.
Proof. induction l as [|h l IH]; cbn; [done|]. by f_equal. Qed.
Lemma hooks_none f l : (forall h, f (MHook h) = false) -> how_many f (hook_msgs l) = 0%nat.
Proof. intros Hf. apply how_many_none. apply Forall_forall. intros m (h&->&_)%elem_of_list_fmap. apply Hf. Qed.
Lemma hooks_work l : at_most 0 0 0 0 (length l) (hook_msgs l).
Proof. unfold at_most. rewrite !hooks_none by done. rewrite called_count, called_hooks. lia. Qed.
Lemma split_work x sp finder to : at_most 3 0 0 1 0 (split_msgs x sp finder to).
Proof.
  unfold split_msgs, at_most. destruct ((x_fee sp =? 0) && x_zero_burn x), finder, (x_finder sp =? 0), (x_royalty sp) as [[? ?]|]; cbn; lia.
Qed.
Lemma split_called x sp finder to : called (split_msgs x sp finder to) = [].
Proof.
  unfold split_msgs. destruct ((x_fee sp =? 0) && x_zero_burn x), finder, (x_finder sp =? 0), (x_royalty sp) as [[? ?]|]; cbn; done.
Qed.
Lemma refund_work st coll tok who : at_most 1 0 0 0 0 (refund_of st coll tok who).
Proof. unfold refund_of, at_most. destruct (_ !! _); cbn; lia. Qed.
Lemma refund_called st coll tok who : called (refund_of st coll tok who) = [].
Proof. unfold refund_of. by destruct (_ !! _). Qed.

Section Work.
Context (p : params) (x : ext).

Lemma work v e s f st m st' msgs : execute p x v e s f st m = Ok (st', msgs) ->
  at_most 4 1 0 1 (length (called msgs)) msgs /\ (length msgs <= 6 + length (called msgs))%nat /\
  (called msgs = s_ask_hooks st \/ called msgs = s_bid_hooks st \/ called msgs = s_cbid_hooks st \/ called msgs = s_sale_hooks st) /\
  changes 1 (s_asks st) (s_asks st') /\ changes 1 (s_bids st) (s_bids st') /\ changes 1 (s_cbids st) (s_cbids st').
Proof.
  intros H. unfold execute in H. apply bind_Ok in H as ([st1 ms]&H&E). injection E as <- <-. cbn [fst snd].
  apply execute_effect in H.
  assert (exists pre hs, map erase ms = pre ++ hook_msgs hs /\ called pre = [] /\ at_most 4 1 0 1 0 pre /\
    (hs = s_ask_hooks st \/ hs = s_bid_hooks st \/ hs = s_cbid_hooks st \/ hs = s_sale_hooks st)) as (pre&hs&Hms&Hcp&Hp&Hhs).
  { destruct H; rewrite ?map_app; unfold plain_msgs, sold_smsgs, ask_hooks, bid_hooks, cbid_hooks, sale_hooks;
      rewrite ?erase_plain, ?erase_hooks, ?app_assoc; try rewrite <-(app_nil_l (hook_msgs _)).
    all: eexists _, _; split; [reflexivity|].
    all: split_and!; [| |by auto].
    all: try (rewrite ?called_app, ?split_called, ?refund_called; cbn; repeat case_match; done).
    all: try (repeat match goal with |- context [split_msgs ?x ?sp ?f ?t] => lazymatch goal with
      | _ : at_most _ _ _ _ _ (split_msgs x sp f t) |- _ => fail | _ => pose proof (split_work x sp f t) end end).
    all: try (repeat match goal with |- context [refund_of ?a ?b ?c ?d] => lazymatch goal with
      | _ : at_most _ _ _ _ _ (refund_of a b c d) |- _ => fail | _ => pose proof (refund_work a b c d) end end).
    all: unfold at_most in *; rewrite ?how_many_app in *; cbn; try lia.
    all: repeat case_match; cbn; lia. }
  rewrite Hms, called_app, Hcp, app_nil_l, called_hooks.
  assert (at_most 4 1 0 1 (length hs) (pre ++ hook_msgs hs)) as Hm.
  { eapply at_most_le; [apply (at_most_app _ _ _ _ _ _ _ _ _ _ _ _ Hp (hooks_work hs))|lia..]. }
  split_and!; [done| |done|..].
  - rewrite kinds_sum. unfold at_most in Hm. lia.
  - destruct H; cbn [s_asks store_ask remove_ask set_asks store_bid remove_bid set_bids store_cbid remove_cbid set_cbids];
      first [apply changes_same|apply changes_insert|apply changes_delete].
  - destruct H; cbn [s_bids store_ask remove_ask set_asks store_bid remove_bid set_bids store_cbid remove_cbid set_cbids];
      first [apply changes_same|apply changes_insert|apply changes_delete|apply changes_insert_delete].
  - destruct H; cbn [s_cbids store_ask remove_ask set_asks store_bid remove_bid set_bids store_cbid remove_cbid set_cbids];
      first [apply changes_same|apply changes_insert|apply changes_delete|apply changes_insert_delete].
Qed.
End Work.
