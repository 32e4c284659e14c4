(** Marketplace v2: a call sends few messages and changes few entries. *)
From Verif Require Import Base BaseFacts Common SaleFacts V2Model V2Facts WorkSpec Work.

Lemma fee_payments_length sc fees rem ps fin : build_fee_payments sc fees rem = Ok (ps, fin) -> (length ps <= length fees)%nat.
Proof.
  revert rem ps fin. induction fees as [|f fees IH]; intros rem ps fin H; cbn in H; [by injection H as <- <-|].
  destruct (fee_share f =? 0); [apply IH in H; cbn; lia|].
  apply bind_Ok in H as (x&_&H). apply bind_Ok in H as (y&_&H). apply bind_Ok in H as ([ps' fin']&H&E).
  injection E as <- <-. apply IH in H. cbn. lia.
Qed.
Lemma payments_length sc s fees ps : build_payments sc s fees = Ok ps -> (length ps <= S (length fees))%nat.
Proof.
  unfold build_payments. intros H. apply bind_Ok in H as ([ps' fin]&H&E). apply fee_payments_length in H.
  destruct (fin =? 0); injection E as <-; [lia|]. rewrite app_length. cbn. lia.
Qed.
Lemma sale_fees_length cfg pf mk tk roy : (length (sale_fees cfg pf mk tk roy) <= 4)%nat.
Proof.
  unfold sale_fees. rewrite !app_length.
  destruct (0 <? pf_protocol pf), (0 <? pf_maker pf), (0 <? pf_taker pf), mk, tk, roy; cbn; lia.
Qed.
Lemma pays_sends ps : (how_many is_send (pay_msg <$> ps) = length ps /\ how_many is_nft (pay_msg <$> ps) = 0 /\
  how_many is_reg (pay_msg <$> ps) = 0 /\ how_many is_burn (pay_msg <$> ps) = 0 /\ how_many is_hook (pay_msg <$> ps) = 0)%nat.
Proof. induction ps as [|pm ps IH]; cbn; [done|]. split_and!; lia. Qed.

Section Work.
Context (p : params).

Lemma sale_work v cfg a mb f reg ps : sale_msgs p v cfg a mb f reg ps ->
  at_most 5 0 1 0 0 (reg ++ (pay_msg <$> ps)).
Proof.
  intros Hs. pose proof (sale_msgs_reg _ _ _ _ _ _ _ _ Hs) as Hreg. destruct Hs as (pf&r&_&_&Hb).
  apply payments_length in Hb. pose proof (sale_fees_length cfg pf (maker_finder a mb f) (taker_finder a mb f) r) as Hl.
  destruct (pays_sends ps) as (H1&H2&H3&H4&H5). unfold at_most. rewrite !how_many_app, H1, H2, H3, H4, H5.
  destruct Hreg as [-> | ->]; cbn; lia.
Qed.
Lemma refund_work s fs : at_most 1 0 0 0 0 (refund s fs).
Proof. unfold refund, at_most. destruct (nb_is_empty fs); cbn; lia. Qed.

(** What one call does: at most eight messages, at most one entry of each table. *)
Lemma work v e sender funds st m st' msgs : execute p v e sender funds st m = Ok (st', msgs) ->
  at_most 6 1 1 0 0 msgs /\ (length msgs <= 8)%nat /\
  changes 1 (s_asks st) (s_asks st') /\ changes 1 (s_bids st) (s_bids st') /\ changes 1 (s_cbids st) (s_cbids st') /\
  ((how_many is_nft msgs = 0)%nat -> (length msgs <= 1)%nat).
Proof.
  intros H. apply execute_effect in H.
  assert (at_most 6 1 1 0 0 msgs /\
    changes 1 (s_asks st) (s_asks st') /\ changes 1 (s_bids st) (s_bids st') /\ changes 1 (s_cbids st) (s_cbids st') /\
    (how_many is_nft msgs = 0 -> length msgs <= 1)%nat) as (Hm&Ha&Hb&Hc&Hn).
  { destruct H.
    all: try (match goal with Hs : sale_msgs _ _ _ _ _ _ _ _ |- _ => apply sale_work in Hs end).
    all: try (match goal with |- context [refund ?s ?fs] => pose proof (refund_work s fs) as Hr end).
    all: split_and!.
    all: try (unfold sale_state; cbn; repeat match goal with mb : matching_bid |- _ => destruct mb end;
      first [apply changes_same | apply changes_insert | apply changes_delete | congruence]).
    all: try (rewrite ?H1, ?H2, ?H3; apply changes_same).
    all: try (unfold at_most in *; cbn; rewrite ?how_many_app in *; cbn in *; rewrite ?how_many_app in *; cbn in *; lia).
    all: try (intros Hz; exfalso; cbn in Hz; rewrite ?how_many_app in Hz; cbn in Hz; lia).
    all: try (intros Hz; rewrite kinds_sum; unfold at_most in Hr; lia).
    all: cbn; lia. }
  split_and!; try done. rewrite kinds_sum. unfold at_most in Hm. lia.
Qed.
End Work.
