(** Proofs for C154 (V1ViewSpec). *)
From stdpp Require Import relations pretty.
From Verif Require Import Base BaseFacts Common Chain V1Model V1Spec V1Facts V1Inv V1Reach ViewSpec V1ViewSpec.

Section Views.
Context (p : params) (x : ext).

Lemma bind_same {X Y} (r : result X) (f g : X -> result Y) : (forall y, r = Ok y -> f y = g y) -> r ≫= f = r ≫= g.
Proof. intros H. destruct r as [y|]; [by apply H|done]. Qed.
Lemma valid_same s y : addr_validate p s = Ok y -> y = s.
Proof. unfold addr_validate. destruct (p_valid p s); congruence. Qed.
Lemma view_owner v v' l sender coll tok : answer_alike v v' l -> WhoOwns coll (pretty tok) ∈ l ->
  only_owner v' sender coll tok = only_owner v sender coll tok.
Proof. intros H Hq. apply H in Hq. cbn in Hq. unfold only_owner, tok_str. by rewrite Hq. Qed.
Lemma view_tradable v v' l e coll : answer_alike v v' l -> AboutCollection coll ∈ l ->
  only_tradable v' e coll = only_tradable v e coll.
Proof. intros H Hq. apply H in Hq. cbn in Hq. unfold only_tradable. by rewrite Hq. Qed.
Lemma view_sale v v' l st a price buyer finder to resp : answer_alike v v' l -> AboutCollection (k_coll a) ∈ l ->
  finalize_sale x v' st a price buyer finder to resp = finalize_sale x v st a price buyer finder to resp.
Proof. intros H Hq. apply H in Hq. cbn in Hq. unfold finalize_sale, payout. by rewrite Hq. Qed.

Lemma view_set_bid v v' e sender funds st coll tok bps expires finder to now : wf p st ->
  answer_alike v v' match s_asks st !! (coll, tok) with
      | Some a => if bool_decide (k_type a = FixedPrice) then [WhoOwns coll (pretty tok); AboutCollection coll] else []
      | None => []
      end ->
  execute_set_bid x v' e sender funds st coll tok bps expires finder to now =
  execute_set_bid x v e sender funds st coll tok bps expires finder to now.
Proof.
  intros Hw H. unfold execute_set_bid. repeat (apply bind_same; intros ? _).
  assert (s_asks (remove_bid st coll tok sender) = s_asks st) as Er by done.
  destruct (s_asks st !! (coll, tok)) as [a|] eqn:Ea.
  - destruct (wf_ask _ _ Hw _ _ Ea) as (Hk&_). injection Hk as -> ->.
    destruct (s_bids st !! _) as [old|]; [rewrite Er|]; rewrite Ea; apply bind_same; intros ? _; cbv zeta.
    all: destruct (k_type a); rewrite ?bool_decide_eq_true_2 in H by done; [|done].
    all: destruct (_ ?= _); try done; unfold tok_str.
    all: rewrite (H (WhoOwns (k_coll a) (pretty (k_tok a)))) by left; destruct (q_owner v (k_coll a) _); [|done].
    all: apply bind_same; intros ? _; rewrite (view_sale v v' _ _ _ _ _ _ _ _ H) by (right; left); done.
  - destruct (s_bids st !! _) as [old|]; [rewrite Er|]; rewrite Ea; done.
Qed.

Lemma view_execute v v' e sender funds st m : wf p st -> answer_alike v v' (questions p st m) ->
  execute_sub p x v' e sender funds st m = execute_sub p x v e sender funds st m.
Proof.
  intros Hw H. destruct m; cbn [execute_sub questions] in *; try done; apply bind_same; intros ? ->%valid_same.
  - do 2 (apply bind_same; intros ? _). unfold execute_set_ask. rewrite (view_owner v v' _ _ _ _ H) by left.
    rewrite (view_tradable v v' _ _ _ H) by (right; left). unfold tok_str.
    rewrite (H (MayMove coll (pretty tok) (p_self p))) by (do 2 right; left). done.
  - unfold execute_remove_ask. by rewrite (view_owner v v' _ _ _ _ H) by left.
  - unfold execute_update_ask_price. by rewrite (view_owner v v' _ _ _ _ H) by left.
  - apply bind_same; intros ? _. by apply view_set_bid.
  - apply bind_same; intros ? _. by apply view_set_bid.
  - apply bind_same; intros ? _. apply bind_same; intros ? _. by apply view_set_bid.
  - apply bind_same; intros ? ->%valid_same. apply bind_same; intros ? _. unfold execute_accept_bid.
    rewrite (view_owner v v' _ _ _ _ H) by left. rewrite (view_tradable v v' _ _ _ H) by (right; left).
    repeat (apply bind_same; intros ? _). cbv zeta. rewrite (view_sale v v' _ _ _ _ _ _ _ _ H) by (right; left). done.
  - apply bind_same; intros ? ->%valid_same. unfold execute_reject_bid. by rewrite (view_owner v v' _ _ _ _ H) by left.
  - apply bind_same; intros ? ->%valid_same. apply bind_same; intros ? _. unfold execute_accept_collection_bid.
    rewrite (view_owner v v' _ _ _ _ H) by left. rewrite (view_tradable v v' _ _ _ H) by (right; left).
    repeat (apply bind_same; intros ? _). cbv zeta. rewrite (view_sale v v' _ _ _ _ _ _ _ _ H) by (right; left). done.
  - unfold execute_sync_ask, tok_str. rewrite (H (MayMove coll (pretty tok) (p_self p))) by left. done.
  - unfold execute_remove_stale_ask, tok_str. rewrite (H (WhoOwns coll (pretty tok))) by left.
    rewrite (H (MayMove coll (pretty tok) (p_self p))) by (right; left). done.
Qed.
Lemma history_view v v' e sender funds st m : v1_history p x st -> answer_alike v v' (questions p st m) ->
  execute_sub p x v' e sender funds st m = execute_sub p x v e sender funds st m.
Proof. intros Hh. apply view_execute. by eapply history_wf. Qed.
End Views.
