(** The three contracts on one chain (ThreeSpec). *)
From stdpp Require Import relations.
From Verif Require Import Base BaseFacts Common Chain ChainFacts JointSpec Joint ThreeSpec.
From Verif Require V1Model V1Spec V1Reach V2Model V2Spec V2Reach V2Final RAModel RASpec RAReach RAProperties V2Properties.

Section Three.
Context {I : Type} (kind : I -> code) (P : I -> params) (Hself : apart P).
Implicit Types W : joint3 kind.

Lemma alone_seen W i : reachable3 kind P W -> alone (kind i) (P i) (seen i W).
Proof.
  intros (W0&H0&Hr). specialize (H0 i).
  pose proof (steps_seen P (fun i => runs (kind i) (P i)) (fun i => governs_of (kind i) (P i)) Hself _ _ i Hr) as Hs. clear Hr.
  revert H0 Hs. generalize (seen i W0), (seen i W). destruct (kind i); cbn; intros w0 w H0 Hs; by exists w0.
Qed.
Lemma alone_funded c p (w : world (state_of c)) d : alone c p w -> owes c (w_st w) d <= w_bank w (p_self p) d.
Proof.
  destruct c as [x| |lb]; cbn.
  - intros H. case_decide as E; [|lia]. subst d. by eapply V1Reach.reachable_funded.
  - apply V2Reach.reachable_escrow.
  - apply RAReach.reachable_funded.
Qed.
Lemma alone_custody c p (w : world (state_of c)) coll tok : alone c p w -> p_reg_reenters p = false -> offers c (w_st w) coll tok ->
  p_honest p coll = true -> w_nft w coll tok = Some (p_self p).
Proof.
  destruct c as [x| |lb]; cbn.
  - done.
  - intros H Hr (i&a&Ha&<-&<-) Hh. by eapply V2Final.custody_ask.
  - intros H Hr (k&a&Ha&<-&<-) Hh. by eapply RAProperties.custody_form.
Qed.
Lemma all_funded W i d : reachable3 kind P W -> owes (kind i) (j_st W i) d <= j_bank W (p_self (P i)) d.
Proof. intros H. exact (alone_funded _ _ _ d (alone_seen _ i H)). Qed.
Lemma all_custody W i coll tok : reachable3 kind P W -> p_reg_reenters (P i) = false -> offers (kind i) (j_st W i) coll tok ->
  p_honest (P i) coll = true -> j_nft W coll tok = Some (p_self (P i)).
Proof. intros H. exact (alone_custody _ _ _ coll tok (alone_seen _ i H)). Qed.
Lemma one_place W i j coll tok : reachable3 kind P W -> p_reg_reenters (P i) = false -> p_reg_reenters (P j) = false ->
  offers (kind i) (j_st W i) coll tok -> offers (kind j) (j_st W j) coll tok ->
  p_honest (P i) coll = true -> p_honest (P j) coll = true -> i = j.
Proof.
  intros H Hri Hrj Hi Hj Hhi Hhj. apply Hself. pose proof (all_custody W i coll tok H Hri Hi Hhi) as E.
  rewrite (all_custody W j coll tok H Hrj Hj Hhj) in E. by injection E.
Qed.
Lemma call_seen i s f m W W' : exec3 kind P i s f m W W' ->
  texec (P i) (runs (kind i) (P i)) s f m (seen i W) (seen i W') /\
  forall j, j <> i -> adv (P j) (runs (kind j) (P j)) (seen j W) (seen j W').
Proof. apply (proj1 (joint_seen P (fun i => runs (kind i) (P i)) (fun i => governs_of (kind i) (P i)) Hself)). Qed.
End Three.
Section Alone.
Context {I : Type} (kind : I -> code) (P : I -> params) (Hself : apart P) `{EqDecision I}.
Implicit Types W : joint3 kind.
Lemma goes_among_others W i s f m w :
  run_tx (P i) (runs (kind i) (P i)) (seen i W) s f m = Ok w -> outsider P s ->
  (forall st' msgs c t to, runs (kind i) (P i) (view_of (P i) (pay_in (P i) (seen i W) s f)) (env_of (seen i W)) s f (j_st W i) m = Ok (st', msgs) ->
     MNft c t to ∈ msgs -> outsider P c) ->
  exists W', exec3 kind P i s f m W W' /\ seen i W' = w /\ forall j, j <> i -> j_st W' j = j_st W j.
Proof.
  intros H Hs Hm. exists (j_merge i W w).
  exact (run_tx_joint P (fun i => runs (kind i) (P i)) (fun i => governs_of (kind i) (P i)) Hself W i s f m w H Hs Hm).
Qed.
End Alone.
