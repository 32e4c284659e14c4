(** Nobody's NFT moves in a transaction of somebody else, with v2 (C170 of properties.jsonl).  What the theorem rests on is printed
    beneath, and an example shows a concrete case meeting its hypotheses. *)
From stdpp Require Import relations.
From Verif Require Import Base BaseFacts Common Chain ChainFacts LedgerSpec NftBooksSpec TxSpec TxFacts TheftSpec LossFacts V2Model V2Spec V2Facts V2Inv
  V2Reach V2Calls V2Examples V2Properties V2LedgerSpec V2NftSpec V2Nft V2Tx V2TxProperties.

(** * C170 *)
(** An NFT that belongs neither to the sender nor to the contract stays where it is, with its approvals. *)
Theorem C170_v2_safe : forall p w sender funds m w' c t u, collision_free p -> prefix_free p -> p_reg_reenters p = false -> reachable p w ->
  run_tx p (execute p) w sender funds m = Ok w' -> p_honest p c = true -> w_nft w c t = Some u -> u <> sender -> u <> p_self p ->
  nft_left w w' c t.
Proof.
  intros p w sender funds m w' c t u Hcf Hpf Hre Hr Hrun Hho Hu Hs Hself. pose proof (reachable_wf p w Hr) as Hwf.
  pose proof Hrun as ([Hn _]&st'&ms&He&H)%run_tx_settled. eapply not_moved; [exact H|]. rewrite moved_moves.
  assert (forall i a, s_asks (w_st w) !! i = Some a -> ~ (a_coll a = c /\ a_tok a = t)) as Hun.
  { intros i a Ha [<- <-]. apply Hself. pose proof (C04_custody p w i a Hre Hr Ha Hho) as E. rewrite Hu in E. by injection E. }
  assert (forall coll tok, owner_call (w_st w) m coll tok -> (coll, tok) <> (c, t)) as Hoc.
  { intros coll tok Ho [= -> ->]. destruct (run_tx_owner p w sender funds m w' c t Hwf Hcf Hpf Hrun Ho Hho) as [E _]. rewrite Hu in E. by injection E. }
  pose proof (step_moves p Hcf Hpf _ _ _ _ _ _ _ _ (c, t) Hwf Hn (execute_effect _ _ _ _ _ _ _ _ _ He)) as Hm.
  destruct Hm as [_|d Em _ _|i a Em Ha Hk _ _|a mb f Htr Hk _]; cbn [en_msg en_before en_by] in *; [done|exfalso..].
  - subst m. by apply (Hoc c t); [constructor|].
  - injection Hk as <- <-. by eapply Hun.
  - injection Hk as Hk1 Hk2.
    inversion Htr as [m0 id coll tok d mb0 Hor|id d a0 mb0 Ha|id d a0 bid Ha|m0 coll tok d a0 bid Hor Ha|id d b a0 Hb Hc Ha|id d b a0 Hb Ha
      |m0 coll d a0 bid Hor Ha|id d cb a0 Hb Hc Ha|id tok d cb a0 Hb Ha]; subst; cbn [a_coll a_tok] in *; try (by eapply Hun).
    + destruct Hor as [-> | ->]; eapply Hoc; try done; constructor.
    + destruct Ha as [[Ha _]|[i ->]]; [by eapply Hun|]. cbn [a_coll a_tok] in *. eapply Hoc; [|done]. by econstructor.
    + destruct Ha as [[Ha _]|[i ->]]; [by eapply Hun|]. cbn [a_coll a_tok] in *. eapply Hoc; [|done]. by econstructor.
Qed.
Print Assumptions C170_v2_safe.

(** Token 2 is alice's, and alice may sell it; bobby cannot make it move, and when bobby buys token 1 off the book, token 2 stays. *)
Definition buy170 : msg := BuySpecificNft "coll1" "1" (det 1000).
Example C170_v2_case : collision_free p0 /\ prefix_free p0 /\ p_reg_reenters p0 = false /\ reachable p0 w1 /\
  p_honest p0 "coll1" = true /\ w_nft w1 "coll1" "2" = Some "alice" /\
  is_ok (run_tx p0 (execute p0) w1 "bobby" [us 1000] buy170) = true /\
  w_nft (after w1 [("bobby", [us 1000], buy170)]) "coll1" "1" = Some "bobby" /\ w_nft w130 "coll1" "2" = Some "carol".
Proof.
  split; [exact p0_collision_free|]. split; [exact p0_prefix_free|]. split; [done|]. split; [exact w1_reachable|]. split_and!; by vm_compute.
Qed.
