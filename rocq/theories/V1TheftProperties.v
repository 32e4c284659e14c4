(** Nobody's NFT moves in a transaction of somebody else unless it is for sale, with v1 (C170 of properties.jsonl).  What the theorem
    rests on is printed beneath, and an example shows a concrete case meeting its hypotheses. *)
From stdpp Require Import relations pretty.
From Verif Require Import Base BaseFacts Common Chain ChainFacts LedgerSpec NftBooksSpec TxSpec TxFacts TheftSpec LossFacts V1Model V1Spec V1Reach V1Examples
  V1Properties V1Tx V1TxProperties.

(** * C170 *)
(** An NFT of somebody else stays where it is, with its approvals, unless its owner has it listed at a fixed price, the listing is live and
    open to the sender, and the sender pays exactly that price. *)
Theorem C170_v1_safe : forall p x w sender funds m w' c t u, v1_reachable p x w -> run_tx p (execute p x) w sender funds m = Ok w' ->
  p_honest p c = true -> w_nft w c t = Some u -> u <> sender ->
  nft_left w w' c t \/
  exists tok a, t = pretty tok /\ s_asks (w_st w) !! (c, tok) = Some a /\ k_seller a = u /\ k_type a = FixedPrice /\ k_active a = true /\
    live (env_of w) (k_expires a) /\ (forall r, k_reserve a = Some r -> r = sender) /\ funds = [native (k_price a)].
Proof.
  intros p x w sender funds m w' c t u Hr (_&st'&ms&He&H)%run_tx_settled Hho Hu Hs.
  destruct (moved_to c t ms) as [to|] eqn:E; [|left; by eapply not_moved]. right. apply moved_in in E.
  destruct (mandate_form p x _ _ _ _ _ _ _ _ _ _ _ (reachable_history p x w Hr) He E) as (tok&->&Hm).
  assert (forall o, owns (view_of p w) o c tok -> o = u) as Ho.
  { intros o Ho. unfold owns in Ho. cbn [view_of q_owner] in Ho. rewrite Hho, Hu in Ho. by injection Ho. }
  destruct Hm as [finder b _ Hw|finder b _ Hw|ba a _ _ _ Ha Ht Hac Hl Hre Hf Hw _].
  - by apply Ho in Hw.
  - by apply Ho in Hw.
  - exists tok, a. apply Ho in Hw. done.
Qed.
Print Assumptions C170_v1_safe.

(** Alice's token 1 is listed at 1000 and carol may buy it.  Token 2 is not for sale and stays. *)
Example C170_v1_case x : v1_reachable p1 x (vw1 x) /\ is_ok (run_tx p1 (execute p1 x) (vw1 x) "carol" [us 1000] buy1) = true /\
  p_honest p1 "coll1" = true /\ w_nft (vw1 x) "coll1" "1" = Some "alice" /\ w_nft (vw1 x) "coll1" "2" = Some "alice" /\
  let w' := after x (vw1 x) [Tx "carol" [us 1000] buy1] in w_nft w' "coll1" "1" = Some "carol" /\ w_nft w' "coll1" "2" = Some "alice".
Proof. split; [apply vw1_reachable|]. split; [by vm_compute|]. split; [done|]. cbv zeta. split_and!; by vm_compute. Qed.
