(** A group of accounts gains coins only from sales to outsiders in v1 (C167 of properties.jsonl).  The theorems are closed by lemmas
    proved elsewhere; what they rest on is printed beneath, and an example shows a concrete case meeting their hypotheses. *)
From Verif Require Import Base BaseFacts Common Chain LedgerSpec V1Model V1Spec V1Examples V1Properties V1LedgerSpec V1LedgerProperties
  V1WealthSpec V1Wealth.

(** * C167 *)
(** In every call of a history: what members of the group get and have in escrow afterwards is at most what they put in and had in escrow
    before, plus what an outsider pays for an NFT in this call, plus what an operator keeps of a stale bid of an outsider. *)
Theorem C167_one_call : forall p x (G : addr -> bool) d st l h, trace p x st l -> h ∈ l ->
  got G d h + escrowed G d (e_after h) <= put G d h + escrowed G d (e_before h) + sales G d h + kept G d h.
Proof. exact entry_gain. Qed.
Print Assumptions C167_one_call.
(** Over a whole history the group gains at most what outsiders paid for NFTs and what was kept of their stale bids. *)
Theorem C167_no_gain : forall p x (G : addr -> bool) d st l, trace p x st l ->
  sum_over (got G d) l + escrowed G d st <= sum_over (put G d) l + sum_over (sales G d) l + sum_over (kept G d) l.
Proof. exact history_gain. Qed.
Print Assumptions C167_no_gain.

(** The history of C125.  All traders and the operator together put in 4120, got 3697 and have 300 in escrow; there are no outsiders.
    Alice and the operator put in 10 and got 1522: bobby and carol paid 1610 for NFTs, and daver lost 25 with a stale bid. *)
Definition everybody (x : addr) : bool := bool_decide (x ∈ ["alice"; "bobby"; "carol"; "daver"; "edith"; "opera"]).
Definition pair1 (x : addr) : bool := bool_decide (x ∈ ["alice"; "opera"]).
Example C167_case : trace p1 x1 (fst ledger1_end) (snd ledger1_end) /\
  (book (put everybody "ustars") = 4120 /\ book (got everybody "ustars") = 3697 /\ escrowed everybody "ustars" (fst ledger1_end) = 300 /\
   book (sales everybody "ustars") = 0 /\ book (kept everybody "ustars") = 0) /\
  (book (put pair1 "ustars") = 10 /\ book (got pair1 "ustars") = 1522 /\ escrowed pair1 "ustars" (fst ledger1_end) = 0 /\
   book (sales pair1 "ustars") = 1610 /\ book (kept pair1 "ustars") = 25).
Proof. split; [exact ledger1_trace|]. split; split_and!; by vm_compute. Qed.
