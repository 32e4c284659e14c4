(** A group of accounts gains coins only from auctions that outsiders win (C166 of properties.jsonl).  The theorems are closed by
    lemmas proved elsewhere; what they rest on is printed beneath, and an example shows a concrete case meeting their hypotheses. *)
From Verif Require Import Base BaseFacts Common Chain QuerySpec LedgerSpec RAModel RASpec RAExamples RAProperties RALedgerSpec
  RALedgerProperties RAWealthSpec RAWealth.

(** * C166 *)
(** In every call and every block hook of a history: what members of the group get and lead with afterwards is at most what they put in
    and led with before, plus what outsiders pay for the auctions that are over now. *)
Theorem C166_one_call : forall p lb (G : addr -> bool) d st l h, trace p lb st l -> h ∈ l ->
  got G d h + escrowed G d (e_after h) <= put G d h + escrowed G d (e_before h) + sales G d h.
Proof. exact entry_gain. Qed.
Print Assumptions C166_one_call.
(** Over a whole history the group gains at most what outsiders paid for auctions they won. *)
Theorem C166_no_gain : forall p lb (G : addr -> bool) d st l, trace p lb st l ->
  sum_over (got G d) l + escrowed G d st <= sum_over (put G d) l + sum_over (sales G d) l.
Proof. exact history_gain. Qed.
Print Assumptions C166_no_gain.

(** The history of C123.  Alice, bobby and carol together put in 550, got 317 and lead with 200, and no outsider won anything: the rest
    went to the burn and the royalty.  Alice and carol alone put in 330, got 217 and lead with 200, and bobby paid 120. *)
Definition trio (x : addr) : bool := bool_decide (x ∈ ["alice"; "bobby"; "carol"]).
Definition pair1 (x : addr) : bool := bool_decide (x ∈ ["alice"; "carol"]).
Example C166_case : trace p1 lib1 (fst ledger1_end) (snd ledger1_end) /\
  (book (put trio "ustars") = 550 /\ book (got trio "ustars") = 317 /\ escrowed trio "ustars" (fst ledger1_end) = 200 /\
   book (sales trio "ustars") = 0) /\
  (book (put pair1 "ustars") = 330 /\ book (got pair1 "ustars") = 217 /\ escrowed pair1 "ustars" (fst ledger1_end) = 200 /\
   book (sales pair1 "ustars") = 120).
Proof. split; [exact ledger1_trace|]. split; split_and!; by vm_compute. Qed.
