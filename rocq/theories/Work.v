(** Facts about how much a call does. *)
From stdpp Require Import gmap.
From Verif Require Import Base Common WorkSpec.
Local Open Scope nat_scope.

Lemma how_many_app f l l' : how_many f (l ++ l') = how_many f l + how_many f l'.
Proof. induction l as [|m l IH]; cbn; [done|]. rewrite IH. lia. Qed.
Lemma how_many_length f l : how_many f l <= length l.
Proof. induction l as [|m l IH]; cbn; [done|]. destruct (f m); lia. Qed.
Lemma how_many_none f l : Forall (fun m => f m = false) l -> how_many f l = 0.
Proof. induction 1 as [|m l H _ IH]; cbn; [done|]. by rewrite H, IH. Qed.
Lemma called_app l l' : called (l ++ l') = called l ++ called l'.
Proof. induction l as [|m l IH]; [done|]. destruct m; cbn; rewrite IH; done. Qed.
Lemma called_count l : how_many is_hook l = length (called l).
Proof. induction l as [|m l IH]; [done|]. destruct m; cbn; rewrite IH; done. Qed.

Lemma at_most_app s n r b h s' n' r' b' h' l l' : at_most s n r b h l -> at_most s' n' r' b' h' l' ->
  at_most (s + s') (n + n') (r + r') (b + b') (h + h') (l ++ l').
Proof. unfold at_most. rewrite !how_many_app. lia. Qed.
Lemma at_most_le s n r b h s' n' r' b' h' l : at_most s n r b h l -> s <= s' -> n <= n' -> r <= r' -> b <= b' -> h <= h' ->
  at_most s' n' r' b' h' l.
Proof. unfold at_most. lia. Qed.

(** The whole is the sum of the kinds. *)
Lemma kinds_sum l : length l = how_many is_send l + how_many is_nft l + how_many is_reg l + how_many is_burn l + how_many is_hook l.
Proof. induction l as [|m l IH]; [done|]. destruct m; cbn; lia. Qed.

Section Changes.
Context {K A : Type} `{Countable K}.
Implicit Types m : gmap K A.
Lemma changes_same n m : changes n m m.
Proof. exists []. split; [cbn; lia|done]. Qed.
Lemma changes_insert m k a : changes 1 m (<[k := a]> m).
Proof. exists [k]. split; [cbn; lia|]. intros j Hj. rewrite lookup_insert_ne; [done|]. intros ->. apply Hj. constructor. Qed.
Lemma changes_delete m k : changes 1 m (delete k m).
Proof. exists [k]. split; [cbn; lia|]. intros j Hj. rewrite lookup_delete_ne; [done|]. intros ->. apply Hj. constructor. Qed.
Lemma changes_trans n n' m m' m'' : changes n m m' -> changes n' m' m'' -> changes (n + n') m m''.
Proof.
  intros (ks&Hl&Hs) (ks'&Hl'&Hs'). exists (ks ++ ks'). split; [rewrite app_length; lia|].
  intros j Hj. rewrite Hs', Hs; [done|intros ?; apply Hj; apply elem_of_app; by left|intros ?; apply Hj; apply elem_of_app; by right].
Qed.
Lemma changes_le n n' m m' : changes n m m' -> n <= n' -> changes n' m m'.
Proof. intros (ks&?&?) ?. exists ks. split; [lia|done]. Qed.
Lemma changes_insert_delete m k a : changes 1 m (<[k := a]> (delete k m)).
Proof. exists [k]. split; [cbn; lia|]. intros j Hj. rewrite lookup_insert_ne, lookup_delete_ne; [done|intros ->; apply Hj; constructor..]. Qed.
End Changes.
