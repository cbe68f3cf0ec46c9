(** Sizes of the map during a sequence of calls, and logarithms. *)
From Coq Require Import Arith.
From stdpp Require Import base numbers option gmap list.
From Verif Require Import Common OrderSpec MapOps MapSpec CostModel SplayCost CostSpec.

Section bounds.
Context {K V : Type} (cmp : K -> K -> comparison) (c : contract).
Implicit Types (A : view K V).

Lemma absent_length A k l1 l2 e : absent cmp A k l1 l2 -> length (l1 ++ e :: l2) = S (length (elems A)).
Proof. intros (-> & _). rewrite !app_length. cbn. lia. Qed.
Lemma added_le A l1 l2 k e ans kv p A' :
  absent cmp A k l1 l2 -> added c A l1 l2 e ans kv p A' -> length (elems A') <= S (length (elems A)).
Proof. intros Ha [Hal|Hal Hu|Hal ->]; cbn; rewrite ?(absent_length A k l1 l2) by done; lia. Qed.
Lemma made_le A l1 l2 k ans kv p A' :
  absent cmp A k l1 l2 -> made c A l1 l2 ans kv p A' -> length (elems A') <= S (length (elems A)).
Proof. intros Ha [Hal Hu|Hal]; cbn; rewrite ?(absent_length A k l1 l2) by done; lia. Qed.
Lemma removed_le A k l1 x l2 : present cmp A k l1 x l2 -> length (elems (removed c A l1 x l2)) <= S (length (elems A)).
Proof.
  intros (He & _). unfold removed. rewrite He. destruct (allocates c); cbn; rewrite !app_length; cbn; lia.
Qed.

Lemma call_length A o r A' : call cmp c A o r A' -> length (elems A') <= S (length (elems A)).
Proof.
  destruct 1; cbn [elems set_val]; try lia; (by eapply added_le) || (by eapply made_le) || (by eapply removed_le) || idtac.
  all: cbn; lia.
Qed.

Lemma within_calls n A os rs A' : calls_within cmp c n A os rs A' -> calls cmp c A os rs A'.
Proof. induction 1; econstructor; eauto. Qed.
Lemma within_le n A os rs A' : calls_within cmp c n A os rs A' -> length (elems A) <= n.
Proof. by destruct 1. Qed.

Lemma calls_are_within A os rs A' :
  calls cmp c A os rs A' -> calls_within cmp c (length (elems A) + length os) A os rs A'.
Proof.
  assert (forall n, calls cmp c A os rs A' -> length (elems A) + length os <= n -> calls_within cmp c n A os rs A') as H; [|auto].
  intros n Hc. induction Hc as [A|A o r A1 os rs A2 Hc Hcs IH]; cbn [length]; intros Hn.
  - constructor. lia.
  - pose proof (call_length _ _ _ _ Hc). econstructor; [lia|done|]. apply IH. lia.
Qed.
End bounds.

(** A number of doublings within a budget. *)
Lemma log2_up_le a b : 2 ^ a <= 2 ^ b -> a <= b.
Proof. intros H. destruct (Nat.le_gt_cases a b) as [|Hlt]; [done|]. apply (Nat.pow_lt_mono_r 2) in Hlt; lia. Qed.

Lemma cap_log2 n : cap n <= 2 ^ (2 + 3 * Nat.log2_up (n + 1)).
Proof.
  unfold cap. rewrite Nat.pow_add_r. change (2 ^ 2) with 4. apply Nat.mul_le_mono_l.
  rewrite (Nat.mul_comm 3), Nat.pow_mul_r. apply Nat.pow_le_mono_l.
  destruct (Nat.eq_dec (n + 1) 1) as [->|Hne]; [done|]. apply Nat.log2_up_spec. lia.
Qed.

Lemma doublings n i j : 2 ^ i <= cap n ^ j -> i <= j * (2 + 3 * Nat.log2_up (n + 1)).
Proof.
  intros H. apply log2_up_le. etrans; [exact H|]. rewrite (Nat.mul_comm j), Nat.pow_mul_r.
  apply Nat.pow_le_mono_l, cap_log2.
Qed.
