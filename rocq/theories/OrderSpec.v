(** User comparison functions. *)
From stdpp Require Import base.

(** ccc/types.h ccc_threeway_cmp: CCC_LES, CCC_EQL, CCC_GRT are [Lt], [Eq],
    [Gt]; CCC_CMP_ERR is never returned by a user comparison. This is all the
    theorems assume of such a function: a total preorder (ties allowed). *)
Record total_preorder {K : Type} (cmp : K -> K -> comparison) : Prop := TotalPreorder {
  tp_opp : forall a b, cmp b a = CompOpp (cmp a b);
  tp_trans : forall a b c, cmp a b <> Gt -> cmp b c <> Gt -> cmp a c <> Gt
}.

Lemma total_preorder_nat : total_preorder Nat.compare.
Proof.
  split.
  - intros a b. apply PeanoNat.Nat.compare_antisym.
  - intros a b c. rewrite !PeanoNat.Nat.compare_le_iff. apply PeanoNat.Nat.le_trans.
Qed.

(** A preorder with ties: compare first components only. *)
Definition cmp_fst (a b : nat * nat) : comparison := Nat.compare (fst a) (fst b).
Lemma total_preorder_fst : total_preorder cmp_fst.
Proof.
  split; unfold cmp_fst.
  - intros a b. apply PeanoNat.Nat.compare_antisym.
  - intros a b c. rewrite !PeanoNat.Nat.compare_le_iff. apply PeanoNat.Nat.le_trans.
Qed.
