(** The counting functions of FomCostModel.v do what those of FlatModel.v and
    FomModel.v do. *)
From stdpp Require Import base numbers option gmap fin_maps list.
From Verif Require Import Common LinkHeap TreeModel CostModel CostErase SplayModel SplayCostModel WavlModel WavlNode FlatOps FlatModel
  OmCostErase WavlCostModel WavlCostErase FomModel FomCostModel.

Local Ltac bind := cbn [mbind outcome_bind obind].

Lemma bind_assoc {A B C} (m : outcome A) (f : A -> outcome B) (g : B -> outcome C) :
  (b ← (a ← m; f a); g b) = (a ← m; b ← f a; g b).
Proof. by destruct m. Qed.

Create HintDb ferase discriminated.
Local Ltac er := repeat first
  [ reflexivity
  | progress rewrite ?erase_cbind, ?erase_bind, ?erase_if, ?erase_still, ?erase_gratis, ?erase_hopping
  | progress (autorewrite with ferase)
  | match goal with
    | |- mbind _ ?m = mbind _ ?m => apply obind_ext; intros ?
    | |- (let '(_, _) := ?p in _) = _ => destruct p
    | |- (let '(_, _) := ?p in _) ≫= _ = _ => destruct p
    | |- _ = erase_count (let '(_, _) := ?p in _) => destruct p
    | |- (if ?b then _ else _) = _ => destruct b
    | |- match ?c with _ => _ end = _ => destruct c
    | |- mbind _ ?m = mbind _ ?n => apply obind_ext2; [|intros ?]
    end ].

Section erase.
Context {K V : Type} (cmp : K -> K -> comparison) (alloc : bool).
Implicit Types (s : flat K V).
Notation find := (fom_find cmp).
Notation link := (fom_link cmp).

Lemma splay_f_erase s r k : erase_count (splay_f_c cmp s r k) = splay_f cmp s r k.
Proof.
  unfold splay_f, splay_f_c, splay. rewrite splay_by_erase.
  by destruct (splay_by_c _ _ _ _ _) as [[[h x] n]| |].
Qed.
Lemma detach_f_erase s x :
  erase_count (detach_f_c cmp s x) = ('(h, r) ← detach cmp 0 (dat s) (wl (tr s)) x; Ok (set_links_root s h r)).
Proof.
  unfold detach_f_c, detach. rewrite detach_by_erase.
  by destruct (detach_by_c _ _ _ _ _ _) as [[[h r] n]| |].
Qed.
Hint Rewrite splay_f_erase @fnext_erase @flat_next_erase @flat_begin_erase : ferase.

Lemma fom_find_erase s k : erase_count (fom_find_c cmp s k) = find s k.
Proof. symmetry. unfold fom_find, fom_find_c. er. Qed.
Lemma fom_link_erase s h n : erase_count (fom_link_c cmp s h n) = link s h n.
Proof. symmetry. unfold fom_link, fom_link_c. er. Qed.
Lemma fom_erase_erase s k : erase_count (fom_erase_c cmp s k) = fom_erase cmp s k.
Proof.
  symmetry. unfold fom_erase, fom_erase_c. er.
  rewrite detach_f_erase. destruct (detach _ _ _ _ _) as [[h r]| |]; bind; [|done..]. er.
Qed.
Hint Rewrite fom_find_erase fom_link_erase fom_erase_erase : ferase.
Lemma fom_contains_erase s k : erase_count (fom_contains_c cmp s k) = fom_contains cmp s k.
Proof. symmetry. unfold fom_contains, fom_contains_c. er. Qed.
Lemma fom_remove_erase s u : erase_count (fom_remove_c cmp s u) = fom_remove cmp s u.
Proof. symmetry. unfold fom_remove, fom_remove_c. er. Qed.
Lemma fom_remove_at_erase s x : erase_count (fom_remove_at_c cmp s x) = fom_remove_at cmp s x.
Proof. symmetry. unfold fom_remove_at, fom_remove_at_c. er. Qed.
Lemma fom_range_erase s d a b : erase_count (fom_range_c cmp s d a b) = fom_range cmp s d a b.
Proof. symmetry. unfold fom_range, fom_range_c. er. Qed.
Lemma maybe_alloc_insert_erase s h u ans :
  erase_count (maybe_alloc_insert_c cmp alloc s h u ans) = maybe_alloc_insert alloc fom_seal link s h u ans.
Proof. symmetry. unfold maybe_alloc_insert, maybe_alloc_insert_c. er. Qed.
Lemma literal_insert_erase s h u ans :
  erase_count (literal_insert_c cmp alloc s h u ans) = literal_insert alloc fom_seal link s h u ans.
Proof. symmetry. unfold literal_insert, literal_insert_c. er. Qed.
Hint Rewrite fom_contains_erase fom_remove_erase fom_remove_at_erase fom_range_erase maybe_alloc_insert_erase
  literal_insert_erase : ferase.
Lemma fom_entry_erase s k : erase_count (fom_entry_c cmp s k) = flat_entry find s k.
Proof. symmetry. unfold flat_entry, fom_entry_c. er. Qed.
Hint Rewrite fom_entry_erase : ferase.

Lemma fom_step_erase s o : erase_count (fom_step_c cmp alloc s o) = fom_step cmp alloc s o.
Proof.
  symmetry. unfold fom_step. destruct o; cbn [flat_step fom_step_c];
  unfold flat_get, flat_insert, flat_try_insert, flat_insert_or_assign, flat_or_insert, flat_insert_entry,
    flat_or_insert_w, flat_insert_entry_w, flat_try_insert_w, flat_insert_or_assign_w, flat_remove_entry,
    fom_get_c, fom_insert_c, fom_try_insert_c, fom_insert_or_assign_c, fom_or_insert_c, fom_insert_entry_c,
    fom_or_insert_w_c, fom_insert_entry_w_c, fom_try_insert_w_c, fom_insert_or_assign_w_c, fom_remove_entry_c; er.
Qed.
Hint Rewrite fom_step_erase : ferase.

Lemma fom_run_erase s os : erase_count (fom_run_c cmp alloc s os) = fom_run cmp alloc s os.
Proof.
  unfold fom_run. revert s. induction os as [|o os IH]; intros s; [done|]. cbn [flat_run fom_run_c].
  rewrite erase_cbind, fom_step_erase. apply obind_ext. intros [s1 r].
  rewrite erase_cbind, IH. apply obind_ext. by intros [].
Qed.
End erase.
