(** The counting functions of OmCostModel.v do what those of OmModel.v do. *)
From stdpp Require Import base numbers option gmap fin_maps list.
From Verif Require Import Common LinkHeap TreeModel MapOps OmModel CostModel CostErase OmCostModel.

Local Ltac bind := cbn [mbind outcome_bind obind].

Lemma erase_still {A} (a : A) : erase_count (still a) = Ok a.
Proof. done. Qed.
Lemma erase_hopping {A} (m : outcome (A * nat)) : erase_count (hopping m) = erase_count m.
Proof. by destruct m as [[a n]| |]. Qed.
Lemma erase_bind {A B C} (m : outcome A) (f : A -> outcome (B * C)) :
  erase_count (x ← m; f x) = (x ← m; erase_count (f x)).
Proof. by destruct m. Qed.
Lemma erase_if {A C} (b : bool) (m n : outcome (A * C)) :
  erase_count (if b then m else n) = if b then erase_count m else erase_count n.
Proof. by destruct b. Qed.
Lemma obind_ext {A B} (m : outcome A) (f g : A -> outcome B) :
  (forall a, f a = g a) -> (a ← m; f a) = (a ← m; g a).
Proof. intros H. destruct m; cbn; [apply H|done..]. Qed.

Lemma obind_ext2 {A B} (m n : outcome A) (f g : A -> outcome B) :
  m = n -> (forall a, f a = g a) -> (a ← m; f a) = (a ← n; g a).
Proof. intros <-. apply obind_ext. Qed.

Create HintDb erase discriminated.
Local Ltac er := repeat first
  [ reflexivity
  | progress rewrite ?erase_cbind, ?erase_bind, ?erase_if, ?erase_still, ?erase_gratis, ?erase_hopping
  | progress (autorewrite with erase)
  | match goal with
    | |- mbind _ ?m = mbind _ ?m => apply obind_ext; intros ?
    | |- (let '(_, _) := ?p in _) = _ => destruct p
    | |- _ = erase_count (let '(_, _) := ?p in _) => destruct p
    | |- (if ?b then _ else _) = _ => destruct b
    | |- match ?c with _ => _ end = _ => destruct c
    | |- mbind _ ?m = mbind _ ?n => apply obind_ext2; [|intros ?]
    end ].

Section erase.
Context {K V : Type} (cmp : K -> K -> comparison) (alloc : bool).
Implicit Types (s : om K V).

Lemma splay_s_erase s r k : erase_count (splay_s_c cmp s r k) = splay_s cmp s r k.
Proof.
  unfold splay_s, splay_s_c, splay. rewrite splay_by_erase.
  by destruct (splay_by_c _ _ _ _ _) as [[[h x] n]| |].
Qed.
Lemma edge_erase' nil h d n : erase_count (edge_c nil h d n) = edge nil h d n.
Proof. by rewrite edge_erase. Qed.
Lemma tree_next_erase' nil h r d n : erase_count (tree_next_c nil h r d n) = tree_next nil h r d n.
Proof. by rewrite tree_next_erase. Qed.
Hint Rewrite @splay_s_erase edge_erase' tree_next_erase' : erase.

Lemma find_erase s k : erase_count (find_c cmp s k) = find cmp s k.
Proof. symmetry. unfold find, find_c. er. Qed.
Hint Rewrite @find_erase : erase.
Lemma om_contains_erase s k : erase_count (om_contains_c cmp s k) = om_contains cmp s k.
Proof. symmetry. unfold om_contains, om_contains_c. er. Qed.
Lemma alloc_insert_erase s e ans : erase_count (alloc_insert_c cmp alloc s e ans) = alloc_insert cmp alloc s e ans.
Proof. symmetry. unfold alloc_insert, alloc_insert_c. er. Qed.
Lemma insert_erase s n : erase_count (insert_c cmp s n) = insert cmp s n.
Proof. symmetry. unfold insert, insert_c. er. Qed.
Lemma remove_from_tree_erase s x : erase_count (remove_from_tree_c cmp s x) = remove_from_tree cmp s x.
Proof. symmetry. unfold remove_from_tree, remove_from_tree_c. er. Qed.
Hint Rewrite @om_contains_erase @alloc_insert_erase @insert_erase @remove_from_tree_erase : erase.
Lemma erase_erase s k : erase_count (erase_c cmp s k) = erase cmp s k.
Proof. symmetry. unfold erase, erase_c. er. Qed.
Hint Rewrite @erase_erase : erase.
Lemma om_insert_erase s e tmp ans : erase_count (om_insert_c cmp alloc s e tmp ans) = om_insert cmp alloc s e tmp ans.
Proof. symmetry. unfold om_insert, om_insert_c. er. Qed.
Lemma om_try_insert_erase s e ans : erase_count (om_try_insert_c cmp alloc s e ans) = om_try_insert cmp alloc s e ans.
Proof. symmetry. unfold om_try_insert, om_try_insert_c. er. Qed.
Lemma om_insert_or_assign_erase s e ans :
  erase_count (om_insert_or_assign_c cmp alloc s e ans) = om_insert_or_assign cmp alloc s e ans.
Proof. symmetry. unfold om_insert_or_assign, om_insert_or_assign_c. er. Qed.
Lemma om_remove_erase s e : erase_count (om_remove_c cmp alloc s e) = om_remove cmp alloc s e.
Proof. symmetry. unfold om_remove, om_remove_c. er. Qed.
Lemma om_entry_erase s k : erase_count (om_entry_c cmp s k) = om_entry cmp s k.
Proof. symmetry. unfold om_entry, om_entry_c. er. Qed.
Lemma om_or_insert_erase s en e ans : erase_count (om_or_insert_c cmp alloc s en e ans) = om_or_insert cmp alloc s en e ans.
Proof. symmetry. unfold om_or_insert, om_or_insert_c. er. Qed.
Lemma om_insert_entry_erase s en e ans :
  erase_count (om_insert_entry_c cmp alloc s en e ans) = om_insert_entry cmp alloc s en e ans.
Proof. symmetry. unfold om_insert_entry, om_insert_entry_c. er. Qed.
Lemma om_remove_entry_erase s en : erase_count (om_remove_entry_c cmp alloc s en) = om_remove_entry cmp alloc s en.
Proof. symmetry. unfold om_remove_entry, om_remove_entry_c. er. Qed.
Lemma om_get_erase s k : erase_count (om_get_c cmp s k) = om_get cmp s k.
Proof. apply find_erase. Qed.
Lemma new_and_insert_erase s kv ans : erase_count (new_and_insert_c cmp alloc s kv ans) = new_and_insert cmp alloc s kv ans.
Proof. symmetry. unfold new_and_insert, new_and_insert_c. er. Qed.
Hint Rewrite @om_insert_erase @om_try_insert_erase @om_insert_or_assign_erase @om_remove_erase @om_entry_erase
  @om_or_insert_erase @om_insert_entry_erase @om_remove_entry_erase @om_get_erase @new_and_insert_erase : erase.
Lemma om_or_insert_w_erase s en kv ans : erase_count (om_or_insert_w_c cmp alloc s en kv ans) = om_or_insert_w cmp alloc s en kv ans.
Proof. symmetry. unfold om_or_insert_w, om_or_insert_w_c. er. Qed.
Lemma om_insert_entry_w_erase s en kv ans :
  erase_count (om_insert_entry_w_c cmp alloc s en kv ans) = om_insert_entry_w cmp alloc s en kv ans.
Proof. symmetry. unfold om_insert_entry_w, om_insert_entry_w_c. er. Qed.
Lemma insert_and_copy_key_erase s kv ans :
  erase_count (insert_and_copy_key_c cmp alloc s kv ans) = insert_and_copy_key cmp alloc s kv ans.
Proof. symmetry. unfold insert_and_copy_key, insert_and_copy_key_c. er. Qed.
Hint Rewrite @om_or_insert_w_erase @om_insert_entry_w_erase @insert_and_copy_key_erase : erase.
Lemma om_try_insert_w_erase s k v ans : erase_count (om_try_insert_w_c cmp alloc s k v ans) = om_try_insert_w cmp alloc s k v ans.
Proof. symmetry. unfold om_try_insert_w, om_try_insert_w_c. er. Qed.
Lemma om_insert_or_assign_w_erase s k v ans :
  erase_count (om_insert_or_assign_w_c cmp alloc s k v ans) = om_insert_or_assign_w cmp alloc s k v ans.
Proof. symmetry. unfold om_insert_or_assign_w, om_insert_or_assign_w_c. er. Qed.
Lemma om_begin_erase s d : erase_count (om_begin_c s d) = om_begin s d.
Proof. symmetry. unfold om_begin, om_begin_c. er. Qed.
Lemma om_next_erase s d e : erase_count (om_next_c s d e) = om_next s d e.
Proof. symmetry. unfold om_next, om_next_c. er. Qed.
Lemma om_range_erase s d a b : erase_count (om_range_c cmp s d a b) = om_range cmp s d a b.
Proof. symmetry. unfold om_range, om_range_c. er. Qed.
Lemma clear_loop_erase fuel s fn : erase_count (clear_loop_c cmp alloc fuel s fn) = clear_loop cmp alloc fuel s fn.
Proof.
  revert s. induction fuel as [|f IH]; intros s; [done|]. symmetry. cbn [clear_loop clear_loop_c].
  repeat first [er; rewrite IH|er].
Qed.
Lemma om_clear_erase s fn : erase_count (om_clear_c cmp alloc s fn) = om_clear cmp alloc s fn.
Proof. apply clear_loop_erase. Qed.
Hint Rewrite @om_try_insert_w_erase @om_insert_or_assign_w_erase @om_begin_erase @om_next_erase @om_range_erase
  @om_clear_erase : erase.

Lemma walk_erase fuel s d e : erase_count (walk_c fuel s d e) = walk fuel s d e.
Proof.
  revert e. induction fuel as [|f IH]; intros e; [done|]. symmetry. cbn [walk walk_c].
  rewrite erase_if, erase_still, erase_bind. destruct (e =? 0); [done|]. apply obind_ext. intros kv.
  rewrite erase_cbind, om_next_erase. apply obind_ext. intros e'. rewrite erase_cbind, IH. apply obind_ext. done.
Qed.
Lemma om_iter_erase s d : erase_count (om_iter_c s d) = om_iter s d.
Proof.
  symmetry. unfold om_iter, om_iter_c. rewrite erase_cbind, om_begin_erase. apply obind_ext. intros e. by rewrite walk_erase.
Qed.

Lemma om_step_erase s o : erase_count (om_step_c cmp alloc s o) = om_step cmp alloc s o.
Proof. symmetry. destruct o; cbn [om_step om_step_c]; er. Qed.
Lemma om_run_erase s os : erase_count (om_run_c cmp alloc s os) = om_run cmp alloc s os.
Proof.
  revert s. induction os as [|o os IH]; intros s; [done|]. symmetry. cbn [om_run om_run_c].
  rewrite erase_cbind, om_step_erase. apply obind_ext. intros [s1 r].
  rewrite erase_cbind, IH. apply obind_ext. by intros [s2 rs].
Qed.
End erase.
