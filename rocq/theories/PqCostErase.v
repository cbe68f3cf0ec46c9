(** The counting functions of PqCostModel.v do what those of PqModel.v do. *)
From stdpp Require Import base numbers option gmap fin_maps list.
From Verif Require Import Common LinkHeap PqModel TickModel PqCostModel.

Section erase.
Context {V : Type} (cmp : V -> V -> comparison) (order : comparison) (alloc : bool) (off : nat).
Implicit Types s : pmem V.

Lemma merge_untick s a b : untick (merge_c cmp order s a b) = merge cmp order s a b.
Proof. unfold merge_c, merge. un. Qed.
Lemma pair_loop_untick f s e a c : untick (pair_loop_c cmp order f s e a c) = pair_loop cmp order f s e a c.
Proof.
  revert s a c. induction f as [|f IH]; intros s a c; [done|]. cbn [pair_loop_c pair_loop].
  un; [apply merge_untick..|apply IH].
Qed.
Lemma delete_min_untick s r : untick (delete_min_c cmp order s r) = delete_min cmp order s r.
Proof. unfold delete_min_c, delete_min. un; [apply pair_loop_untick|apply merge_untick]. Qed.
Lemma delete_node_untick s e : untick (delete_node_c cmp order s e) = delete_node cmp order s e.
Proof. unfold delete_node_c, delete_node. un; [apply delete_min_untick..|apply merge_untick]. Qed.
Lemma merge_root_untick s e : untick (merge_root_c cmp order s e) = merge_root cmp order s e.
Proof. unfold merge_root_c, merge_root. un; apply merge_untick. Qed.
Lemma delete_root_untick s e : untick (delete_root_c cmp order s e) = delete_root cmp order s e.
Proof. unfold delete_root_c, delete_root. un; apply delete_node_untick. Qed.
Lemma push_untick s e ans : untick (pq_push_c cmp order alloc off s e ans) = pq_push cmp order alloc off s e ans.
Proof. unfold pq_push_c, pq_push. un; apply merge_root_untick. Qed.
Lemma emplace_untick s v a b : untick (pq_emplace_c cmp order alloc off s v a b) = pq_emplace cmp order alloc off s v a b.
Proof. unfold pq_emplace_c, pq_emplace. un; apply push_untick. Qed.
Lemma pop_untick s : untick (pq_pop_c cmp order alloc s) = pq_pop cmp order alloc s.
Proof. unfold pq_pop_c, pq_pop. un; apply delete_min_untick. Qed.
Lemma extract_untick s e : untick (pq_extract_c cmp order s e) = pq_extract cmp order s e.
Proof. unfold pq_extract_c, pq_extract. un; apply delete_root_untick. Qed.
Lemma erase_untick s e : untick (pq_erase_c cmp order alloc s e) = pq_erase cmp order alloc s e.
Proof. unfold pq_erase_c, pq_erase. un; apply delete_root_untick. Qed.
Lemma clear_untick s fn : untick (pq_clear_c cmp order alloc s fn) = pq_clear cmp order alloc s fn.
Proof.
  unfold pq_clear_c, pq_clear. un. generalize (Z.to_nat (sz s)). intros f. revert s.
  induction f as [|f IH]; intros s; cbn [clear_loop_c clear_loop]; [by un|]. un; [apply pop_untick|apply IH].
Qed.
Lemma reinsert_untick s e : untick (reinsert_c cmp order s e) = reinsert cmp order s e.
Proof. unfold reinsert_c, reinsert. un; [apply delete_root_untick|apply merge_root_untick]. Qed.
Lemma cut_merge_untick s e : untick (cut_merge_c cmp order s e) = cut_merge cmp order s e.
Proof. unfold cut_merge_c, cut_merge. un; apply merge_root_untick. Qed.
Lemma fixup_untick s e : untick (update_fixup_c cmp order s e) = update_fixup cmp order s e.
Proof. unfold update_fixup_c, update_fixup. un; [apply cut_merge_untick|apply reinsert_untick]. Qed.
Lemma changing_untick fc f s e v : (forall s e, untick (fc s e) = f s e) ->
  untick (changing_c fc s e v) = changing f s e v.
Proof. intros H. unfold changing_c, changing. un; apply H. Qed.
Lemma increase_untick s e : untick (increase_fixup_c cmp order s e) = increase_fixup cmp order s e.
Proof. unfold increase_fixup_c, increase_fixup. rewrite <-reinsert_untick, <-cut_merge_untick. destruct order; reflexivity. Qed.
Lemma decrease_untick s e : untick (decrease_fixup_c cmp order s e) = decrease_fixup cmp order s e.
Proof. unfold decrease_fixup_c, decrease_fixup. rewrite <-reinsert_untick, <-cut_merge_untick. destruct order; reflexivity. Qed.
Lemma step_untick s o : untick (step_c cmp order alloc off s o) = step cmp order alloc off s o.
Proof.
  destruct o; cbn [step_c step]; un.
  - apply push_untick.
  - apply emplace_untick.
  - apply pop_untick.
  - apply extract_untick.
  - apply erase_untick.
  - exact (changing_untick _ _ s e v fixup_untick).
  - exact (changing_untick _ _ s e v increase_untick).
  - exact (changing_untick _ _ s e v decrease_untick).
  - apply clear_untick.
Qed.
Lemma play_untick c : forall s, untick (play_c cmp order alloc off s c) = play cmp order alloc off s c.
Proof. induction c as [|o k IH]; intros s; [done|]. cbn [play_c play]. un; [apply step_untick|apply IH]. Qed.
End erase.
