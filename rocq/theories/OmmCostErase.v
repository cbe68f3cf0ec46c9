(** The counting functions of OmmCostModel.v do what those of OmmModel.v do. *)
From stdpp Require Import base numbers option gmap fin_maps list.
From Verif Require Import Common LinkHeap TreeModel SplayModel MapOps OmModel OmmOps OmmModel CostModel CostErase
  SplayCostModel OmCostErase OmmCostModel.

Local Ltac bind := cbn [mbind outcome_bind obind].
Create HintDb merase discriminated.
Local Ltac er := repeat first
  [ reflexivity
  | progress rewrite ?erase_cbind, ?erase_bind, ?erase_if, ?erase_still, ?erase_gratis, ?erase_hopping
  | progress (autorewrite with merase)
  | match goal with
    | |- mbind _ ?m = mbind _ ?m => apply obind_ext; intros ?
    | |- (let '(_, _) := ?p in _) = _ => destruct p
    | |- _ = erase_count (let '(_, _) := ?p in _) => destruct p
    | |- (if ?b then _ else _) = _ => destruct b
    | |- match ?c with _ => _ end = _ => destruct c
    | |- mbind _ ?m = mbind _ ?n => apply obind_ext2; [|intros ?]
    end ].

Section erase.
Context {K V : Type} (cmp : K -> K -> comparison) (alloc : bool) (off : nat).
Implicit Types (s : om K V).

Lemma msplay_erase s r p : erase_count (msplay_c s r p) = msplay s r p.
Proof.
  unfold msplay, msplay_c. rewrite splay_by_erase. by destruct (splay_by_c _ _ _ _ _) as [[[h x] n]| |].
Qed.
Lemma splay_key_erase s r k : erase_count (splay_key_c cmp s r k) = splay_key cmp s r k.
Proof. apply msplay_erase. Qed.
Lemma edge_erase' nil h d n : erase_count (edge_c nil h d n) = edge nil h d n.
Proof. by rewrite edge_erase. Qed.
Lemma mremove_from_tree_erase s x : erase_count (mremove_from_tree_c cmp s x) = mremove_from_tree cmp s x.
Proof.
  unfold mremove_from_tree, mremove_from_tree_c. rewrite detach_by_erase.
  by destruct (detach_by_c _ _ _ _ _ _) as [[[h y] n]| |].
Qed.
Hint Rewrite @msplay_erase @splay_key_erase edge_erase' @mremove_from_tree_erase : merase.

Lemma mfind_erase s k : erase_count (mfind_c cmp s k) = mfind cmp s k.
Proof. symmetry. unfold mfind, mfind_c. er. Qed.
Lemma omm_contains_erase s k : erase_count (omm_contains_c cmp s k) = omm_contains cmp s k.
Proof. symmetry. unfold omm_contains, omm_contains_c. er. Qed.
Lemma multimap_insert_erase s e : erase_count (multimap_insert_c cmp s e) = multimap_insert cmp s e.
Proof. symmetry. unfold multimap_insert, multimap_insert_c. er. Qed.
Lemma take_front_erase s e : erase_count (take_front_c cmp s e) = take_front cmp s e.
Proof. symmetry. unfold take_front, take_front_c. er. Qed.
Hint Rewrite @mfind_erase @omm_contains_erase @multimap_insert_erase @take_front_erase : merase.
Lemma multimap_erase_erase s k : erase_count (multimap_erase_c cmp s k) = multimap_erase cmp s k.
Proof. symmetry. unfold multimap_erase, multimap_erase_c. er. Qed.
Lemma erase_end_erase s d : erase_count (erase_end_c cmp s d) = erase_end cmp s d.
Proof. symmetry. unfold erase_end, erase_end_c. er. Qed.
Lemma erase_node_erase s e : erase_count (erase_node_c cmp s e) = erase_node cmp s e.
Proof. symmetry. unfold erase_node, erase_node_c. er. Qed.
Hint Rewrite @multimap_erase_erase @erase_end_erase @erase_node_erase : merase.

Lemma omm_insert_erase s e ans : erase_count (omm_insert_c cmp alloc s e ans) = omm_insert cmp alloc s e ans.
Proof. symmetry. unfold omm_insert, omm_insert_c. er. Qed.
Lemma omm_try_insert_erase s e : erase_count (omm_try_insert_c cmp s e) = omm_try_insert cmp s e.
Proof. symmetry. unfold omm_try_insert, omm_try_insert_c. er. Qed.
Lemma omm_insert_or_assign_erase s e : erase_count (omm_insert_or_assign_c cmp s e) = omm_insert_or_assign cmp s e.
Proof. symmetry. unfold omm_insert_or_assign, omm_insert_or_assign_c. er. Qed.
Lemma omm_remove_erase s e : erase_count (omm_remove_c cmp alloc s e) = omm_remove cmp alloc s e.
Proof. symmetry. unfold omm_remove, omm_remove_c. er. Qed.
Lemma omm_entry_erase s k : erase_count (omm_entry_c cmp s k) = omm_entry cmp s k.
Proof. symmetry. unfold omm_entry, omm_entry_c. er. Qed.
Lemma omm_or_insert_erase s en e : erase_count (omm_or_insert_c cmp s en e) = omm_or_insert cmp s en e.
Proof. symmetry. unfold omm_or_insert, omm_or_insert_c. er. Qed.
Lemma omm_insert_entry_erase s en e : erase_count (omm_insert_entry_c cmp s en e) = omm_insert_entry cmp s en e.
Proof. symmetry. unfold omm_insert_entry, omm_insert_entry_c. er. Qed.
Lemma omm_remove_entry_erase s en : erase_count (omm_remove_entry_c cmp alloc s en) = omm_remove_entry cmp alloc s en.
Proof. symmetry. unfold omm_remove_entry, omm_remove_entry_c. er. Qed.
Lemma mnew_and_insert_erase s kv ans :
  erase_count (mnew_and_insert_c cmp alloc s kv ans) = mnew_and_insert cmp alloc s kv ans.
Proof. symmetry. unfold mnew_and_insert, mnew_and_insert_c. er. Qed.
Hint Rewrite @omm_insert_erase @omm_try_insert_erase @omm_insert_or_assign_erase @omm_remove_erase @omm_entry_erase
  @omm_or_insert_erase @omm_insert_entry_erase @omm_remove_entry_erase @mnew_and_insert_erase : merase.
Lemma omm_or_insert_w_erase s en kv ans :
  erase_count (omm_or_insert_w_c cmp alloc s en kv ans) = omm_or_insert_w cmp alloc s en kv ans.
Proof. symmetry. unfold omm_or_insert_w, omm_or_insert_w_c. er. Qed.
Lemma omm_insert_entry_w_erase s en kv ans :
  erase_count (omm_insert_entry_w_c cmp alloc s en kv ans) = omm_insert_entry_w cmp alloc s en kv ans.
Proof. symmetry. unfold omm_insert_entry_w, omm_insert_entry_w_c. er. Qed.
Lemma minsert_and_copy_key_erase s kv ans :
  erase_count (minsert_and_copy_key_c cmp alloc s kv ans) = minsert_and_copy_key cmp alloc s kv ans.
Proof. symmetry. unfold minsert_and_copy_key, minsert_and_copy_key_c. er. Qed.
Hint Rewrite @omm_or_insert_w_erase @omm_insert_entry_w_erase @minsert_and_copy_key_erase : merase.
Lemma omm_try_insert_w_erase s k v ans :
  erase_count (omm_try_insert_w_c cmp alloc s k v ans) = omm_try_insert_w cmp alloc s k v ans.
Proof. symmetry. unfold omm_try_insert_w, omm_try_insert_w_c. er. Qed.
Lemma omm_insert_or_assign_w_erase s k v ans :
  erase_count (omm_insert_or_assign_w_c cmp alloc s k v ans) = omm_insert_or_assign_w cmp alloc s k v ans.
Proof. symmetry. unfold omm_insert_or_assign_w, omm_insert_or_assign_w_c. er. Qed.
Lemma omm_end_erase s d : erase_count (omm_end_c s d) = omm_end s d.
Proof. apply msplay_erase. Qed.
Lemma omm_pop_max_erase s : erase_count (omm_pop_max_c cmp alloc s) = omm_pop_max cmp alloc s.
Proof. symmetry. unfold omm_pop_max, omm_pop_max_c. er. Qed.
Lemma omm_pop_min_erase s : erase_count (omm_pop_min_c cmp alloc off s) = omm_pop_min cmp alloc off s.
Proof. symmetry. unfold omm_pop_min, omm_pop_min_c. er. Qed.
Lemma omm_extract_erase s e : erase_count (omm_extract_c cmp s e) = omm_extract cmp s e.
Proof. apply erase_node_erase. Qed.
Lemma omm_update_erase s e f : erase_count (omm_update_c cmp s e f) = omm_update cmp s e f.
Proof. symmetry. unfold omm_update, omm_update_c. er. Qed.
Lemma omm_begin_erase s d : erase_count (omm_begin_c s d) = omm_begin s d.
Proof. symmetry. unfold omm_begin, omm_begin_c. er. Qed.
Hint Rewrite @omm_try_insert_w_erase @omm_insert_or_assign_w_erase @omm_end_erase @omm_pop_max_erase @omm_pop_min_erase
  @omm_extract_erase @omm_update_erase @omm_begin_erase : merase.

Lemma mclimb_erase fuel h d n p : erase_count (mclimb_c fuel h d n p) = mclimb fuel h d n p.
Proof.
  revert n p. induction fuel as [|f IH]; intros n p; [done|]. symmetry. cbn [mclimb mclimb_c].
  destruct (p =? nil); [done|]. destruct (rd (br h (negb d)) p) as [c| |]; [|done..]. bind.
  destruct (c =? n); [done|]. destruct (parent_r h p) as [p'| |]; [|done..]. bind.
  rewrite <- IH. by destruct (mclimb_c f h d p p') as [[r i]| |].
Qed.
Lemma mtree_next_erase h r d n : erase_count (mtree_next_c h r d n) = mtree_next h r d n.
Proof.
  symmetry. unfold mtree_next, mtree_next_c. destruct ((n =? 0) || (n =? nil)); [done|].
  er. by rewrite mclimb_erase.
Qed.
Hint Rewrite mtree_next_erase : merase.
Lemma next_tree_node_erase h r d n : erase_count (next_tree_node_c h r d n) = next_tree_node h r d n.
Proof. symmetry. unfold next_tree_node, next_tree_node_c. er. Qed.
Hint Rewrite next_tree_node_erase : merase.
Lemma multimap_next_erase h r d n : erase_count (multimap_next_c h r d n) = multimap_next h r d n.
Proof. symmetry. unfold multimap_next, multimap_next_c. er. by destruct (rd (rt h) n). Qed.
Hint Rewrite multimap_next_erase : merase.
Lemma omm_next_erase s d e : erase_count (omm_next_c s d e) = omm_next s d e.
Proof. symmetry. unfold omm_next, omm_next_c. er. Qed.
Lemma omm_range_erase s d a b : erase_count (omm_range_c cmp s d a b) = omm_range cmp s d a b.
Proof. symmetry. unfold omm_range, omm_range_c. er. Qed.
Lemma mclear_loop_erase fuel s fn : erase_count (mclear_loop_c cmp alloc fuel s fn) = mclear_loop cmp alloc fuel s fn.
Proof.
  revert s. induction fuel as [|f IH]; intros s; [done|]. symmetry. cbn [mclear_loop mclear_loop_c].
  repeat first [er; rewrite IH|er].
Qed.
Lemma omm_clear_erase s fn : erase_count (omm_clear_c cmp alloc s fn) = omm_clear cmp alloc s fn.
Proof. apply mclear_loop_erase. Qed.
Hint Rewrite @omm_next_erase @omm_range_erase @omm_clear_erase : merase.

Lemma mwalk_erase fuel s d e : erase_count (mwalk_c fuel s d e) = mwalk fuel s d e.
Proof.
  revert e. induction fuel as [|f IH]; intros e; [done|]. symmetry. cbn [mwalk mwalk_c].
  rewrite erase_if, erase_still, erase_bind. destruct (e =? 0); [done|]. apply obind_ext. intros kv.
  rewrite erase_cbind, omm_next_erase. apply obind_ext. intros e'. rewrite erase_cbind, IH. apply obind_ext. done.
Qed.
Lemma omm_iter_erase s d : erase_count (omm_iter_c s d) = omm_iter s d.
Proof.
  symmetry. unfold omm_iter, omm_iter_c. rewrite erase_cbind, omm_begin_erase. apply obind_ext. intros e.
  by rewrite mwalk_erase.
Qed.

Lemma omm_step_erase s o : erase_count (omm_step_c cmp alloc off s o) = omm_step cmp alloc off s o.
Proof. symmetry. destruct o; cbn [omm_step omm_step_c]; unfold omm_get; er. Qed.
Lemma omm_run_erase s os : erase_count (omm_run_c cmp alloc off s os) = omm_run cmp alloc off s os.
Proof.
  revert s. induction os as [|o os IH]; intros s; [done|]. symmetry. cbn [omm_run omm_run_c].
  rewrite erase_cbind, omm_step_erase. apply obind_ext. intros [s1 r].
  rewrite erase_cbind, IH. apply obind_ext. by intros [s2 rs].
Qed.
End erase.
