(** Comparisons made by the priority queue. *)
From stdpp Require Import base numbers option gmap fin_maps fin_sets list.
From Verif Require Import Common LinkHeap OrderSpec TickModel PqModel PqCostModel PqCostErase PqPotential PqSpec PqCostSpec PqProofs.

Section cost.
Context {V : Type} (cmp : V -> V -> comparison) (order : comparison) (alloc : bool) (off : nat).

Ltac w := repeat match goal with
  | |- within (TickModel.plain _) _ => apply within_plain
  | |- within (tbind _ (TickModel.plain _)) _ => apply within_free; intros ? _
  | |- within (mbind _ _) _ => apply within_obind; intros ? _
  | |- within (let '(_, _) := ?p in _) _ => destruct p
  | |- within (if ?b then _ else _) _ => destruct b
  end.

Lemma merge_within (s : pmem V) a b : within (merge_c cmp order s a b) 1.
Proof.
  unfold merge_c. w. change 1 with (1 + 0). apply within_bind; [by apply within_tick|]. intros. w.
Qed.
Lemma merge_root_within (s : pmem V) e : within (merge_root_c cmp order s e) 1.
Proof.
  unfold merge_root_c. change 1 with (1 + 0). apply within_bind; [apply merge_within|]. intros. w.
Qed.
Lemma push_within (s : pmem V) e ans : within (pq_push_c cmp order alloc off s e ans) 1.
Proof.
  unfold pq_push_c. w; change 1 with (1 + 0); (apply within_bind; [apply merge_root_within|intros; w]).
Qed.
Lemma emplace_within (s : pmem V) v a b : within (pq_emplace_c cmp order alloc off s v a b) 1.
Proof.
  unfold pq_emplace_c. w. change 1 with (1 + 0). apply within_bind; [apply push_within|intros; w].
Qed.
Lemma cut_merge_within (s : pmem V) e : within (cut_merge_c cmp order s e) 1.
Proof. unfold cut_merge_c. w. apply merge_root_within. Qed.
Lemma changing_within f (s : pmem V) e v : (forall s, within (f s e) 1) -> within (changing_c f s e v) 1.
Proof.
  intros H. unfold changing_c. w. change 1 with (1 + 0). apply within_bind; [apply H|intros; w].
Qed.
Lemma increase_within (s : pmem V) e v : order = Gt -> within (pq_increase_c cmp order s e v) 1.
Proof. intros Ho. apply changing_within. intros s'. unfold increase_fixup_c. rewrite Ho at 1. apply cut_merge_within. Qed.
Lemma decrease_within (s : pmem V) e v : order = Lt -> within (pq_decrease_c cmp order s e v) 1.
Proof. intros Ho. apply changing_within. intros s'. unfold decrease_fixup_c. rewrite Ho at 1. apply cut_merge_within. Qed.

Lemma share_within (o : pq_op V) k n : k <= n -> (forall fn, o <> PClear fn) -> share o k <= 4 + 4 * Nat.log2_up n.
Proof.
  intros Hk Ho. pose proof (Nat.log2_up_le_mono k n Hk). pose proof (Nat.log2_up_succ_le k).
  replace (k + 1) with (S k) in * by lia. destruct o; cbn [share]; rewrite ?Nat.add_1_r; try lia.
  by destruct (Ho fn).
Qed.
Definition cleared_by (o : pq_op V) (k : nat) : nat := match o with PClear _ => k | _ => 0 end.
Lemma share_cleared (o : pq_op V) k n : k <= n ->
  share o k <= 4 + 4 * Nat.log2_up n + cleared_by o k * (2 + 3 * Nat.log2_up n).
Proof.
  intros Hk. destruct o eqn:Ho.
  all: try (transitivity (4 + 4 * Nat.log2_up n); [by apply share_within|lia]).
  cbn [share cleared_by]. pose proof (Nat.log2_up_le_mono k n Hk). nia.
Qed.

(** Clear pops what was pushed. *)
Lemma size_joined (e : nat) (Q : gset nat) : size ({[e]} ∪ Q) <= size Q + 1.
Proof.
  rewrite size_union_alt, size_singleton. pose proof (subseteq_size (Q ∖ {[e]}) Q). assert (Q ∖ {[e]} ⊆ Q) by set_solver.
  specialize (H H0). lia.
Qed.
Lemma size_left (e : nat) (Q : gset nat) : size (Q ∖ {[e]}) <= size Q.
Proof. apply subseteq_size. set_solver. Qed.
Lemma effect_bound A o r A' : effect cmp order alloc A o r A' -> cleared_by o (size (queue A)) + size (queue A') <= size (queue A) + 1.
Proof.
  destruct 1 as [| |e ans t _|v ans ans2 t _ _ _| |A' _ Hl| |e A' _ Hl| |e A' _ Hl| |e v A' o _ Hr Ho|e v o _ Ho|fn ps _ _ _| | |];
    cbn [cleared_by queue]; try lia.
  - apply size_joined.
  - apply size_joined.
  - destruct Hl; cbn [queue without]; pose proof (size_left (top A) (queue A)); lia.
  - destruct Hl; cbn [queue without]; pose proof (size_left e (queue A)); lia.
  - destruct Hl; cbn [queue without]; pose proof (size_left e (queue A)); lia.
  - destruct Ho as [->|[->| ->]]; destruct Hr; cbn [queue cleared_by]; lia.
  - destruct Ho as [->|[->| ->]]; cbn [cleared_by]; lia.
  - rewrite size_empty. lia.
Qed.

Lemma sums c a a1 a2 sh su len Z W : sh <= Z + c * W -> c + a1 <= a + 1 -> su + a2 * W <= len * (Z + W) + a1 * W ->
  sh + su + a2 * W <= S len * (Z + W) + a * W.
Proof.
  intros H1 H2 H3. apply (Nat.mul_le_mono_r _ _ W) in H2. rewrite !Nat.mul_add_distr_r in H2. cbn [Nat.mul]. lia.
Qed.
Lemma bill_within A c rs A' l n : logged cmp order alloc A c rs A' l -> Forall (fun p => snd p <= n) l ->
  bill l + size (queue A') * (2 + 3 * Nat.log2_up n) <= length l * (6 + 7 * Nat.log2_up n) + size (queue A) * (2 + 3 * Nat.log2_up n).
Proof.
  induction 1 as [|A o k r A1 rs A2 l He _ IH]; intros Hn; [done|]. apply Forall_cons in Hn as [Hk Hn].
  specialize (IH Hn). unfold bill in *. cbn [sum_list_with length].
  pose proof (share_cleared o (size (queue A)) n Hk). pose proof (effect_bound _ _ _ _ He) as Hb.
  assert (HL : 6 + 7 * Nat.log2_up n = 4 + 4 * Nat.log2_up n + (2 + 3 * Nat.log2_up n)) by lia.
  rewrite HL in *. by eapply sums.
Qed.

Lemma history_cost : total_preorder cmp -> order = Lt \/ order = Gt ->
  forall c, good cmp order alloc off start c ->
  exists s rs A n l, play_c cmp order alloc off pq_init c = Ok (s, rs, n) /\
    logged cmp order alloc start c rs A l /\ shows cmp order s A /\ n <= bill l /\
    (forall m, Forall (fun p => snd p <= m) l -> n <= length l * (6 + 7 * Nat.log2_up m)).
Proof.
  intros TP HO c Hg.
  destruct (play_Ok_c cmp order TP HO alloc off c pq_init start ∅ (init_Inv cmp order alloc) Hg)
    as (s & rs & A & K & n & l & Hp & Hb & Hpay & I).
  exists s, rs, A, n, l.
  assert (n <= bill l).
  { destruct (Hpay 0 1) as (m' & w' & _ & Hh & Hw); [cbn; lia|by left|].
    assert (Hw1 : 1 <= w') by (destruct Hh as [(_ & _ & ->)|(k & _ & _ & Ht)]; [done|by eapply tree_pos]).
    apply (Nat.pow_le_mono_r_iff 2); [lia|]. nia. }
  split_and!; [done|done|by eapply Inv_shows|done|].
  intros m Hl. pose proof (bill_within _ _ _ _ _ m Hb Hl). replace (size (queue start)) with 0 in * by done. lia.
Qed.
End cost.
