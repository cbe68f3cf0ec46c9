(** What calls on a flat ordered map cost, as documented. *)
From stdpp Require Import base numbers option gmap fin_maps list.
From Verif Require Import Common LinkHeap OrderSpec MapOps MapSpec TreeModel CostModel CostErase TreeProofs
  OmWalkCost FlatOps FlatSpec FlatModel FlatCostSpec WavlCostModel FomModel FomProofs FomCostModel FomCostErase FomCost FomWalkCost.

Definition kept (alloc : bool) : fcontract := FContract alloc true false false negb.

(** The functions that count the iterations are those of the model, which they
    become when the count is forgotten. *)
Theorem C53_same_code :
  forall (K V : Type) (cmp : K -> K -> comparison) (alloc : bool) (s : flat K V) (ops : list (flat_op K V)),
  fom_run cmp alloc s ops = ('(r, _) ← fom_run_c cmp alloc s ops; Ok r).
Proof. intros. symmetry. apply fom_run_erase. Qed.

(** C53. In every sequence of permitted calls during which the map never holds
    more than n elements the loop of splay is run, per call and on average, at
    most 6 + 9 lg (n + 1) times. *)
Theorem C53_amortized :
  forall (K V : Type) (cmp : K -> K -> comparison), total_preorder cmp ->
  forall (alloc : bool) (n cap : nat) junk (ops : list (flat_op K V)) rs A,
  fcalls_within cmp (kept alloc) n (fstart cap) ops rs A ->
  exists s rs' w, fom_run_c cmp alloc (flat_init cap junk) ops = Ok ((s, rs'), w) /\ Forall2 fagree rs rs' /\
    turns w <= length ops * (6 + 9 * Nat.log2_up (n + 1)).
Proof. exact @fom_history_cost. Qed.

(** Any permitted sequence is such a sequence, for some n. *)
Theorem C53_every_sequence :
  forall (K V : Type) (cmp : K -> K -> comparison) (c : fcontract) (ops : list (flat_op K V)) rs A A',
  fcalls cmp c A ops rs A' -> exists n, fcalls_within cmp c n A ops rs A'.
Proof. intros K V cmp c ops rs A A' Hc. eexists. by apply fcalls_are_within. Qed.

(** No link is followed outside splay by a call that is not one of begin, next, a
    range or their reverse. *)
Theorem C53_no_other_loop :
  forall (K V : Type) (cmp : K -> K -> comparison) (alloc : bool) (s : flat K V) ops s' rs w,
  Forall (fun o => fwalks o = false) ops ->
  fom_run_c cmp alloc s ops = Ok ((s', rs), w) -> hops w = 0.
Proof. intros K V cmp alloc s ops s' rs w Ho Hrun. exact (fom_run_silent cmp alloc s ops Ho (s', rs) w Hrun). Qed.

(** A search repeated finds its element at the root. *)
Theorem C53_search_again :
  forall (K V : Type) (cmp : K -> K -> comparison), total_preorder cmp ->
  forall (alloc : bool) (cap : nat) junk (ops : list (flat_op K V)) rs A k l1 x l2,
  fcalls cmp (kept alloc) (fstart cap) ops rs A -> present_at cmp A k l1 x l2 ->
  exists s rs' s1 s2 w1, fom_run cmp alloc (flat_init cap junk) ops = Ok (s, rs') /\
    fom_get_c cmp s k = Ok ((s1, Some x), w1) /\ fom_get_c cmp s1 k = Ok ((s2, Some x), Work 1 0).
Proof. exact @fom_history_again. Qed.

(** Thirty-two ascending insertions make a chain. The first search for its far end
    runs the loop 17 times and the same search again once. *)
Definition cost_of (m : nat) (ops : list (flat_op Z nat)) : outcome (nat * nat) :=
  '(_, w) ← fom_run_c Z.compare false (flat_init (m + 1) blank) (loads true m ++ ops); Ok (turns w, hops w).
Example C53_case :
  (exists rs, fcalls_within Z.compare (kept false) 32 (fstart 33) (loads true 32 ++ [FGet 0%Z; FGet 0%Z]) rs (laden true 33 32)) /\
  cost_of 32 [] = Ok (62, 0) /\
  cost_of 32 [FGet 0%Z] = Ok (79, 0) /\
  cost_of 32 [FGet 0%Z; FGet 0%Z] = Ok (80, 0).
Proof.
  split; [|by vm_compute].
  destruct (loads_calls (kept false) true 33 32 32 ltac:(lia) (le_n _)) as [rs Hrs]. eexists. eapply fwithin_app; [exact Hrs|].
  assert (count (laden true 33 32) <= 32) as Hlen by (by rewrite laden_count).
  assert (present_at Z.compare (laden true 33 32) 0%Z [] 1 (seq 2 31)) as H0.
  { split; [by rewrite laden_elems|]. exists (0%Z, 0). split; [apply (laden_val true 33 32 0); lia|done]. }
  assert (shown_at (laden true 33 32) 1 (0%Z, 0)) as H1 by (apply (laden_val true 33 32 0); lia).
  eapply fwithin_cons; [done|by eapply fcall_get_yes|]. eapply fwithin_cons; [done|by eapply fcall_get_yes|].
  by apply fwithin_nil.
Qed.

(** C54. A whole walk from begin to end, in either direction, follows at most two
    links per element. *)
Theorem C54_whole_walk :
  forall (K V : Type) (cmp : K -> K -> comparison), total_preorder cmp ->
  forall (alloc : bool) (cap : nat) junk (ops : list (flat_op K V)) rs A d,
  fcalls cmp (kept alloc) (fstart cap) ops rs A ->
  exists s rs' ps w, fom_run cmp alloc (flat_init cap junk) ops = Ok (s, rs') /\ flat_iter_c s d = Ok (ps, w) /\
    flat_iter s d = Ok ps /\ turns w = 0 /\ hops w <= 2 * length ps.
Proof. exact @fom_history_iter. Qed.

(** No call of begin or rbegin follows more links than the map has elements. *)
Theorem C54_begin_linear_partial :
  forall (K V : Type) (cmp : K -> K -> comparison), total_preorder cmp ->
  forall (alloc : bool) (cap : nat) junk (ops : list (flat_op K V)) rs A d,
  fcalls cmp (kept alloc) (fstart cap) ops rs A ->
  exists s rs' x w, fom_run cmp alloc (flat_init cap junk) ops = Ok (s, rs') /\ flat_begin_c s d = Ok (x, w) /\
    turns w = 0 /\ hops w <= count A.
Proof. exact @fom_history_begin. Qed.

(** Nor does a call of next or rnext. *)
Theorem C54_next_linear_partial :
  forall (K V : Type) (cmp : K -> K -> comparison), total_preorder cmp ->
  forall (alloc : bool) (cap : nat) junk (ops : list (flat_op K V)) rs A (d : bool) x l1 l2,
  fcalls cmp (kept alloc) (fstart cap) ops rs A -> (if d then elems (fv A) else rev (elems (fv A))) = l1 ++ x :: l2 ->
  exists s rs' w, fom_run cmp alloc (flat_init cap junk) ops = Ok (s, rs') /\ flat_next_c s d x = Ok (hd 0 l2, w) /\
    turns w = 0 /\ hops w <= count A.
Proof. exact @fom_history_next. Qed.

(** The rest is false. begin and rbegin are documented amortized O(lg N), but
    follow links to the end of the tree and leave it as it is: whatever the
    constant c, there is a sequence of insertions and calls of begin that costs
    more than c lg N per call. *)
Theorem C54_begin_refuted :
  forall (backwards : bool) (c : nat),
  let o := if backwards then FRBegin else FBegin in
  exists cap n (ops : list (flat_op Z nat)) rs A s rs' w,
    fcalls_within Z.compare (kept false) n (fstart cap) ops rs A /\
    fom_run_c Z.compare false (flat_init cap (fun _ => Node 0 0 0 false)) ops = Ok ((s, rs'), w) /\
    Forall (fun o' => fwalks o' = true -> o' = o) ops /\
    c * (length ops * (1 + Nat.log2_up (n + 1))) < hops w.
Proof. intros []; [exact (fbegin_dear false)|exact (fbegin_dear true)]. Qed.

(** The same of next and rnext, which are documented O(1), *)
Theorem C54_next_refuted :
  forall (backwards : bool) (c : nat),
  let o := if backwards then FRNext 1 else FNext 1 in
  exists cap n (ops : list (flat_op Z nat)) rs A s rs' w,
    fcalls_within Z.compare (kept false) n (fstart cap) ops rs A /\
    fom_run_c Z.compare false (flat_init cap (fun _ => Node 0 0 0 false)) ops = Ok ((s, rs'), w) /\
    Forall (fun o' => fwalks o' = true -> o' = o) ops /\
    c * (length ops * (1 + Nat.log2_up (n + 1))) < hops w.
Proof. intros []; [exact (fnext_dear false)|exact (fnext_dear true)]. Qed.

(** and of equal_range and equal_rrange, documented amortized O(lg N). *)
Theorem C54_range_refuted :
  forall (backwards : bool) (c : nat),
  let o := if backwards then FRRange 0%Z 0%Z else FRange 0%Z 0%Z in
  exists cap n (ops : list (flat_op Z nat)) rs A s rs' w,
    fcalls_within Z.compare (kept false) n (fstart cap) ops rs A /\
    fom_run_c Z.compare false (flat_init cap (fun _ => Node 0 0 0 false)) ops = Ok ((s, rs'), w) /\
    Forall (fun o' => fwalks o' = true -> o' = o) ops /\
    c * (length ops * (1 + Nat.log2_up (n + 1))) < hops w.
Proof. intros []; [exact (frange_dear false)|exact (frange_dear true)]. Qed.

Example C54_case :
  cost_of 32 [FBegin] = Ok (62, 32) /\
  cost_of 32 [FBegin; FBegin] = Ok (62, 64) /\
  cost_of 32 [FRNext 1; FRNext 1] = Ok (62, 64) /\
  cost_of 32 [FRange 0%Z 0%Z; FRange 0%Z 0%Z] = Ok (82, 32).
Proof. by vm_compute. Qed.

Print Assumptions C53_same_code.
Print Assumptions C53_amortized.
Print Assumptions C53_every_sequence.
Print Assumptions C53_no_other_loop.
Print Assumptions C53_search_again.
Print Assumptions C54_whole_walk.
Print Assumptions C54_begin_linear_partial.
Print Assumptions C54_next_linear_partial.
Print Assumptions C54_begin_refuted.
Print Assumptions C54_next_refuted.
Print Assumptions C54_range_refuted.
