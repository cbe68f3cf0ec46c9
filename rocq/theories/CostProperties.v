(** What calls on an ordered map cost, as documented. *)
From stdpp Require Import base numbers option gmap fin_maps list.
From Verif Require Import Common LinkHeap OrderSpec MapOps MapSpec TreeModel CostModel CostErase TreeProofs
  CostSpec CostBounds MapProofs MapCases OmModel OmCostModel OmCostErase OmProofs OmCalls OmCost OmWalkCost.

Definition kept (alloc : bool) : contract := Contract alloc true false.

(** The functions that count the iterations are those of the model, which they
    become when the count is forgotten. *)
Theorem C48_same_code :
  forall (K V : Type) (cmp : K -> K -> comparison) (alloc : bool) (s : om K V) (ops : list (map_op K V)),
  om_run cmp alloc s ops = ('(r, _) ← om_run_c cmp alloc s ops; Ok r).
Proof. intros. symmetry. apply om_run_erase. Qed.

(** C48. In every sequence of permitted calls during which the map never holds
    more than n elements the loop of splay is run, per call and on average, at
    most 10 + 15 lg (n + 1) times. *)
Theorem C48_amortized :
  forall (K V : Type) (cmp : K -> K -> comparison), total_preorder cmp ->
  forall (alloc : bool) (n : nat) (ops : list (map_op K V)) rs A,
  calls_within cmp (kept alloc) n start ops rs A ->
  exists s rs' w, om_run_c cmp alloc om_init ops = Ok ((s, rs'), w) /\ Forall2 agree rs rs' /\
    turns w <= length ops * (10 + 15 * Nat.log2_up (n + 1)).
Proof. exact @history_cost. Qed.

(** Any permitted sequence is such a sequence, for some n. *)
Theorem C48_every_sequence :
  forall (K V : Type) (cmp : K -> K -> comparison) (c : contract) (ops : list (map_op K V)) rs A A',
  calls cmp c A ops rs A' -> exists n, calls_within cmp c n A ops rs A'.
Proof. intros K V cmp c ops rs A A' Hc. eexists. by apply calls_are_within. Qed.

(** No other loop is run by a call that is not one of begin, next, a range or
    their reverse. *)
Theorem C48_no_other_loop :
  forall (K V : Type) (cmp : K -> K -> comparison) (alloc : bool) (s : om K V) ops s' rs w,
  Forall (fun o => walks o = false) ops ->
  om_run_c cmp alloc s ops = Ok ((s', rs), w) -> hops w = 0.
Proof. intros K V cmp alloc s ops s' rs w Ho Hrun. exact (run_silent cmp alloc s ops Ho (s', rs) w Hrun). Qed.

(** A search repeated finds its element at the root. *)
Theorem C48_search_again :
  forall (K V : Type) (cmp : K -> K -> comparison), total_preorder cmp ->
  forall (alloc : bool) (ops : list (map_op K V)) rs A k l1 x l2,
  calls cmp (kept alloc) start ops rs A -> present cmp A k l1 x l2 ->
  exists s rs' s1 s2 w1, om_run cmp alloc om_init ops = Ok (s, rs') /\
    om_get_c cmp s k = Ok ((s1, x), w1) /\ om_get_c cmp s1 k = Ok ((s2, x), Work 1 0).
Proof. exact @history_again. Qed.

(** Sixty-four ascending insertions make a chain. The first search for its far
    end runs the loop 33 times, the same search again once, and a search for the
    neighbour half as often as the first. *)
Definition cost_of (ops : list (map_op Z nat)) : outcome (nat * nat) :=
  '(_, w) ← om_run_c Z.compare true om_init ops; Ok (turns w, hops w).
Example C48_case :
  (exists rs, calls_within Z.compare (kept true) 64 start (fills true 64 ++ [MGet 0%Z; MGet 0%Z; MGet 1%Z]) rs (filled true 64)) /\
  cost_of (fills true 64) = Ok (126, 0) /\
  cost_of (fills true 64 ++ [MGet 0%Z]) = Ok (159, 0) /\
  cost_of (fills true 64 ++ [MGet 0%Z; MGet 0%Z]) = Ok (160, 0) /\
  cost_of (fills true 64 ++ [MGet 0%Z; MGet 0%Z; MGet 1%Z]) = Ok (178, 0).
Proof.
  split; [|by vm_compute].
  destruct (fills_calls true 64 64 (le_n _)) as [rs Hrs]. eexists. eapply within_app; [exact Hrs|].
  assert (length (elems (filled true 64)) <= 64) as Hlen by (by rewrite filled_length).
  assert (present Z.compare (filled true 64) 0%Z [] 2 (tail (elems (filled true 64)))) as H0.
  { split; [by vm_compute|]. exists (0%Z, 0). by split; vm_compute. }
  assert (present Z.compare (filled true 64) 1%Z [2] 3 (tail (tail (elems (filled true 64))))) as H1.
  { split; [by vm_compute|]. exists (1%Z, 0). by split; vm_compute. }
  eapply within_cons; [done|by eapply call_get_yes|]. eapply within_cons; [done|by eapply call_get_yes|].
  eapply within_cons; [done|by eapply call_get_yes|]. by apply within_nil.
Qed.

(** C49. A whole walk from begin to end, in either direction, follows at most
    two links per element. *)
Theorem C49_whole_walk :
  forall (K V : Type) (cmp : K -> K -> comparison), total_preorder cmp ->
  forall (alloc : bool) (ops : list (map_op K V)) rs A d,
  calls cmp (kept alloc) start ops rs A ->
  exists s rs' ps w, om_run cmp alloc om_init ops = Ok (s, rs') /\ om_iter_c s d = Ok (ps, w) /\
    om_iter s d = Ok ps /\ turns w = 0 /\ hops w <= 2 * length ps.
Proof. exact @history_iter. Qed.

(** No call of begin or rbegin follows more links than the map has elements. *)
Theorem C49_begin_linear_partial :
  forall (K V : Type) (cmp : K -> K -> comparison), total_preorder cmp ->
  forall (alloc : bool) (ops : list (map_op K V)) rs A d,
  calls cmp (kept alloc) start ops rs A ->
  exists s rs' x w, om_run cmp alloc om_init ops = Ok (s, rs') /\ om_begin_c s d = Ok (x, w) /\
    turns w = 0 /\ hops w <= length (elems A).
Proof. exact @history_begin. Qed.

(** Nor does a call of next or rnext. *)
Theorem C49_next_linear_partial :
  forall (K V : Type) (cmp : K -> K -> comparison), total_preorder cmp ->
  forall (alloc : bool) (ops : list (map_op K V)) rs A (d : bool) x l1 l2,
  calls cmp (kept alloc) start ops rs A -> (if d then elems A else rev (elems A)) = l1 ++ x :: l2 ->
  exists s rs' w, om_run cmp alloc om_init ops = Ok (s, rs') /\ om_next_c s d x = Ok (hd 0 l2, w) /\
    turns w = 0 /\ hops w <= length (elems A).
Proof. exact @history_next. Qed.

(** The rest is false. begin and rbegin are documented amortized O(lg N), but
    follow links to the end of the tree and leave it as it is: whatever the
    constant c, there is a sequence of insertions and calls of begin that costs
    more than c lg N per call. *)
Theorem C49_begin_refuted :
  forall (backwards : bool) (c : nat),
  let o := if backwards then MRBegin else MBegin in
  exists n (ops : list (map_op Z nat)) rs A s rs' w,
    calls_within Z.compare (kept true) n start ops rs A /\ om_run_c Z.compare true om_init ops = Ok ((s, rs'), w) /\
    Forall (fun o' => walks o' = true -> o' = o) ops /\
    c * (length ops * (1 + Nat.log2_up (n + 1))) < hops w.
Proof. intros []; [exact (begin_dear false)|exact (begin_dear true)]. Qed.

(** The same of next and rnext, which are documented O(1), *)
Theorem C49_next_refuted :
  forall (backwards : bool) (c : nat),
  let o := if backwards then MRNext 2 else MNext 2 in
  exists n (ops : list (map_op Z nat)) rs A s rs' w,
    calls_within Z.compare (kept true) n start ops rs A /\ om_run_c Z.compare true om_init ops = Ok ((s, rs'), w) /\
    Forall (fun o' => walks o' = true -> o' = o) ops /\
    c * (length ops * (1 + Nat.log2_up (n + 1))) < hops w.
Proof. intros []; [exact (next_dear false)|exact (next_dear true)]. Qed.

(** and of equal_range and equal_rrange, documented amortized O(lg N). *)
Theorem C49_range_refuted :
  forall (backwards : bool) (c : nat),
  let o := if backwards then MRRange 0%Z 0%Z else MRange 0%Z 0%Z in
  exists n (ops : list (map_op Z nat)) rs A s rs' w,
    calls_within Z.compare (kept true) n start ops rs A /\ om_run_c Z.compare true om_init ops = Ok ((s, rs'), w) /\
    Forall (fun o' => walks o' = true -> o' = o) ops /\
    c * (length ops * (1 + Nat.log2_up (n + 1))) < hops w.
Proof. intros []; [exact (range_dear false)|exact (range_dear true)]. Qed.

Example C49_case :
  cost_of (fills true 64 ++ [MBegin]) = Ok (126, 64) /\
  cost_of (fills true 64 ++ [MBegin; MBegin]) = Ok (126, 128) /\
  cost_of (fills true 64 ++ [MRNext 2; MRNext 2]) = Ok (126, 128) /\
  cost_of (fills true 64 ++ [MRange 0%Z 0%Z; MRange 0%Z 0%Z]) = Ok (162, 64).
Proof. by vm_compute. Qed.

Print Assumptions C48_same_code.
Print Assumptions C48_amortized.
Print Assumptions C48_every_sequence.
Print Assumptions C48_no_other_loop.
Print Assumptions C48_search_again.
Print Assumptions C49_whole_walk.
Print Assumptions C49_begin_linear_partial.
Print Assumptions C49_next_linear_partial.
Print Assumptions C49_begin_refuted.
Print Assumptions C49_next_refuted.
Print Assumptions C49_range_refuted.
