(** What calls on an ordered multimap cost, as documented. *)
From Coq Require Import Sorted.
From stdpp Require Import base numbers option gmap fin_maps list.
From Verif Require Import Common LinkHeap OrderSpec MapOps OmModel OmmOps OmmModel OmmSpec OmmCases OmmCalls OmmHistories CostModel CostErase
  OmmCostModel OmmCostErase OmmCostSpec OmmCostBounds OmmCost.
From Verif Require OmWalkCost.


(** The functions that count the iterations are those of the model, which they
    become when the count is forgotten. *)
Theorem C55_same_code :
  forall (K V : Type) (cmp : K -> K -> comparison) (alloc : bool) (off : nat) (s : om K V) (ops : list (mm_op K V)),
  omm_run cmp alloc off s ops = ('(r, _) ← omm_run_c cmp alloc off s ops; Ok r).
Proof. intros. symmetry. apply omm_run_erase. Qed.

(** C55. In every sequence of permitted calls during which the multimap never
    holds more than n different keys the loop of splay is run, per call and on
    average, at most 10 + 15 lg (n + 1) times. *)
Theorem C55_amortized :
  forall (K V : Type) (cmp : K -> K -> comparison), total_preorder cmp ->
  forall (alloc : bool) (off n : nat) (ops : list (mm_op K V)) rs A,
  calls_within cmp (OmmSpec.kept alloc off) n start ops rs A ->
  exists s w, omm_run_c cmp alloc off om_init ops = Ok ((s, rs), w) /\
    turns w <= length ops * (10 + 15 * Nat.log2_up (n + 1)).
Proof.
  intros K V cmp Hcmp alloc off n ops rs A Hc.
  destruct (history_cost cmp Hcmp alloc off n ops rs A Hc) as (s & w & Hrun & _ & Hw). by exists s, w.
Qed.

(** Any permitted sequence is such a sequence, with n the number of elements it
    may insert or less. *)
Theorem C55_every_sequence :
  forall (K V : Type) (cmp : K -> K -> comparison), total_preorder cmp ->
  forall (c : contract) A (ops : list (mm_op K V)) rs A',
  calls cmp c A ops rs A' -> calls_within cmp c (length (queue A) + length ops) A ops rs A'.
Proof. exact @calls_are_within. Qed.

(** No other loop is run by a call that is not one of begin, next, a range or
    their reverse. *)
Theorem C55_no_other_loop :
  forall (K V : Type) (cmp : K -> K -> comparison) (alloc : bool) (off : nat) (s : om K V) ops s' rs w,
  Forall (fun o => walks o = false) ops ->
  omm_run_c cmp alloc off s ops = Ok ((s', rs), w) -> hops w = 0.
Proof. intros K V cmp alloc off s ops s' rs w Ho Hrun. exact (run_silent cmp alloc off s ops Ho (s', rs) w Hrun). Qed.

(** Sixty-four descending insertions make a chain; the first search for its far
    end runs the loop 33 times, the same search again once. Duplicates of one key
    make no chain. *)
Definition insertion (key : nat -> Z) (i : nat) : list (mm_op Z nat) :=
  [ONew (2 + i) (key i) i 0 0 0 false; OInsert (2 + i) 0].
Definition insertions (key : nat -> Z) (m : nat) : list (mm_op Z nat) := seq 0 m ≫= insertion key.
Definition descending (i : nat) : Z := (- Z.of_nat i)%Z.
Definition equal (i : nat) : Z := 0%Z.
Definition cost_of (ops : list (mm_op Z nat)) : outcome (nat * nat) :=
  '(_, w) ← omm_run_c Z.compare false 0 om_init ops; Ok (turns w, hops w).
Example C55_case :
  (exists rs A, calls_within Z.compare (OmmSpec.kept false 0) 130 start (insertions descending 64 ++ [OGet 0%Z; OMax]) rs A) /\
  cost_of (insertions descending 64) = Ok (63, 0) /\
  cost_of (insertions descending 64 ++ [OGet 0%Z]) = Ok (96, 0) /\
  cost_of (insertions descending 64 ++ [OGet 0%Z; OMax]) = Ok (97, 0) /\
  cost_of (insertions equal 64) = Ok (63, 0) /\
  cost_of (insertions equal 64 ++ [OGet 0%Z]) = Ok (64, 0).
Proof.
  split; [|by vm_compute].
  assert (exists rs A, calls Z.compare (OmmSpec.kept false 0) start (insertions descending 64 ++ [OGet 0%Z; OMax]) rs A) as (rs & A & Hc).
  { apply permitted; by vm_compute. }
  exists rs, A. by apply (C55_every_sequence Z nat Z.compare OmWalkCost.total_preorder_Z) in Hc.
Qed.
Print Assumptions C55_same_code.
Print Assumptions C55_amortized.
Print Assumptions C55_every_sequence.
Print Assumptions C55_no_other_loop.
