(** C50: comparisons made by the flat priority queue. *)
From stdpp Require Import base numbers option list.
From Verif Require Import Common BufferModel OrderSpec FpqModel FpqSpec TickModel FpqCostModel FpqCostSpec FpqCost.

(** The counted functions are those of the model, with the count added. *)
Theorem C50_same_code :
  forall (A : Type) (cmp : A -> A -> comparison) (order : comparison) (b : buf A),
  (forall o, untick (fpq_step_c cmp order b o) = fpq_step cmp order b o) /\
  (forall x ok, untick (fpq_emplace_c cmp order b x ok) = fpq_emplace cmp order b x ok) /\
  (forall n, untick (fpq_in_place_heapify_c cmp order b n) = fpq_in_place_heapify cmp order b n).
Proof.
  intros A cmp order b. split; [exact (step_untick cmp order b)|].
  split; [exact (emplace_untick cmp order b)|exact (in_place_untick cmp order b)].
Qed.

(** Push, pop, erase and update are logarithmic in the number of elements;
    heapify is linear: after any history, in each call. *)
Theorem C50_history :
  forall (A : Type) (cmp : A -> A -> comparison) (order : comparison),
  total_preorder cmp -> order <> Eq ->
  forall (cap : nat) (grow : bool) (os : list (fpq_op A)),
  exists b tr tr', fpq_run cmp order (fresh_fpq cap grow) os = Ok (b, tr) /\
    fpq_run_c cmp order (fresh_fpq cap grow) os = Ok (b, tr') /\
    List.map (fun e => fst (fst e)) tr' = List.map fst tr /\
    Forall (fun '(o, r, n, k) => k <= comparisons_allowed o n) tr'.
Proof. exact @history_within. Qed.

(** The bounds hold of any memory and any comparison function, consistent or
    not. *)
Theorem C50_any_memory :
  forall (A : Type) (cmp : A -> A -> comparison) (order : comparison) (b : buf A),
  (forall o r k, fpq_step_c cmp order b o = Ok (r, k) -> k <= comparisons_allowed o (b_sz b)) /\
  (forall x ok r k, fpq_emplace_c cmp order b x ok = Ok (r, k) -> k <= Nat.log2 (b_sz b + 1)) /\
  (forall n r k, fpq_in_place_heapify_c cmp order b n = Ok (r, k) -> k <= 2 * n).
Proof.
  intros A cmp order b. split; [exact (step_within cmp order b)|].
  split; [exact (emplace_within cmp order b)|exact (in_place_within cmp order b)].
Qed.

Definition counts {A} (cmp : A -> A -> comparison) (order : comparison) (b : buf A) (os : list (fpq_op A)) :=
  '(_, tr) ← fpq_run_c cmp order b os; Ok ((fun '(_, _, n, k) => (n, k)) <$> tr : list (nat * nat)).

(** Size before the call and comparisons made: the bound of push is reached. *)
Example C50_case :
  counts Nat.compare Lt (fresh_fpq 4 true)
    ([QHeapify [9; 8; 7; 6; 5; 4; 3; 2; 1; 10; 11; 12; 13; 14; 15] true; QPush 0 true; QPop; QPop; QErase 5; QUpdate 0 (Nat.add 50); QFront; QSize; QValidate; QClear])
  = Ok [(0, 22); (15, 4); (16, 6); (15, 6); (14, 3); (13, 4); (13, 0); (13, 0); (13, 12); (13, 0)].
Proof. by vm_compute. Qed.

Print Assumptions C50_same_code.
Print Assumptions C50_history.
Print Assumptions C50_any_memory.
