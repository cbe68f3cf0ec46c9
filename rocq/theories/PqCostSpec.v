(** What the calls of the priority queue may cost in comparisons, on average
    over the calls made since the queue was set up. *)
From stdpp Require Import base numbers option gmap fin_sets list.
From Verif Require Import Common PqModel PqSpec.

(** The share of a call made with [n] elements stored; Nat.log2_up rounds up. *)
Definition share {V : Type} (o : pq_op V) (n : nat) : nat :=
  match o with
  | PNew _ _ _ _ _ _ | PFront | PSize | PIsEmpty | PValidate => 0
  | PPush _ _ | PEmplace _ _ _ => 1 + Nat.log2_up (n + 1)
  | PPop | PExtract _ | PErase _ => 2 + 3 * Nat.log2_up n
  | PUpdate _ _ | PIncrease _ _ | PDecrease _ _ => 4 + 4 * Nat.log2_up n
  | PClear _ => n * (2 + 3 * Nat.log2_up n)
  end.

Definition bill {V : Type} (l : list (pq_op V * nat)) : nat := sum_list_with (fun '(o, n) => share o n) l.

Section calls.
Context {V : Type} (cmp : V -> V -> comparison) (order : comparison) (alloc : bool).

(** A program with its answers, as in [trace], and its calls, each with the
    number of elements stored before it. *)
Inductive logged : view V -> program V -> list (pq_res V) -> view V -> list (pq_op V * nat) -> Prop :=
  | logged_done A : logged A Done [] A []
  | logged_do A o k r A1 rs A2 l : effect cmp order alloc A o r A1 -> logged A1 (k r) rs A2 l ->
      logged A (Do o k) (r :: rs) A2 ((o, size (queue A)) :: l).
End calls.
