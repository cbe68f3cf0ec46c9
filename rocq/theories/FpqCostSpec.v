(** How many comparisons a call of the flat priority queue may make. *)
From stdpp Require Import base numbers option list.
From Verif Require Import Common FpqModel.

(** With [n] elements stored before the call; Nat.log2 rounds down. *)
Definition comparisons_allowed {A : Type} (o : fpq_op A) (n : nat) : nat :=
  match o with
  | QPush _ _ => Nat.log2 (n + 1)
  | QPop => 2 * Nat.log2 (n - 1)
  | QErase _ => 1 + 2 * Nat.log2 (n - 1)
  | QUpdate _ _ => 1 + 2 * Nat.log2 n
  | QHeapify l _ => 2 * length l
  | QValidate => n
  | QClear | QFront | QSize => 0
  end.
