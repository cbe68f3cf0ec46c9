(** Shared vocabulary of all models: outcomes, result codes, slot arrays. *)
From stdpp Require Import base numbers option list.

(** What a modelled C call can do. [UB] is undefined behaviour (out of bounds,
    NULL or dangling access, division by zero, overlapping memcpy, failed debug
    assertion). [Fuel] means the loop bound handed to the model was too small;
    it is not an outcome of the C program and every positive theorem excludes
    it. *)
Inductive outcome (A : Type) : Type :=
  | Ok (a : A)
  | UB
  | Fuel.
Arguments Ok {A} a.
Arguments UB {A}.
Arguments Fuel {A}.

Definition obind {A B} (f : A -> outcome B) (m : outcome A) : outcome B :=
  match m with Ok a => f a | UB => UB | Fuel => Fuel end.

Global Instance outcome_bind : MBind outcome := @obind.
Global Instance outcome_ret : MRet outcome := @Ok.

(** ccc/types.h, enum ccc_result (CCC_OK ... ). *)
Inductive result : Type := OK | NO_ALLOC | MEM_ERR | INPUT_ERR.
Global Instance result_eq_dec : EqDecision result.
Proof. solve_decision. Defined.

(** C [assert]: failing is treated as undefined behaviour (debug abort). *)
Definition oassert (b : bool) : outcome unit := if b then Ok tt else UB.

(** A slot array: [None] is a slot whose bytes are indeterminate. *)
Notation slots A := (list (option A)).

(** [memmove]/[memcpy] of [n] slots inside one array; bounds are checked. *)
Definition memmove {A} (l : slots A) (dst src n : nat) : outcome (slots A) :=
  if (dst + n <=? length l)%nat && (src + n <=? length l)%nat then
    Ok (take dst l ++ take n (drop src l) ++ drop (dst + n) l)
  else UB.

(** C11 7.24.2.1: copying between overlapping objects is undefined. *)
Definition overlap (dst src n : nat) : bool :=
  (dst <? src + n)%nat && (src <? dst + n)%nat.

Definition memcpy {A} (l : slots A) (dst src n : nat) : outcome (slots A) :=
  if overlap dst src n then UB else memmove l dst src n.

(** Copy an outside range [vs] to position [dst] of the array. *)
Definition copy_in {A} (l : slots A) (dst : nat) (vs : list (option A))
  : outcome (slots A) :=
  if (dst + length vs <=? length l)%nat then
    Ok (take dst l ++ vs ++ drop (dst + length vs) l)
  else UB.

(** Read [n] slots starting at [src]. *)
Definition copy_out {A} (l : slots A) (src n : nat)
  : outcome (list (option A)) :=
  if (src + n <=? length l)%nat then Ok (take n (drop src l)) else UB.

(** Read one slot; out of bounds is UB. *)
Definition slot_get {A} (l : list A) (i : nat) : outcome A :=
  match l !! i with Some x => Ok x | None => UB end.

(** Write one slot; out of bounds is UB. *)
Definition slot_set {A} (l : list A) (i : nat) (x : A) : outcome (list A) :=
  if (i <? length l)%nat then Ok (<[i := x]> l) else UB.

(** Result of the allocator callback on a slot array (ccc/types.h
    ccc_alloc_fn, realloc behaviour): old slots are kept up to the new
    capacity, new slots are indeterminate. *)
Definition realloc {A} (l : slots A) (cap : nat) : slots A :=
  take cap l ++ replicate (cap - length l) None.
