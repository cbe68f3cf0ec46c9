(** What the work of resizing a hash map is counted against. *)
From stdpp Require Import base numbers option list.
From Verif Require Import Common FhmModel.

Section spec.
Context {K V : Type}.

(** Calls that may add an element. *)
Definition adds (o : fhm_op K V) : nat :=
  match o with
  | HInsert _ _ | HTryInsert _ _ | HAssign _ _ | HTryInsertW _ _ | HAssignW _ _
  | HOrInsert _ _ | HInsertEntry _ _ | HOrInsertW _ _ | HInsertEntryW _ _ => 1
  | _ => 0
  end.
Fixpoint adds_all (os : list (fhm_op K V)) : nat :=
  match os with [] => 0 | o :: os => adds o + adds_all os end.
End spec.
