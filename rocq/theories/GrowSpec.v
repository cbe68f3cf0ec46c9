(** What the growth of the array containers is counted against. *)
From stdpp Require Import base numbers option list.
From Verif Require Import Common BufferModel FpqModel FlatOps.

(** The slots that the calls on a buffer ask for: one for an element, and what the user
    reserves. *)
Definition asks {A} (o : buf_op A) : nat :=
  match o with BPush _ _ => 1 | BReserve c _ _ => c | _ => 0 end.
(** The elements that the calls on a flat priority queue pass to it. *)
Definition passes {A} (o : fpq_op A) : nat :=
  match o with QPush _ _ => 1 | QHeapify l _ => length l | _ => 0 end.
(** The calls on a flat ordered map that may add an element. *)
Definition adds {K V} (o : flat_op K V) : nat :=
  match o with
  | FInsert _ _ | FTryInsert _ _ | FAssign _ _ | FOrInsert _ _ _ | FInsertEntry _ _ _
  | FOrInsertW _ _ _ | FInsertEntryW _ _ _ | FTryInsertW _ _ _ | FAssignW _ _ _ => 1
  | _ => 0
  end.
Fixpoint total {O} (f : O -> nat) (os : list O) : nat :=
  match os with [] => 0 | o :: os => f o + total f os end.
