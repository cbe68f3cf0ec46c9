(** Linked memory: one finite map per pointer field, from the address of a node
    to the value of that field. NULL is 0 and is never the address of a node. *)
From stdpp Require Import base numbers option gmap fin_maps list.
From Verif Require Import Common.

Notation fld := (gmap nat nat).

(** p->field: undefined if [p] is NULL or not the address of a live node. *)
Definition rd (m : fld) (p : nat) : outcome nat :=
  match m !! p with Some q => Ok q | None => UB end.

(** p->field = q. *)
Definition wr (m : fld) (p q : nat) : outcome fld :=
  match m !! p with Some _ => Ok (<[p := q]> m) | None => UB end.
