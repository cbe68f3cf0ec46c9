(** The calls of the array backed ordered maps (flat_ordered_map.h,
    flat_realtime_ordered_map.h) and their observable answers. Both headers offer
    the same functions. *)
From stdpp Require Import base numbers option gmap fin_maps list.
From Verif Require Import Common.

(** The bookkeeping part of an element: branches, parent, and the parity that only
    the realtime map has. *)
Record fnode : Type := Node { nl : nat; nr : nat; np : nat; nb : bool }.

(** The allocator's answer should a call ask for memory: refused, or granted with
    whatever the new slots contain. *)
Definition grant : Type := option (nat -> fnode).

Section ops.
Context {K V : Type}.

(** An element of the user that is not in the buffer; its bookkeeping part holds
    anything. *)
Definition user : Type := fnode * (K * V).

(** Calls that go through an entry are the composition of entry(k) with the
    function on entries, as in the header's examples. The compound literals of the
    macros are elements of the user. *)
Inductive flat_op : Type :=
  | FContains (k : K)
  | FGet (k : K)                                  (* get_key_val *)
  | FInsert (u : user) (ans : grant)
  | FTryInsert (u : user) (ans : grant)
  | FAssign (u : user) (ans : grant)              (* insert_or_assign *)
  | FRemove (u : user)
  | FEntry (k : K)                                (* entry, then occupied, insert_error, unwrap *)
  | FOrInsert (k : K) (u : user) (ans : grant)
  | FInsertEntry (k : K) (u : user) (ans : grant)
  | FAndModify (k : K) (f : V -> V)               (* and_modify, then unwrap *)
  | FRemoveEntry (k : K)
  | FOrInsertW (k : K) (u : user) (ans : grant)
  | FInsertEntryW (k : K) (u : user) (ans : grant)
  | FTryInsertW (k : K) (u : user) (ans : grant)  (* the key of u is ignored *)
  | FAssignW (k : K) (u : user) (ans : grant)
  | FBegin | FRBegin
  | FNext (i : nat) | FRNext (i : nat)            (* of the element in slot i *)
  | FRange (a b : K) | FRRange (a b : K)          (* equal_range, equal_rrange *)
  | FClear (fn : bool)                            (* with or without destructor *)
  | FSize | FCapacity | FIsEmpty | FValidate.

(** What a pointer to a user struct points to: a slot of the buffer, or the struct
    that the user passed to the call. *)
Inductive place : Type := Slot (i : nat) | Handle.

(** Pointers are seen with the data they point to; None is NULL. [XIter 0] is an
    iterator equal to end(). [XEnt occ err p h]: an entry seen through occupied,
    insert_error and unwrap, and the data of the user's struct after a call that
    may write to it. *)
Inductive flat_res : Type :=
  | XPtr (p : option (nat * (K * V)))
  | XEnt (occ err : bool) (p : option (place * (K * V))) (h : option (K * V))
  | XIter (i : nat)
  | XRange (b e : option nat)
  | XBool (b : bool)
  | XNum (n : nat)
  | XDestroyed (r : result) (l : list (nat * (K * V))).
End ops.
Arguments user K V : clear implicits.
Arguments flat_op K V : clear implicits.
Arguments flat_res K V : clear implicits.
