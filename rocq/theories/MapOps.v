(** The calls of the pointer based ordered maps (ordered_map.h,
    realtime_ordered_map.h) and their observable answers. Both headers offer the
    same functions. *)
From stdpp Require Import base numbers option gmap fin_maps list.
From Verif Require Import Common.

Section ops.
Context {K V : Type}.

(** Addresses are numbers; NULL is 0 and the map's own sentinel end_ is 1. [ans]
    is the allocator's answer should the call ask for memory: 0 is a refusal.
    Calls that go through an entry are the composition of entry(k) with the
    function on entries, as in the header's examples. *)
Inductive map_op : Type :=
  | MNew (e : nat) (k : K) (v : V) (l r p : nat) (b : bool)  (* user creates an element; its links hold anything *)
  | MContains (k : K)
  | MGet (k : K)                                  (* get_key_val *)
  | MInsert (e tmp ans : nat)
  | MTryInsert (e ans : nat)
  | MAssign (e ans : nat)                         (* insert_or_assign *)
  | MRemove (e : nat)
  | MEntry (k : K)                                (* entry, then occupied, insert_error, unwrap *)
  | MOrInsert (k : K) (e ans : nat)
  | MInsertEntry (k : K) (e ans : nat)
  | MAndModify (k : K) (f : V -> V)               (* and_modify, then unwrap *)
  | MRemoveEntry (k : K)
  | MOrInsertW (k k' : K) (v : V) (ans : nat)     (* or_insert_w(entry(k), {k', v}) *)
  | MInsertEntryW (k k' : K) (v : V) (ans : nat)
  | MTryInsertW (k : K) (v : V) (ans : nat)
  | MAssignW (k : K) (v : V) (ans : nat)
  | MBegin | MRBegin
  | MNext (e : nat) | MRNext (e : nat)
  | MRange (a b : K) | MRRange (a b : K)          (* equal_range, equal_rrange *)
  | MClear (fn : bool)                            (* with or without destructor *)
  | MSize | MIsEmpty | MValidate.

(** [REnt occ err p]: an entry seen through occupied, insert_error and unwrap. *)
Inductive map_res : Type :=
  | RUnit
  | RPtr (p : nat)
  | REnt (occ err : bool) (p : nat)
  | RRange (b e : nat)
  | RBool (b : bool)
  | RNum (n : Z)
  | RDestroyed (r : result) (l : list (nat * (K * V))).  (* destructor calls in order *)
End ops.
Arguments map_op K V : clear implicits.
Arguments map_res K V : clear implicits.

(** An entry: ccc/impl/impl_types.h struct ccc_ent_, with the three bits of the
    status that the interface reports. *)
Record ent : Type := Ent { e_ : nat; occupied : bool; ins_err : bool; no_unwrap : bool }.
Definition vacant_ent (p : nat) : ent := Ent p false false false.
Definition occupied_ent (p : nat) : ent := Ent p true false false.
Definition error_ent (p : nat) : ent := Ent p false true false.

(** src/types.c:22-48: occupied, insert_error and unwrap of a ccc_entry. *)
Definition observe {K V} (e : ent) : map_res K V :=
  REnt (occupied e) (ins_err e) (if no_unwrap e then 0 else e_ e).
