(** The calls of ccc/ordered_multimap.h and their observable answers. *)
From stdpp Require Import base numbers option gmap fin_maps list.
From Verif Require Import Common.

Section ops.
Context {K V : Type}.

(** Addresses are numbers; NULL is 0 and the map's own sentinel end_ is 1. [ans]
    is the allocator's answer should the call ask for memory: 0 is a refusal.
    Calls that go through an entry are the composition of entry(k) with the
    function on entries, as in the header's examples. *)
Inductive mm_op : Type :=
  | ONew (e : nat) (k : K) (v : V) (l r p : nat) (b : bool)  (* user creates an element, its links hold anything; [b]: with the map's allocator *)
  | OContains (k : K)
  | OGet (k : K)                                  (* get_key_val *)
  | OInsert (e ans : nat)
  | OTryInsert (e ans : nat)
  | OAssign (e ans : nat)                         (* insert_or_assign *)
  | ORemove (e : nat)
  | OEntry (k : K)                                (* entry, then occupied, insert_error, unwrap *)
  | OOrInsert (k : K) (e ans : nat)
  | OInsertEntry (k : K) (e ans : nat)
  | OAndModify (k : K) (f : V -> V)               (* and_modify, then unwrap *)
  | ORemoveEntry (k : K)
  | OOrInsertW (k k' : K) (v : V) (ans : nat)     (* or_insert_w(entry(k), {k', v}) *)
  | OInsertEntryW (k k' : K) (v : V) (ans : nat)
  | OTryInsertW (k : K) (v : V) (ans : nat)
  | OAssignW (k : K) (v : V) (ans : nat)
  | OMax | OMin | OPopMax | OPopMin
  | OExtract (e : nat)
  | OUpdate (e : nat) (f : K * V -> K * V)        (* and increase, decrease *)
  | OBegin | ORBegin
  | ONext (e : nat) | ORNext (e : nat)
  | ORange (a b : K) | ORRange (a b : K)          (* equal_range, equal_rrange *)
  | OClear (fn : bool)                            (* with or without destructor *)
  | OSize | OIsEmpty | OValidate.

(** [OEnt occ err p]: an entry seen through occupied, insert_error and unwrap. *)
Inductive mm_res : Type :=
  | OPtr (p : nat)
  | OEnt (occ err : bool) (p : nat)
  | OPair (b e : nat)                             (* a range *)
  | OBool (b : bool)
  | ONum (n : Z)
  | OResult (r : result)
  | ODestroyed (r : result) (l : list (nat * (K * V))).  (* destructor calls in order *)
End ops.
Arguments mm_op K V : clear implicits.
Arguments mm_res K V : clear implicits.
