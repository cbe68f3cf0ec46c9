(** Model of src/types.c: entries, ranges, results and their messages. *)
From Coq Require Import String.
From stdpp Require Import base numbers option list.

(** ccc/impl/impl_types.h:9-18 enum ccc_entry_status_, stored in eight bits. *)
Definition VACANT : N := 0.
Definition OCCUPIED : N := 1.
Definition INSERT_ERROR : N := 2.
Definition SEARCH_ERROR : N := 4.
Definition DELETE_ERROR : N := 8.
Definition INPUT_ERROR : N := 16.
Definition NO_UNWRAP : N := 32.

(** 20-25 struct ccc_ent_, 33-46 struct ccc_range_u_; pointers are numbers, 0 is NULL.
    The unions hold nothing else. In the functions [None] is a NULL argument. *)
Record entry : Type := Entry { e_ : nat; stats : N }.
Record range : Type := Range { begin_ : nat; end_ : nat }.

(** src/types.c:23-39: an integer is false as a bool if it is zero. *)
Definition has (st bit : N) : bool := negb (N.land st bit =? 0)%N.
Definition entry_occupied (e : option entry) : bool :=
  match e with Some e => has (stats e) OCCUPIED | None => false end.
Definition entry_insert_error (e : option entry) : bool :=
  match e with Some e => has (stats e) INSERT_ERROR | None => false end.
Definition entry_input_error (e : option entry) : bool :=
  match e with Some e => has (stats e) INPUT_ERROR | None => false end.

(** 41-49 ccc_entry_unwrap. *)
Definition entry_unwrap (e : option entry) : nat :=
  match e with Some e => if has (stats e) NO_UNWRAP then 0 else e_ e | None => 0 end.

(** 51-73 ccc_begin_range, ccc_end_range and the same for ccc_rrange. *)
Definition begin_range (r : option range) : nat := match r with Some r => begin_ r | None => 0 end.
Definition end_range (r : option range) : nat := match r with Some r => end_ r | None => 0 end.

(** 7-19 result_msgs, 75-83 ccc_result_msg. The enumeration has no negative member: it is
    taken as an unsigned integer, of any size. *)
Local Open Scope string_scope.
Definition RESULTS_SIZE : nat := 4.
Definition result_msg (res : nat) : string :=
  if (RESULTS_SIZE <=? res)%nat then "error: invalid result provided no message exists"
  else match res with
  | 0 => ""
  | 1 => "A container performed an operation requiring new allocation of memory, but no allocation function was provided upon initialization."
  | 2 => "A container performed an operation requiring new allocation of memory, but the allocator function provided on initialization failed."
  | _ => "A container function received bad arguments such as NULL pointers or arguments that cannot be processed in the context of an operation."
  end.

(** 85-93 ccc_get_entry_status, 95-124 ccc_entry_status_msg. *)
Definition get_entry_status (e : option entry) : N :=
  match e with Some e => stats e | None => INPUT_ERROR end.
Definition entry_status_msg (st : N) : string :=
  if (st =? VACANT)%N then "entry is Vacant with no errors"
  else if (st =? OCCUPIED)%N then "entry is Occupied and non-NULL"
  else if (st =? INSERT_ERROR)%N then "entry should have been inserted but encountered an error"
  else if (st =? SEARCH_ERROR)%N then "entry encountered an error while searching for a key"
  else if (st =? DELETE_ERROR)%N then "entry encountered an error while trying to delete"
  else if (st =? INPUT_ERROR)%N then "entry could not be produced due to bad input to function"
  else if (st =? NO_UNWRAP)%N then "entry shall not be unwrapped by user to protect container"
  else "error: entry encountered an unknown combination of flags".
