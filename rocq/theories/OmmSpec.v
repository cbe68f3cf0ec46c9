(** What an ordered multimap does for its users: a queue of elements, equal keys
    allowed, that is searched and walked by key; among elements with equal keys
    the oldest comes first. *)
From stdpp Require Import base numbers option gmap fin_maps list.
From Coq Require Import Sorting.Sorted.
From Verif Require Import Common OmmOps.

(** Points in which a multimap may be configured, or is known to deviate. *)
Record contract : Type := Contract {
  allocates : bool;      (** the map was given an allocator *)
  copies : bool;         (** try_insert, insert_or_assign, or_insert and insert_entry
                             use it (documented: true) *)
  macro_err : bool;      (** try_insert_w and insert_or_assign_w report an insert
                             error when they did insert (documented: false) *)
  ask_empty : bool;      (** contains may be asked of an empty map (documented: true) *)
  end_absent : bool;     (** max and min of an empty map are NULL (documented: true) *)
  min_frees : bool       (** pop_min frees what it popped (documented: true) *)
}.

Section spec.
Context {K V : Type} (cmp : K -> K -> comparison) (c : contract).

(** The user's view: the elements of the map in the order of their arrival, key
    and value of every live element, whether in the map or not, and which of
    them came from the allocator. *)
Record view : Type := View { queue : list nat; vals : gmap nat (K * V); mem : gset nat }.

Definition set_queue (A : view) (l : list nat) : view := View l (vals A) (mem A).
Definition set_val (A : view) (e : nat) (kv : K * V) : view := View (queue A) (<[e := kv]> (vals A)) (mem A).
Definition push (A : view) (e : nat) : view := set_queue A (queue A ++ [e]).
Definition obtain (A : view) (e : nat) (kv : K * V) : view :=
  View (queue A) (<[e := kv]> (vals A)) ({[e]} ∪ mem A).
Definition free (A : view) (e : nat) : view := View (queue A) (delete e (vals A)) (mem A ∖ {[e]}).

(** Element [x] has a key below (above, equal to) [k]. *)
Definition keyed (A : view) (o : comparison) (k : K) (x : nat) : Prop :=
  exists kv, vals A !! x = Some kv /\ cmp k (fst kv) = o.

(** [x] is the oldest element with key [k]; [l1] are older, [l2] younger. *)
Definition present (A : view) (k : K) (l1 : list nat) (x : nat) (l2 : list nat) : Prop :=
  queue A = l1 ++ x :: l2 /\ keyed A Eq k x /\ Forall (fun y => ~ keyed A Eq k y) l1.
Definition absent (A : view) (k : K) : Prop := Forall (fun y => ~ keyed A Eq k y) (queue A).

(** A direction is [true] for ascending keys; [x] is the last element in direction
    [d], the oldest of them if there are several. *)
Definition extreme (A : view) (d : bool) (l1 : list nat) (x : nat) (l2 : list nat) : Prop :=
  let o := if d then Gt else Lt in
  queue A = l1 ++ x :: l2 /\
  exists kx, vals A !! x = Some kx /\ Forall (keyed A o (fst kx)) l1 /\
    Forall (fun y => keyed A o (fst kx) y \/ keyed A Eq (fst kx) y) l2.

(** [l] are the elements of the map in key order, equal keys in order of arrival. *)
Definition listing (A : view) (d : bool) (l : list nat) : Prop :=
  l ≡ₚ queue A /\
  StronglySorted (fun x y => exists a b, vals A !! x = Some a /\ vals A !! y = Some b /\
    (cmp (fst a) (fst b) = (if d then Lt else Gt) \/
     cmp (fst a) (fst b) = Eq /\ [x; y] `sublist_of` queue A)) l.

Definition unused (A : view) (p : nat) : Prop := p <> 0 /\ p <> 1 /\ vals A !! p = None.

(** Element [e] with data [kv] arrives: [e] itself or, if [copy], an allocated copy
    at [ans]; [p] is the element now in the map, 0 if memory was refused. A map
    with an allocator frees its elements, so [e] itself must be from there. *)
Inductive arrives (copy : bool) (A : view) (e ans : nat) (kv : K * V) : nat -> view -> Prop :=
  | arrives_own : copy = false -> e ∉ queue A -> (allocates c = true -> e ∈ mem A) ->
      arrives copy A e ans kv e (push A e)
  | arrives_copy : copy = true -> unused A ans ->
      arrives copy A e ans kv ans (push (obtain A ans kv) ans)
  | arrives_refused : copy = true -> ans = 0 ->
      arrives copy A e ans kv 0 A.

(** The same for the macros, which need an allocator. *)
Inductive made (A : view) (ans : nat) (kv : K * V) : nat -> view -> Prop :=
  | made_new : allocates c = true -> unused A ans ->
      made A ans kv ans (push (obtain A ans kv) ans)
  | made_refused : allocates c = false \/ ans = 0 ->
      made A ans kv 0 A.

(** Element [x] leaves the map. *)
Definition leaves (A : view) (l1 : list nat) (x : nat) (l2 : list nat) : view :=
  let A' := set_queue A (l1 ++ l2) in if allocates c then free A' x else A'.

(** [x] is the first element of [l] that satisfies [P], 0 if none does. *)
Inductive first (P : nat -> Prop) : list nat -> nat -> Prop :=
  | first_none : first P [] 0
  | first_here x l : P x -> first P (x :: l) x
  | first_later x l y : ~ P x -> first P l y -> first P (x :: l) y.

(** Elements with their data. *)
Definition with_data (A : view) (l : list nat) (ps : list (nat * (K * V))) : Prop :=
  map fst ps = l /\ Forall (fun p => vals A !! fst p = Some (snd p)) ps.

Definition refused (p : nat) : bool := p =? 0.
Definition copying : bool := copies c && allocates c.

(** Permitted calls, their answer and effect. *)
Inductive call (A : view) : mm_op K V -> mm_res K V -> view -> Prop :=
  | call_new e k v l r p b : unused A e ->
      call A (ONew e k v l r p b) (OPtr e) (if b then obtain A e (k, v) else set_val A e (k, v))
  | call_contains_yes k l1 x l2 : present A k l1 x l2 ->
      call A (OContains k) (OBool true) A
  | call_contains_no k : absent A k -> ask_empty c = true \/ queue A <> [] ->
      call A (OContains k) (OBool false) A
  | call_get_yes k l1 x l2 : present A k l1 x l2 ->
      call A (OGet k) (OPtr x) A
  | call_get_no k : absent A k ->
      call A (OGet k) (OPtr 0) A
  (* insert always adds; occupied tells whether the key was there *)
  | call_insert_refused e ans kv : vals A !! e = Some kv -> allocates c = true -> ans = 0 ->
      call A (OInsert e ans) (OEnt false true 0) A
  | call_insert_new e ans kv p A' : vals A !! e = Some kv -> absent A (fst kv) -> p <> 0 ->
      arrives (allocates c) A e ans kv p A' ->
      call A (OInsert e ans) (OEnt false false p) A'
  | call_insert_old e ans kv l1 x l2 p A' : vals A !! e = Some kv -> present A (fst kv) l1 x l2 -> p <> 0 ->
      arrives (allocates c) A e ans kv p A' ->
      call A (OInsert e ans) (OEnt true false p) A'
  | call_try_new e ans kv p A' : vals A !! e = Some kv -> absent A (fst kv) ->
      arrives copying A e ans kv p A' ->
      call A (OTryInsert e ans) (OEnt false (refused p) p) A'
  | call_try_old e ans kv l1 x l2 : vals A !! e = Some kv -> present A (fst kv) l1 x l2 ->
      call A (OTryInsert e ans) (OEnt true false x) A
  | call_assign_new e ans kv p A' : vals A !! e = Some kv -> absent A (fst kv) ->
      arrives copying A e ans kv p A' ->
      call A (OAssign e ans) (OEnt false (refused p) p) A'
  | call_assign_old e ans kv l1 x l2 : vals A !! e = Some kv -> present A (fst kv) l1 x l2 ->
      e ∉ queue A ->
      call A (OAssign e ans) (OEnt true false x) (set_val A x kv)
  (* remove takes the oldest; with an allocator it is freed after its data went to
     the handle *)
  | call_remove_no e kv : vals A !! e = Some kv -> absent A (fst kv) ->
      call A (ORemove e) (OEnt false false 0) A
  | call_remove_own e kv l1 x l2 : vals A !! e = Some kv -> present A (fst kv) l1 x l2 ->
      allocates c = false ->
      call A (ORemove e) (OEnt true false x) (leaves A l1 x l2)
  | call_remove_free e kv l1 x l2 old : vals A !! e = Some kv -> present A (fst kv) l1 x l2 ->
      allocates c = true -> e ∉ queue A -> vals A !! x = Some old ->
      call A (ORemove e) (OEnt true false e) (set_val (leaves A l1 x l2) e old)
  (* entries *)
  | call_entry_yes k l1 x l2 : present A k l1 x l2 ->
      call A (OEntry k) (OEnt true false x) A
  | call_entry_no k : absent A k ->
      call A (OEntry k) (OEnt false false 0) A
  | call_or_insert_new k e ans kv p A' : vals A !! e = Some kv -> absent A k ->
      arrives copying A e ans kv p A' ->
      call A (OOrInsert k e ans) (OPtr p) A'
  | call_or_insert_old k e ans l1 x l2 : present A k l1 x l2 ->
      call A (OOrInsert k e ans) (OPtr x) A
  | call_insert_entry k e ans kv p A' : vals A !! e = Some kv ->
      arrives copying A e ans kv p A' ->
      call A (OInsertEntry k e ans) (OPtr p) A'
  | call_modify_yes k f l1 x l2 kv : present A k l1 x l2 -> vals A !! x = Some kv ->
      call A (OAndModify k f) (OPtr x) (set_val A x (fst kv, f (snd kv)))
  | call_modify_no k f : absent A k ->
      call A (OAndModify k f) (OPtr 0) A
  | call_remove_entry_yes k l1 x l2 : present A k l1 x l2 ->
      call A (ORemoveEntry k) (OEnt true false (if allocates c then 0 else x)) (leaves A l1 x l2)
  | call_remove_entry_no k : absent A k ->
      call A (ORemoveEntry k) (OEnt false false 0) A
  (* macros *)
  | call_or_insert_w_new k k' v ans p A' : absent A k -> made A ans (k', v) p A' ->
      call A (OOrInsertW k k' v ans) (OPtr p) A'
  | call_or_insert_w_old k k' v ans l1 x l2 : present A k l1 x l2 ->
      call A (OOrInsertW k k' v ans) (OPtr x) A
  | call_insert_entry_w k k' v ans p A' : made A ans (k', v) p A' ->
      call A (OInsertEntryW k k' v ans) (OPtr p) A'
  | call_try_w_new k v ans p A' : absent A k -> made A ans (k, v) p A' ->
      call A (OTryInsertW k v ans) (OEnt false (refused p || macro_err c) p) A'
  | call_try_w_old k v ans l1 x l2 : present A k l1 x l2 ->
      call A (OTryInsertW k v ans) (OEnt true false x) A
  | call_assign_w_new k v ans p A' : absent A k -> made A ans (k, v) p A' ->
      call A (OAssignW k v ans) (OEnt false (refused p || macro_err c) p) A'
  | call_assign_w_old k v ans l1 x l2 : present A k l1 x l2 ->
      call A (OAssignW k v ans) (OEnt true false x) (set_val A x (k, v))
  (* as a double-ended priority queue *)
  | call_max l1 x l2 : extreme A true l1 x l2 -> call A OMax (OPtr x) A
  | call_min l1 x l2 : extreme A false l1 x l2 -> call A OMin (OPtr x) A
  | call_max_empty : queue A = [] -> end_absent c = true -> call A OMax (OPtr 0) A
  | call_min_empty : queue A = [] -> end_absent c = true -> call A OMin (OPtr 0) A
  | call_pop_max l1 x l2 : extreme A true l1 x l2 ->
      call A OPopMax (OResult OK) (leaves A l1 x l2)
  | call_pop_min l1 x l2 : extreme A false l1 x l2 -> allocates c = false \/ min_frees c = true ->
      call A OPopMin (OResult OK) (leaves A l1 x l2)
  | call_pop_max_empty : queue A = [] -> call A OPopMax (OResult INPUT_ERR) A
  | call_pop_min_empty : queue A = [] -> call A OPopMin (OResult INPUT_ERR) A
  (* an extracted element is the user's again; an updated one arrives anew *)
  | call_extract e l1 l2 : queue A = l1 ++ e :: l2 ->
      call A (OExtract e) (OPtr e) (set_queue A (l1 ++ l2))
  | call_extract_empty e kv : queue A = [] -> vals A !! e = Some kv ->
      call A (OExtract e) (OPtr 0) A
  | call_update e f l1 l2 kv : queue A = l1 ++ e :: l2 -> vals A !! e = Some kv ->
      call A (OUpdate e f) (OBool true) (push (set_val (set_queue A (l1 ++ l2)) e (f kv)) e)
  | call_update_empty e f kv : queue A = [] -> vals A !! e = Some kv ->
      call A (OUpdate e f) (OBool false) A
  (* walking: begin and next descend, rbegin and rnext ascend *)
  | call_begin l : listing A false l -> call A OBegin (OPtr (hd 0 l)) A
  | call_rbegin l : listing A true l -> call A ORBegin (OPtr (hd 0 l)) A
  | call_next e l1 l2 : listing A false (l1 ++ e :: l2) ->
      call A (ONext e) (OPtr (hd 0 l2)) A
  | call_rnext e l1 l2 : listing A true (l1 ++ e :: l2) ->
      call A (ORNext e) (OPtr (hd 0 l2)) A
  (* going down, the first element not greater than a, and the first less than b *)
  | call_range a b l x y : listing A false l ->
      first (fun z => keyed A Gt a z \/ keyed A Eq a z) l x ->
      first (fun z => keyed A Gt b z) l y ->
      call A (ORange a b) (OPair x y) A
  (* going up, the first element not less than a, and the first greater than b *)
  | call_rrange a b l x y : listing A true l ->
      first (fun z => keyed A Lt a z \/ keyed A Eq a z) l x ->
      first (fun z => keyed A Lt b z) l y ->
      call A (ORRange a b) (OPair x y) A
  (* every element is given to the destructor once, least key first, and freed with
     an allocator *)
  | call_clear fn l ps : listing A true l -> with_data A l ps ->
      call A (OClear fn) (ODestroyed OK (if fn then ps else []))
        (if allocates c
         then View [] (foldr delete (vals A) l) (mem A ∖ list_to_set l)
         else set_queue A [])
  | call_size : call A OSize (ONum (Z.of_nat (length (queue A)))) A
  | call_is_empty : call A OIsEmpty (OBool (length (queue A) =? 0)) A
  | call_validate : call A OValidate (OBool true) A.

Inductive calls : view -> list (mm_op K V) -> list (mm_res K V) -> view -> Prop :=
  | calls_nil A : calls A [] [] A
  | calls_cons A o r A1 os rs A2 : call A o r A1 -> calls A1 os rs A2 ->
      calls A (o :: os) (r :: rs) A2.

Definition start : view := View [] ∅ ∅.

(** What can be seen of a multimap: its size, its elements with their data walked
    in both directions, and validate. *)
Definition shown (A : view) (size : outcome Z) (down up : outcome (list (nat * (K * V))))
    (valid : outcome bool) : Prop :=
  size = Ok (Z.of_nat (length (queue A))) /\ valid = Ok true /\
  (exists l ps, listing A false l /\ with_data A l ps /\ down = Ok ps) /\
  (exists l ps, listing A true l /\ with_data A l ps /\ up = Ok ps).
End spec.
Arguments view K V : clear implicits.

(** The documentation, and what the code keeps of it: [off] is the offset of the
    map's node in the user's struct. *)
Definition documented (alloc : bool) : contract := Contract alloc true false true true true.
Definition kept (alloc : bool) (off : nat) : contract := Contract alloc false true false false (off =? 0).
