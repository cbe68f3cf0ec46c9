(** What an ordered map does for its users: a finite map from keys to elements
    that can be walked in key order. *)
From stdpp Require Import base numbers option gmap fin_maps list.
From Coq Require Import Sorting.Sorted.
From Verif Require Import Common MapOps.

(** Points in which a map may be configured, or is known to deviate. *)
Record contract : Type := Contract {
  allocates : bool;      (** the map was given an allocator *)
  macro_err : bool;      (** try_insert_w and insert_or_assign_w report an insert
                             error when they did insert (documented: false) *)
  ask_empty : bool       (** contains may be asked of an empty map (documented: true) *)
}.

Section spec.
Context {K V : Type} (cmp : K -> K -> comparison) (c : contract).

(** The user's view: the elements of the map in key order, and key and value of
    every live element, whether in the map or not. *)
Record view : Type := View { elems : list nat; vals : gmap nat (K * V) }.

(** Element [x] has a key below (above, equal to) [k]. *)
Definition keyed (A : view) (o : comparison) (k : K) (x : nat) : Prop :=
  exists kv, vals A !! x = Some kv /\ cmp k (fst kv) = o.

(** Key [k] is that of element [x], which has [l1] before and [l2] after it. *)
Definition present (A : view) (k : K) (l1 : list nat) (x : nat) (l2 : list nat) : Prop :=
  elems A = l1 ++ x :: l2 /\ keyed A Eq k x.
(** No element has key [k]; [l1] are the elements with smaller keys. *)
Definition absent (A : view) (k : K) (l1 l2 : list nat) : Prop :=
  elems A = l1 ++ l2 /\ Forall (keyed A Gt k) l1 /\ Forall (keyed A Lt k) l2.

Definition unused (A : view) (p : nat) : Prop := p <> 0 /\ p <> 1 /\ vals A !! p = None.

Definition set_val (A : view) (e : nat) (kv : K * V) : view := View (elems A) (<[e := kv]> (vals A)).
Definition set_elems (A : view) (l : list nat) : view := View l (vals A).
Definition drop_val (A : view) (e : nat) : view := View (elems A) (delete e (vals A)).

(** Element [e] with data [kv] is put between [l1] and [l2]: [e] itself, or the
    allocated copy at [ans]; [p] is the element now in the map, 0 if memory was
    refused. *)
Inductive added (A : view) (l1 l2 : list nat) (e ans : nat) (kv : K * V) : nat -> view -> Prop :=
  | added_own : allocates c = false -> added A l1 l2 e ans kv e (set_elems A (l1 ++ e :: l2))
  | added_copy : allocates c = true -> unused A ans ->
      added A l1 l2 e ans kv ans (set_elems (set_val A ans kv) (l1 ++ ans :: l2))
  | added_refused : allocates c = true -> ans = 0 ->
      added A l1 l2 e ans kv 0 A.

(** The same for the macros, which need an allocator. *)
Inductive made (A : view) (l1 l2 : list nat) (ans : nat) (kv : K * V) : nat -> view -> Prop :=
  | made_new : allocates c = true -> unused A ans ->
      made A l1 l2 ans kv ans (set_elems (set_val A ans kv) (l1 ++ ans :: l2))
  | made_refused : allocates c = false \/ ans = 0 ->
      made A l1 l2 ans kv 0 A.

(** Element [x] with data [kv] leaves the map. *)
Definition removed (A : view) (l1 : list nat) (x : nat) (l2 : list nat) : view :=
  let A' := set_elems A (l1 ++ l2) in if allocates c then drop_val A' x else A'.

(** [x] is the first element of [l] that satisfies [P], 0 if none does. *)
Inductive first (P : nat -> Prop) : list nat -> nat -> Prop :=
  | first_none : first P [] 0
  | first_here x l : P x -> first P (x :: l) x
  | first_later x l y : ~ P x -> first P l y -> first P (x :: l) y.

Definition refused (p : nat) : bool := p =? 0.

(** Permitted calls, their answer and effect. *)
Inductive call (A : view) : map_op K V -> map_res K V -> view -> Prop :=
  | call_new e k v l r p b : unused A e ->
      call A (MNew e k v l r p b) (RPtr e) (set_val A e (k, v))
  | call_contains_yes k l1 x l2 : present A k l1 x l2 ->
      call A (MContains k) (RBool true) A
  | call_contains_no k l1 l2 : absent A k l1 l2 -> ask_empty c = true \/ elems A <> [] ->
      call A (MContains k) (RBool false) A
  | call_get_yes k l1 x l2 : present A k l1 x l2 ->
      call A (MGet k) (RPtr x) A
  | call_get_no k l1 l2 : absent A k l1 l2 ->
      call A (MGet k) (RPtr 0) A
  (* insert: the new value goes into the map, the old one to tmp and the handle *)
  | call_insert_new e tmp ans kv l1 l2 p A' : vals A !! e = Some kv -> absent A (fst kv) l1 l2 ->
      added A l1 l2 e ans kv p A' ->
      call A (MInsert e tmp ans) (REnt false (refused p) 0) A'
  | call_insert_old e tmp ans kv l1 x l2 old t0 : vals A !! e = Some kv -> present A (fst kv) l1 x l2 ->
      vals A !! x = Some old -> e ∉ elems A -> tmp ∉ elems A -> tmp <> e -> vals A !! tmp = Some t0 ->
      call A (MInsert e tmp ans) (REnt true false tmp)
        (set_val (set_val (set_val A tmp old) x kv) e old)
  | call_try_new e ans kv l1 l2 p A' : vals A !! e = Some kv -> absent A (fst kv) l1 l2 ->
      added A l1 l2 e ans kv p A' ->
      call A (MTryInsert e ans) (REnt false (refused p) p) A'
  | call_try_old e ans kv l1 x l2 : vals A !! e = Some kv -> present A (fst kv) l1 x l2 ->
      call A (MTryInsert e ans) (REnt true false x) A
  | call_assign_new e ans kv l1 l2 p A' : vals A !! e = Some kv -> absent A (fst kv) l1 l2 ->
      added A l1 l2 e ans kv p A' ->
      call A (MAssign e ans) (REnt false (refused p) p) A'
  | call_assign_old e ans kv l1 x l2 : vals A !! e = Some kv -> present A (fst kv) l1 x l2 ->
      e ∉ elems A ->
      call A (MAssign e ans) (REnt true false x) (set_val A x kv)
  (* remove: with an allocator the element is freed after its data went to the handle *)
  | call_remove_no e kv l1 l2 : vals A !! e = Some kv -> absent A (fst kv) l1 l2 ->
      call A (MRemove e) (REnt false false 0) A
  | call_remove_own e kv l1 x l2 : vals A !! e = Some kv -> present A (fst kv) l1 x l2 ->
      allocates c = false ->
      call A (MRemove e) (REnt true false x) (removed A l1 x l2)
  | call_remove_free e kv l1 x l2 old : vals A !! e = Some kv -> present A (fst kv) l1 x l2 ->
      allocates c = true -> e ∉ elems A -> vals A !! x = Some old ->
      call A (MRemove e) (REnt true false e) (set_val (removed A l1 x l2) e old)
  (* entries *)
  | call_entry_yes k l1 x l2 : present A k l1 x l2 ->
      call A (MEntry k) (REnt true false x) A
  | call_entry_no k l1 l2 : absent A k l1 l2 ->
      call A (MEntry k) (REnt false false 0) A
  | call_or_insert_new k e ans kv l1 l2 p A' : vals A !! e = Some kv -> cmp k (fst kv) = Eq ->
      absent A k l1 l2 -> added A l1 l2 e ans kv p A' ->
      call A (MOrInsert k e ans) (RPtr p) A'
  | call_or_insert_old k e ans l1 x l2 : present A k l1 x l2 ->
      call A (MOrInsert k e ans) (RPtr x) A
  | call_insert_entry_new k e ans kv l1 l2 p A' : vals A !! e = Some kv -> cmp k (fst kv) = Eq ->
      absent A k l1 l2 -> added A l1 l2 e ans kv p A' ->
      call A (MInsertEntry k e ans) (RPtr p) A'
  | call_insert_entry_old k e ans kv l1 x l2 : vals A !! e = Some kv -> cmp k (fst kv) = Eq ->
      present A k l1 x l2 -> e ∉ elems A ->
      call A (MInsertEntry k e ans) (RPtr x) (set_val A x kv)
  | call_modify_yes k f l1 x l2 kv : present A k l1 x l2 -> vals A !! x = Some kv ->
      call A (MAndModify k f) (RPtr x) (set_val A x (fst kv, f (snd kv)))
  | call_modify_no k f l1 l2 : absent A k l1 l2 ->
      call A (MAndModify k f) (RPtr 0) A
  | call_remove_entry_yes k l1 x l2 : present A k l1 x l2 ->
      call A (MRemoveEntry k) (REnt true false (if allocates c then 0 else x)) (removed A l1 x l2)
  | call_remove_entry_no k l1 l2 : absent A k l1 l2 ->
      call A (MRemoveEntry k) (REnt false false 0) A
  (* macros *)
  | call_or_insert_w_new k k' v ans l1 l2 p A' : cmp k k' = Eq -> absent A k l1 l2 ->
      made A l1 l2 ans (k', v) p A' ->
      call A (MOrInsertW k k' v ans) (RPtr p) A'
  | call_or_insert_w_old k k' v ans l1 x l2 : present A k l1 x l2 ->
      call A (MOrInsertW k k' v ans) (RPtr x) A
  | call_insert_entry_w_new k k' v ans l1 l2 p A' : cmp k k' = Eq -> absent A k l1 l2 ->
      made A l1 l2 ans (k', v) p A' ->
      call A (MInsertEntryW k k' v ans) (RPtr p) A'
  | call_insert_entry_w_old k k' v ans l1 x l2 : cmp k k' = Eq -> present A k l1 x l2 ->
      call A (MInsertEntryW k k' v ans) (RPtr x) (set_val A x (k', v))
  | call_try_w_new k v ans l1 l2 p A' : absent A k l1 l2 -> made A l1 l2 ans (k, v) p A' ->
      call A (MTryInsertW k v ans) (REnt false (refused p || macro_err c) p) A'
  | call_try_w_old k v ans l1 x l2 : present A k l1 x l2 ->
      call A (MTryInsertW k v ans) (REnt true false x) A
  | call_assign_w_new k v ans l1 l2 p A' : absent A k l1 l2 -> made A l1 l2 ans (k, v) p A' ->
      call A (MAssignW k v ans) (REnt false (refused p || macro_err c) p) A'
  | call_assign_w_old k v ans l1 x l2 : present A k l1 x l2 ->
      call A (MAssignW k v ans) (REnt true false x) (set_val A x (k, v))
  (* walking *)
  | call_begin : call A MBegin (RPtr (hd 0 (elems A))) A
  | call_rbegin : call A MRBegin (RPtr (hd 0 (rev (elems A)))) A
  | call_next e l1 l2 : elems A = l1 ++ e :: l2 ->
      call A (MNext e) (RPtr (hd 0 l2)) A
  | call_rnext e l1 l2 : elems A = l1 ++ e :: l2 ->
      call A (MRNext e) (RPtr (hd 0 (rev l1))) A
  (* the first element not less than a, and the first greater than b *)
  | call_range a b x y :
      first (fun z => keyed A Lt a z \/ keyed A Eq a z) (elems A) x ->
      first (fun z => keyed A Lt b z) (elems A) y ->
      call A (MRange a b) (RRange x y) A
  (* the last element not greater than a, and the last less than b *)
  | call_rrange a b x y :
      first (fun z => keyed A Gt a z \/ keyed A Eq a z) (rev (elems A)) x ->
      first (fun z => keyed A Gt b z) (rev (elems A)) y ->
      call A (MRRange a b) (RRange x y) A
  (* every element is given to the destructor once, and freed with an allocator *)
  | call_clear fn ps : (forall x kv, (x, kv) ∈ ps <-> fn = true /\ x ∈ elems A /\ vals A !! x = Some kv) ->
      NoDup ps ->
      call A (MClear fn) (RDestroyed OK ps)
        (View [] (if allocates c then foldr delete (vals A) (elems A) else vals A))
  | call_size : call A MSize (RNum (Z.of_nat (length (elems A)))) A
  | call_is_empty : call A MIsEmpty (RBool (length (elems A) =? 0)) A
  | call_validate : call A MValidate (RBool true) A.

Inductive calls : view -> list (map_op K V) -> list (map_res K V) -> view -> Prop :=
  | calls_nil A : calls A [] [] A
  | calls_cons A o r A1 os rs A2 : call A o r A1 -> calls A1 os rs A2 ->
      calls A (o :: os) (r :: rs) A2.

Definition start : view := View [] ∅.

(** Answers agree: they are equal, except that the order in which clear destroys
    the elements is free. *)
Definition agree (r r' : map_res K V) : Prop :=
  match r, r' with
  | RDestroyed x l, RDestroyed y l' => x = y /\ l ≡ₚ l'
  | _, _ => r = r'
  end.

(** What can be seen of a map: its size, its elements with their data walked
    forwards and backwards, and validate. *)
Definition shown (A : view) (size : outcome Z) (fwd bwd : outcome (list (nat * (K * V))))
    (valid : outcome bool) : Prop :=
  size = Ok (Z.of_nat (length (elems A))) /\ valid = Ok true /\
  exists ps, map fst ps = elems A /\ Forall (fun p => vals A !! fst p = Some (snd p)) ps /\
    fwd = Ok ps /\ bwd = Ok (rev ps).

(** The elements are in strictly ascending key order. *)
Definition ascending (A : view) : Prop :=
  StronglySorted (fun x y => exists a b, vals A !! x = Some a /\ vals A !! y = Some b /\
    cmp (fst a) (fst b) = Lt) (elems A).
End spec.
Arguments view K V : clear implicits.
