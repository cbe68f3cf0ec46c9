(** What an array backed ordered map does for its users: a finite map from keys to
    elements that live in the slots of a buffer. *)
From stdpp Require Import base numbers option gmap fin_maps list.
From Verif Require Import Common MapSpec FlatOps.

(** Points in which a map may be configured, or is known to deviate. *)
Record fcontract : Type := FContract {
  grows : bool;          (** the map was given an allocator *)
  shows_new : bool;      (** the entry of insert on an existing key unwraps to the
                             new value in the map (documented: false, it unwraps to
                             the old value in the user's struct) *)
  writes_handle : bool;  (** remove writes the removed value to the user's struct
                             (documented: true) *)
  asks_empty : bool;     (** contains may be asked of an empty map (documented: true) *)
  clears_unused : bool -> bool
                         (** clear may be called before any insertion, with a
                             destructor ([true]) or without (documented: in both cases) *)
}.

Section spec.
Context {K V : Type} (cmp : K -> K -> comparison) (c : fcontract).

(** The user's view: the slots in use in key order with their data, the capacity,
    and whether anything was ever inserted. *)
Record fview : Type := FView { fv : view K V; room : nat; used : bool }.
Implicit Types (A : fview).

Definition count A : nat := length (elems (fv A)).

Definition with_fv A (v : view K V) : fview := FView v (room A) (used A).
Definition put A (x : nat) (kv : K * V) : fview := with_fv A (set_val (fv A) x kv).

(** A new element goes to the slot after the last one in use. Slot 0 is never in
    use, so n elements need a capacity of n + 1. *)
Definition pushed A (l1 l2 : list nat) (kv : K * V) (r : nat) : fview :=
  let n := S (count A) in
  FView (set_elems (set_val (fv A) n kv) (l1 ++ n :: l2)) r true.

Inductive fadded A (l1 l2 : list nat) (kv : K * V) (ans : grant) : option nat -> fview -> Prop :=
  | fadded_room : S (S (count A)) <= room A ->
      fadded A l1 l2 kv ans (Some (S (count A))) (pushed A l1 l2 kv (room A))
  | fadded_grown : room A < S (S (count A)) -> grows c = true -> is_Some ans ->
      fadded A l1 l2 kv ans (Some (S (count A)))
        (pushed A l1 l2 kv (if room A =? 0 then 8 else 2 * room A))
  | fadded_refused : room A < S (S (count A)) -> grows c = false \/ ans = None ->
      fadded A l1 l2 kv ans None A.

(** The element in slot [x] leaves: the element in the last slot moves to [x], all
    others stay where they are. *)
Definition moved (n x y : nat) : nat := if y =? n then x else y.
Definition fremoved A (l1 : list nat) (x : nat) (l2 : list nat) : fview :=
  let n := count A in
  with_fv A (View (map (moved n x) (l1 ++ l2))
    (delete n (match vals (fv A) !! n with Some kv => <[x := kv]> (vals (fv A)) | None => vals (fv A) end))).

Definition present_at A := present cmp (fv A).
Definition absent_at A := absent cmp (fv A).
Definition shown_at A (x : nat) (kv : K * V) : Prop := vals (fv A) !! x = Some kv.

Definition at_slot (p : option nat) (kv : K * V) : option (place * (K * V)) :=
  match p with Some x => Some (Slot x, kv) | None => None end.
Definition ptr_to (p : option nat) (kv : K * V) : option (nat * (K * V)) :=
  match p with Some x => Some (x, kv) | None => None end.
Definition frefused (p : option nat) : bool := match p with Some _ => false | None => true end.

(** Ends of ranges: an empty map answers NULL, otherwise slot 0 is the end. *)
Definition bound A (x : nat) : option nat := if count A =? 0 then None else Some x.

(** Permitted calls, their answer and effect. *)
Inductive fcall A : flat_op K V -> flat_res K V -> fview -> Prop :=
  | fcall_contains_yes k l1 x l2 : present_at A k l1 x l2 ->
      fcall A (FContains k) (XBool true) A
  | fcall_contains_no k l1 l2 : absent_at A k l1 l2 -> asks_empty c = true \/ elems (fv A) <> [] ->
      fcall A (FContains k) (XBool false) A
  | fcall_get_yes k l1 x l2 kv : present_at A k l1 x l2 -> shown_at A x kv ->
      fcall A (FGet k) (XPtr (Some (x, kv))) A
  | fcall_get_no k l1 l2 : absent_at A k l1 l2 ->
      fcall A (FGet k) (XPtr None) A
  (* insert: the new value goes into the map, the old one to the user's struct *)
  | fcall_insert_new nd kv ans l1 l2 p A' : absent_at A (fst kv) l1 l2 -> fadded A l1 l2 kv ans p A' ->
      fcall A (FInsert (nd, kv) ans) (XEnt false (frefused p) None (Some kv)) A'
  | fcall_insert_old nd kv ans l1 x l2 old : present_at A (fst kv) l1 x l2 -> shown_at A x old ->
      fcall A (FInsert (nd, kv) ans)
        (XEnt true false (Some (if shows_new c then (Slot x, kv) else (Handle, old))) (Some old))
        (put A x kv)
  | fcall_try_new nd kv ans l1 l2 p A' : absent_at A (fst kv) l1 l2 -> fadded A l1 l2 kv ans p A' ->
      fcall A (FTryInsert (nd, kv) ans) (XEnt false (frefused p) (at_slot p kv) (Some kv)) A'
  | fcall_try_old nd kv ans l1 x l2 old : present_at A (fst kv) l1 x l2 -> shown_at A x old ->
      fcall A (FTryInsert (nd, kv) ans) (XEnt true false (Some (Slot x, old)) (Some kv)) A
  | fcall_assign_new nd kv ans l1 l2 p A' : absent_at A (fst kv) l1 l2 -> fadded A l1 l2 kv ans p A' ->
      fcall A (FAssign (nd, kv) ans) (XEnt false (frefused p) (at_slot p kv) (Some kv)) A'
  | fcall_assign_old nd kv ans l1 x l2 : present_at A (fst kv) l1 x l2 ->
      fcall A (FAssign (nd, kv) ans) (XEnt true false (Some (Slot x, kv)) (Some kv)) (put A x kv)
  (* remove: the value is handed out, the last element takes the slot *)
  | fcall_remove_no nd kv l1 l2 : absent_at A (fst kv) l1 l2 ->
      fcall A (FRemove (nd, kv)) (XEnt false false None (Some kv)) A
  | fcall_remove_yes nd kv l1 x l2 old : present_at A (fst kv) l1 x l2 -> shown_at A x old ->
      fcall A (FRemove (nd, kv))
        (if writes_handle c then XEnt true false (Some (Handle, old)) (Some old)
         else XEnt true false (Some (Slot (count A), old)) (Some kv))
        (fremoved A l1 x l2)
  (* entries *)
  | fcall_entry_yes k l1 x l2 kv : present_at A k l1 x l2 -> shown_at A x kv ->
      fcall A (FEntry k) (XEnt true false (Some (Slot x, kv)) None) A
  | fcall_entry_no k l1 l2 : absent_at A k l1 l2 ->
      fcall A (FEntry k) (XEnt false false None None) A
  | fcall_or_insert_new k nd kv ans l1 l2 p A' : cmp k (fst kv) = Eq -> absent_at A k l1 l2 ->
      fadded A l1 l2 kv ans p A' ->
      fcall A (FOrInsert k (nd, kv) ans) (XPtr (ptr_to p kv)) A'
  | fcall_or_insert_old k u ans l1 x l2 kv : present_at A k l1 x l2 -> shown_at A x kv ->
      fcall A (FOrInsert k u ans) (XPtr (Some (x, kv))) A
  | fcall_insert_entry_new k nd kv ans l1 l2 p A' : cmp k (fst kv) = Eq -> absent_at A k l1 l2 ->
      fadded A l1 l2 kv ans p A' ->
      fcall A (FInsertEntry k (nd, kv) ans) (XPtr (ptr_to p kv)) A'
  | fcall_insert_entry_old k nd kv ans l1 x l2 : cmp k (fst kv) = Eq -> present_at A k l1 x l2 ->
      fcall A (FInsertEntry k (nd, kv) ans) (XPtr (Some (x, kv))) (put A x kv)
  | fcall_modify_yes k f l1 x l2 kv : present_at A k l1 x l2 -> shown_at A x kv ->
      fcall A (FAndModify k f) (XPtr (Some (x, (fst kv, f (snd kv))))) (put A x (fst kv, f (snd kv)))
  | fcall_modify_no k f l1 l2 : absent_at A k l1 l2 ->
      fcall A (FAndModify k f) (XPtr None) A
  | fcall_remove_entry_yes k l1 x l2 old : present_at A k l1 x l2 -> shown_at A x old ->
      fcall A (FRemoveEntry k) (XEnt true false (Some (Slot (count A), old)) None) (fremoved A l1 x l2)
  | fcall_remove_entry_no k l1 l2 : absent_at A k l1 l2 ->
      fcall A (FRemoveEntry k) (XEnt false false None None) A
  (* macros *)
  | fcall_or_insert_w_new k nd kv ans l1 l2 p A' : cmp k (fst kv) = Eq -> absent_at A k l1 l2 ->
      fadded A l1 l2 kv ans p A' ->
      fcall A (FOrInsertW k (nd, kv) ans) (XPtr (ptr_to p kv)) A'
  | fcall_or_insert_w_old k u ans l1 x l2 kv : present_at A k l1 x l2 -> shown_at A x kv ->
      fcall A (FOrInsertW k u ans) (XPtr (Some (x, kv))) A
  | fcall_insert_entry_w_new k nd kv ans l1 l2 p A' : cmp k (fst kv) = Eq -> absent_at A k l1 l2 ->
      fadded A l1 l2 kv ans p A' ->
      fcall A (FInsertEntryW k (nd, kv) ans) (XPtr (ptr_to p kv)) A'
  | fcall_insert_entry_w_old k nd kv ans l1 x l2 : cmp k (fst kv) = Eq -> present_at A k l1 x l2 ->
      fcall A (FInsertEntryW k (nd, kv) ans) (XPtr (Some (x, kv))) (put A x kv)
  | fcall_try_w_new k nd k' v ans l1 l2 p A' : absent_at A k l1 l2 -> fadded A l1 l2 (k, v) ans p A' ->
      fcall A (FTryInsertW k (nd, (k', v)) ans) (XEnt false (frefused p) (at_slot p (k, v)) None) A'
  | fcall_try_w_old k u ans l1 x l2 kv : present_at A k l1 x l2 -> shown_at A x kv ->
      fcall A (FTryInsertW k u ans) (XEnt true false (Some (Slot x, kv)) None) A
  | fcall_assign_w_new k nd k' v ans l1 l2 p A' : absent_at A k l1 l2 -> fadded A l1 l2 (k, v) ans p A' ->
      fcall A (FAssignW k (nd, (k', v)) ans) (XEnt false (frefused p) (at_slot p (k, v)) None) A'
  | fcall_assign_w_old k nd k' v ans l1 x l2 : present_at A k l1 x l2 ->
      fcall A (FAssignW k (nd, (k', v)) ans) (XEnt true false (Some (Slot x, (k, v))) None) (put A x (k, v))
  (* walking *)
  | fcall_begin : fcall A FBegin (XIter (hd 0 (elems (fv A)))) A
  | fcall_rbegin : fcall A FRBegin (XIter (hd 0 (rev (elems (fv A))))) A
  | fcall_next e l1 l2 : elems (fv A) = l1 ++ e :: l2 ->
      fcall A (FNext e) (XIter (hd 0 l2)) A
  | fcall_rnext e l1 l2 : elems (fv A) = l1 ++ e :: l2 ->
      fcall A (FRNext e) (XIter (hd 0 (rev l1))) A
  (* the first element not less than a, and the first greater than b *)
  | fcall_range a b x y :
      first (fun z => keyed cmp (fv A) Lt a z \/ keyed cmp (fv A) Eq a z) (elems (fv A)) x ->
      first (fun z => keyed cmp (fv A) Lt b z) (elems (fv A)) y ->
      fcall A (FRange a b) (XRange (bound A x) (bound A y)) A
  (* the last element not greater than a, and the last less than b *)
  | fcall_rrange a b x y :
      first (fun z => keyed cmp (fv A) Gt a z \/ keyed cmp (fv A) Eq a z) (rev (elems (fv A))) x ->
      first (fun z => keyed cmp (fv A) Gt b z) (rev (elems (fv A))) y ->
      fcall A (FRRange a b) (XRange (bound A x) (bound A y)) A
  (* every element is given to the destructor once; the capacity stays *)
  | fcall_clear fn ps : clears_unused c fn = true \/ used A = true ->
      (forall x kv, (x, kv) ∈ ps <-> fn = true /\ x ∈ elems (fv A) /\ vals (fv A) !! x = Some kv) ->
      NoDup ps ->
      fcall A (FClear fn) (XDestroyed OK ps) (with_fv A (View [] ∅))
  | fcall_size : fcall A FSize (XNum (count A)) A
  | fcall_capacity : fcall A FCapacity (XNum (room A)) A
  | fcall_is_empty : fcall A FIsEmpty (XBool (count A =? 0)) A
  | fcall_validate : fcall A FValidate (XBool true) A.

Inductive fcalls : fview -> list (flat_op K V) -> list (flat_res K V) -> fview -> Prop :=
  | fcalls_nil A : fcalls A [] [] A
  | fcalls_cons A o r A1 os rs A2 : fcall A o r A1 -> fcalls A1 os rs A2 ->
      fcalls A (o :: os) (r :: rs) A2.

(** A map over a buffer of [n] slots. *)
Definition fstart (n : nat) : fview := FView (View [] ∅) n false.

(** Answers agree: they are equal, except that the order in which clear destroys
    the elements is free. *)
Definition fagree (r r' : flat_res K V) : Prop :=
  match r, r' with
  | XDestroyed x l, XDestroyed y l' => x = y /\ l ≡ₚ l'
  | _, _ => r = r'
  end.

(** What can be seen of a map: its size, capacity, its elements with their data
    walked forwards and backwards, and validate. *)
Definition fshown A (size capacity : nat) (fwd bwd : outcome (list (nat * (K * V))))
    (valid : outcome bool) : Prop :=
  size = count A /\ capacity = room A /\ valid = Ok true /\
  exists ps, map fst ps = elems (fv A) /\ Forall (fun p => vals (fv A) !! fst p = Some (snd p)) ps /\
    fwd = Ok ps /\ bwd = Ok (rev ps).
End spec.
Arguments fview K V : clear implicits.
