(** What the priority queue does for its users, and where it stops doing so. *)
From Coq Require Import Sorted.
From stdpp Require Import base numbers option gmap fin_maps fin_sets list.
From Verif Require Import Common PqModel.

Section spec.
Context {V : Type} (cmp : V -> V -> comparison) (order : comparison) (alloc : bool) (off : nat).

(** The user's view: the elements in the queue, the one at its front (0 if
    empty), the data of every live element, elements known to be out of the
    queue because the queue cleared their links, and whether the front is worn.
    The front is worn when it got there by a change of priority: its sibling
    links may then be out of date, and only calls that do not use them keep to
    the specification. *)
Record view : Type := View {
  queue : gset nat; top : nat; vals : gmap nat V; idle : gset nat; worn : bool
}.

(** [t] is a front for the elements [q] with data [D]: no element goes before it. *)
Definition front_of (D : gmap nat V) (q : gset nat) (t : nat) : Prop :=
  (q = ∅ /\ t = 0) \/
  (t ∈ q /\ forall x v w, x ∈ q -> D !! x = Some v -> D !! t = Some w -> cmp v w <> order).

(** [t] is the front when [e] joins a queue whose front was [old]: the earlier
    one wins ties. *)
Definition joined (D : gmap nat V) (old e t : nat) : Prop :=
  (t = e /\ (old = 0 \/ exists v w, D !! e = Some v /\ D !! old = Some w /\ cmp v w = order)) \/
  (t = old /\ old <> 0 /\ forall v w, D !! e = Some v -> D !! old = Some w -> cmp v w <> order).

Definition unused (A : view) (p : nat) : Prop := p <> 0 /\ vals A !! p = None.

(** An element of the queue, or one whose links the queue has cleared. *)
Definition known (A : view) (e : nat) : Prop := e ∈ queue A \/ e ∈ idle A.

(** Permitted calls. *)
Inductive may (A : view) : pq_op V -> Prop :=
  | may_new e v l n p a : unused A e -> may A (PNew e v l n p a)
  | may_front : may A PFront
  | may_push e ans v : alloc = false -> e <> 0 -> vals A !! e = Some v -> e ∉ queue A ->
      may A (PPush e ans)
  | may_emplace v ans ans2 : alloc = true -> off = 0 -> unused A ans -> unused A ans2 -> ans <> ans2 ->
      may A (PEmplace v ans ans2)
  | may_emplace_refused v ans ans2 : alloc = false \/ ans = 0 -> may A (PEmplace v ans ans2)
  | may_pop : may A PPop
  | may_extract e : known A e -> may A (PExtract e)
  | may_erase e : known A e -> may A (PErase e)
  | may_update e v : known A e -> may A (PUpdate e v)
  | may_increase e v w : e ∈ queue A -> vals A !! e = Some w -> cmp v w <> Lt ->
      (** not on a worn front, if that is how the queue handles an increase *)
      e <> top A \/ worn A = false \/ order = Lt ->
      may A (PIncrease e v)
  | may_decrease e v w : e ∈ queue A -> vals A !! e = Some w -> cmp v w <> Gt ->
      e <> top A \/ worn A = false \/ order = Gt ->
      may A (PDecrease e v)
  | may_change_idle e v o : e ∈ idle A -> o = PIncrease e v \/ o = PDecrease e v -> may A o
  | may_clear fn : may A (PClear fn)
  | may_size : may A PSize
  | may_is_empty : may A PIsEmpty
  | may_validate : worn A = false -> may A PValidate.

(** The queue [q], [t] becomes the front, [e] has left it for good ([fr]: its
    memory is freed) or is known to be out of it. *)
Definition without (A : view) (e t : nat) (w fr cl : bool) : view :=
  View (queue A ∖ {[e]}) t (if fr then delete e (vals A) else vals A)
    (if negb fr && cl then {[e]} ∪ idle A else idle A) w.

(** [e] leaves the queue. *)
Inductive leaves (A : view) (e : nat) (fr cl : bool) : view -> Prop :=
  | leaves_front t : e = top A -> front_of (vals A) (queue A ∖ {[e]}) t ->
      leaves A e fr cl (without A e t false fr cl)
  | leaves_rest : e <> top A -> leaves A e fr cl (without A e (top A) (worn A) fr cl).

(** The priority of [e] changes. If it overtakes the front it becomes the front,
    worn if that is how it got there. *)
Inductive repriced (A : view) (e : nat) (v : V) : view -> Prop :=
  | repriced_front t : e = top A -> front_of (<[e := v]> (vals A)) (queue A) t ->
      repriced A e v (View (queue A) t (<[e := v]> (vals A)) (idle A) false)
  | repriced_rest t w : e <> top A -> joined (<[e := v]> (vals A)) (top A) e t ->
      (t = top A -> w = worn A) ->
      repriced A e v (View (queue A) t (<[e := v]> (vals A)) (idle A) w).

(** Answers and effects of permitted calls. *)
Inductive effect (A : view) : pq_op V -> pq_res V -> view -> Prop :=
  | effect_new e v l n p a :
      effect A (PNew e v l n p a) (RPtr e)
        (View (queue A) (top A) (<[e := v]> (vals A))
           (if (n =? 0) || (p =? 0) then {[e]} ∪ idle A else idle A) (worn A))
  | effect_front : effect A PFront (RPtr (top A)) A
  | effect_push e ans t : joined (vals A) (top A) e t ->
      effect A (PPush e ans) (RPtr e)
        (View ({[e]} ∪ queue A) t (vals A) (idle A ∖ {[e]}) (if t =? e then false else worn A))
  | effect_emplace v ans ans2 t : alloc = true -> ans <> 0 ->
      joined (<[ans := v]> (vals A)) (top A) ans t ->
      (** the second allocation holds a copy that no one uses *)
      effect A (PEmplace v ans ans2) (RPtr ans)
        (View ({[ans]} ∪ queue A) t (<[ans2 := v]> (<[ans := v]> (vals A))) (idle A)
           (if t =? ans then false else worn A))
  | effect_emplace_refused v ans ans2 : alloc = false \/ ans = 0 ->
      effect A (PEmplace v ans ans2) (RPtr 0) A
  | effect_pop A' : top A ∈ queue A -> leaves A (top A) alloc true A' ->
      effect A PPop (RResult OK) A'
  | effect_pop_empty : queue A = ∅ -> effect A PPop (RResult INPUT_ERR) A
  | effect_extract e A' : e ∈ queue A -> leaves A e false true A' ->
      effect A (PExtract e) (RPtr e) A'
  | effect_extract_idle e : e ∈ idle A -> effect A (PExtract e) (RPtr 0) A
  | effect_erase e A' : e ∈ queue A -> leaves A e alloc false A' ->
      effect A (PErase e) (RResult OK) A'
  | effect_erase_idle e : e ∈ idle A -> effect A (PErase e) (RResult INPUT_ERR) A
  | effect_update e v A' o : e ∈ queue A -> repriced A e v A' ->
      o = PUpdate e v \/ o = PIncrease e v \/ o = PDecrease e v ->
      effect A o (RBool true) A'
  | effect_update_idle e v o : e ∈ idle A ->
      o = PUpdate e v \/ o = PIncrease e v \/ o = PDecrease e v ->
      effect A o (RBool false) A
  | effect_clear fn ps :
      map fst ps ≡ₚ elements (queue A) ->
      Forall (fun p => vals A !! fst p = Some (snd p)) ps ->
      StronglySorted (fun p q => cmp (snd q) (snd p) <> order) ps ->
      effect A (PClear fn) (RDestroyed OK (if fn then map (fun p => (fst p, Some (snd p))) ps else []))
        (View ∅ 0 (if alloc then foldr delete (vals A) (map fst ps) else vals A)
           (if alloc then idle A else queue A ∪ idle A) false)
  | effect_size : effect A PSize (RNum (Z.of_nat (size (queue A)))) A
  | effect_is_empty : effect A PIsEmpty (RBool (size (queue A) =? 0)) A
  | effect_validate : effect A PValidate (RBool true) A.

(** A program that only makes permitted calls, whatever answers the
    specification allows. *)
Fixpoint good (A : view) (c : program V) : Prop :=
  match c with
  | Done => True
  | Do o k => may A o /\ forall r A', effect A o r A' -> good A' (k r)
  end.

(** A run of the program that the specification allows, its answers and the view
    at its end. *)
Inductive trace : view -> program V -> list (pq_res V) -> view -> Prop :=
  | trace_done A : trace A Done [] A
  | trace_do A o k r A1 rs A2 : effect A o r A1 -> trace A1 (k r) rs A2 ->
      trace A (Do o k) (r :: rs) A2.

(** A program without changes of priority. *)
Fixpoint plain (c : program V) : Prop :=
  match c with
  | Done => True
  | Do o k =>
    match o with PUpdate _ _ | PIncrease _ _ | PDecrease _ _ => False | _ => True end /\
    forall r, plain (k r)
  end.

Definition start : view := View ∅ 0 ∅ ∅ false.

(** The nodes found by following left_child_ and next_sibling_ from the root. *)
Inductive reach (s : pmem V) : nat -> Prop :=
  | reach_root : root s <> 0 -> reach s (root s)
  | reach_child p c : reach s p -> lc s !! p = Some c -> c <> 0 -> reach s c
  | reach_sibling c d : reach s c -> c <> root s -> ns s !! c = Some d -> reach s d.

(** The memory holds what the user sees. *)
Definition shows (s : pmem V) (A : view) : Prop :=
  pq_size s = Z.of_nat (size (queue A)) /\
  pq_front s = top A /\
  (forall x, x ∈ queue A <-> reach s x) /\
  dat s = vals A /\
  (worn A = false -> pq_validate cmp order s = Ok true).

(** Front and pop, [n] times: the elements in the order they came. *)
Fixpoint drain (n : nat) (s : pmem V) : outcome (pmem V * list (nat * V)) :=
  match n with
  | 0 => Ok (s, [])
  | S n =>
    v ← value s (pq_front s);
    '(s1, r) ← pq_pop cmp order alloc s;
    _ ← oassert (bool_decide (r = OK));
    '(s2, l) ← drain n s1;
    Ok (s2, (pq_front s, v) :: l)
  end.

End spec.
Arguments view V : clear implicits.
