(** Specification of the flat priority queue: a multiset of elements, given as
    a list up to permutation. *)
From stdpp Require Import base numbers option list.
From Verif Require Import Common BufferModel OrderSpec FpqModel.

Section spec.
Context {A : Type} (cmp : A -> A -> comparison) (order : comparison).

(** No element of [c] beats [x]. *)
Definition unbeaten (x : A) (c : list A) : Prop := forall y, y ∈ c -> cmp y x <> order.

(** One call takes the elements [c] to [c'] and answers [r]. [grow]: the queue
    may allocate. *)
Definition pq_call (grow : bool) (c : list A) (o : fpq_op A) (r : fpq_ret A) (c' : list A) : Prop :=
  match o with
  | QPush x ok =>
      (r = QVal (Some x) /\ c' ≡ₚ x :: c) \/
      (r = QVal None /\ c' = c /\ (grow = false \/ ok = false))
  | QPop =>
      match c with
      | [] => r = QRes INPUT_ERR /\ c' = []
      | _ => r = QRes OK /\ exists x, c ≡ₚ x :: c' /\ unbeaten x c
      end
  | QErase h => exists x, c !! h = Some x /\ r = QRes OK /\ c ≡ₚ x :: c'
  | QUpdate h f => exists x, c !! h = Some x /\ r = QVal (Some (f x)) /\ c' ≡ₚ <[h := f x]> c
  | QHeapify l ok =>
      (r = QRes OK /\ c' ≡ₚ l) \/
      (r = QRes NO_ALLOC /\ c' = c /\ grow = false) \/
      (r = QRes MEM_ERR /\ c' = c /\ ok = false)
  | QClear => r = QRes OK /\ c' = []
  | QFront =>
      c' = c /\ match c with
                | [] => r = QVal None
                | _ => exists x, r = QVal (Some x) /\ x ∈ c /\ unbeaten x c
                end
  | QSize => c' = c /\ r = QNum (length c)
  | QValidate => c' = c /\ r = QBool true
  end.

(** A trace of calls, answers and elements, starting from the elements [c]. *)
Fixpoint pq_trace (grow : bool) (c : list A)
    (tr : list (fpq_op A * fpq_ret A * list (option A))) : Prop :=
  match tr with
  | [] => True
  | (o, r, s) :: tr => exists c', s = Some <$> c' /\ pq_call grow c o r c' /\ pq_trace grow c' tr
  end.

(** An empty queue of the given capacity. *)
Definition fresh_fpq (cap : nat) (grow : bool) : buf A := Buf (replicate cap None) 0 grow.

(** Array form of the heap order: no element beats its parent. *)
Definition heap (c : list A) : Prop :=
  forall j x p, c !! j = Some x -> c !! ((j - 1) / 2) = Some p -> 0 < j -> cmp x p <> order.

(** A queue as it is between calls, holding exactly [c] in array order. *)
Definition fpq_ok (b : buf A) (c : list A) : Prop :=
  buf_contents b = Some <$> c /\ b_sz b = length c /\
  (length c < b_cap b \/ c = []) /\ heap c.

(** Priority order, best first. *)
Definition in_order (c : list A) : Prop :=
  forall i j x y, i < j -> c !! i = Some x -> c !! j = Some y -> cmp y x <> order.

End spec.
