(** Specification of the double ended queue: a list that, when it may not
    grow, keeps at most [q_cap] elements. *)
From stdpp Require Import base numbers option list.
From Verif Require Import Common BufferModel FdeqModel.

Section spec.
Context {A : Type}.

Record deq : Type := Deq { q_list : list A; q_cap : nat; q_grow : bool }.

(** Keep the last [n] elements. *)
Definition lastn (n : nat) (l : list A) : list A := drop (length l - n) l.

(** What a push of [k] more elements does to the capacity: [None] when memory
    is needed and refused. A capacity of 0 grows to 8. *)
Definition deq_room (q : deq) (k : nat) (ok : bool) : option nat :=
  if decide (length (q_list q) + k < q_cap q) then Some (q_cap q)
  else if negb (q_grow q) then Some (q_cap q)
  else if ok then Some (match q_cap q with 0 => 8 | c => (c + k) * 2 end)
  else None.

(** One call. [None]: outside the scope of the claim, namely a ring of
    capacity 0, at() beyond the size, growth from capacity 0 by a range of more than eight
    elements, an empty front range, and a front range longer than a ring. *)
Definition deq_step (q : deq) (o : fdeq_op A) : option (deq * fdeq_ret A) :=
  let l := q_list q in
  let g := q_grow q in
  if decide (g = false /\ q_cap q = 0) then None else
  match o with
  | DPushBack x ok =>
      match deq_room q 0 ok with
      | None => Some (q, DVal None)
      | Some c => Some (Deq (if g then l ++ [x] else lastn c (l ++ [x])) c g,
                        DVal (Some x))
      end
  | DPushFront x ok =>
      match deq_room q 0 ok with
      | None => Some (q, DVal None)
      | Some c => Some (Deq (if g then x :: l else take c (x :: l)) c g,
                        DVal (Some x))
      end
  | DPushBackRange vs ok =>
      match deq_room q (length vs) ok with
      | None => Some (q, DRes MEM_ERR)
      | Some c => if decide (g = true /\ c < length vs) then None
                  else Some (Deq (if g then l ++ vs else lastn c (l ++ vs)) c g, DRes OK)
      end
  | DPushFrontRange vs ok =>
      match deq_room q (length vs) ok with
      | None => Some (q, DRes MEM_ERR)
      | Some c => if decide (c < length vs \/ vs = []) then None
                  else Some (Deq (if g then vs ++ l else take c (vs ++ l)) c g, DRes OK)
      end
  | DPopFront => match l with
                 | [] => Some (q, DRes INPUT_ERR)
                 | _ :: l' => Some (Deq l' (q_cap q) g, DRes OK)
                 end
  | DPopBack => match l with
                | [] => Some (q, DRes INPUT_ERR)
                | _ => Some (Deq (take (length l - 1) l) (q_cap q) g, DRes OK)
                end
  | DClear => Some (Deq [] (q_cap q) g, DRes OK)
  | DFront => Some (q, DVal (head l))
  | DBack => Some (q, DVal (last l))
  | DAt i => if decide (i < length l \/ q_cap q <= i) then Some (q, DVal (l !! i)) else None
  | DSize => Some (q, DNum (length l))
  | DValidate => Some (q, DBool true)
  end.

Fixpoint deq_run (q : deq) (os : list (fdeq_op A)) : option (deq * list (fdeq_ret A)) :=
  match os with
  | [] => Some (q, [])
  | o :: os =>
      '(q1, r) ← deq_step q o;
      '(q2, rs) ← deq_run q1 os;
      Some (q2, r :: rs)
  end.

(** Calls on single elements (and those without arguments). *)
Definition deq_single (o : fdeq_op A) : Prop :=
  match o with
  | DPushBackRange _ _ | DPushFrontRange _ _ | DAt _ => False
  | _ => True
  end.

(** The two facts every reachable deque satisfies. *)
Definition fdeq_wf (d : fdeq A) : Prop :=
  d_sz d <= d_cap d /\ (d_front d < d_cap d \/ d_cap d = 0 /\ d_front d = 0).

(** A deque as the initialiser leaves it. *)
Definition fresh_fdeq (cap : nat) (grow : bool) : fdeq A :=
  Fdeq (Buf (replicate cap None) 0 grow) 0.

End spec.
Arguments deq : clear implicits.
