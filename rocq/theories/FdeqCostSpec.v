(** What the writes of a deque are counted against. *)
From stdpp Require Import base numbers option list.
From Verif Require Import Common BufferModel FdeqModel.

Section spec.
Context {A : Type}.

(** The elements a call passes to the deque. *)
Definition offered (o : fdeq_op A) : nat :=
  match o with
  | DPushBack _ _ | DPushFront _ _ => 1
  | DPushBackRange l _ | DPushFrontRange l _ => length l
  | _ => 0
  end.
Fixpoint offered_all (os : list (fdeq_op A)) : nat :=
  match os with [] => 0 | o :: os => offered o + offered_all os end.
End spec.
