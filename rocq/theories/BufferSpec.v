(** Specification of the buffer: a list with a capacity. *)
From stdpp Require Import base numbers option list.
From Verif Require Import Common BufferModel.

Section spec.
Context {A : Type}.

(** Abstract state: the vector, the capacity, whether growing is allowed. *)
Record vec : Type := Vec { v_list : list A; v_cap : nat; v_grow : bool }.

Definition grown (cap : nat) : nat := match cap with 0 => 8 | _ => cap * 2 end.

(** [None]: the call touches a slot between size and capacity, whose content
    the documentation leaves open, or shrinks below the size. *)
Definition vec_step (v : vec) (o : buf_op A) : option (vec * buf_ret) :=
  let '(Vec l cap g) := v in
  let n := length l in
  match o with
  | BPush x ok =>
      if decide (n < cap) then Some (Vec (l ++ [x]) cap g, RRef (Some n))
      else if g && ok then Some (Vec (l ++ [x]) (grown cap) g, RRef (Some n))
      else Some (v, RRef None)
  | BPop => match n with
            | 0 => Some (v, RRes INPUT_ERR)
            | S m => Some (Vec (take m l) cap g, RRes OK)
            end
  | BPopN k => if decide (k <= n) then Some (Vec (take (n - k) l) cap g, RRes OK)
               else Some (v, RRes INPUT_ERR)
  | BSwap i j =>
      if decide (cap <= i \/ cap <= j \/ i = j) then Some (v, RRes INPUT_ERR)
      else match l !! i, l !! j with
           | Some x, Some y =>
               Some (Vec (<[i := y]> (<[j := x]> l)) cap g, RRes OK)
           | _, _ => None
           end
  | BWrite i x =>
      if decide (cap <= i) then Some (v, RRes INPUT_ERR)
      else Some (Vec (<[i := x]> l) cap g, RRes OK)
  | BCopy d s =>
      if decide (cap <= d \/ cap <= s) then Some (v, RRef None)
      else match l !! s with
           | Some x => Some (Vec (<[d := x]> l) cap g, RRef (Some d))
           | None => None
           end
  | BReserve c has_fn ok =>
      if negb has_fn then Some (v, RRes NO_ALLOC)
      else if decide (c <> 0 /\ ok = false) then Some (v, RRes MEM_ERR)
      else if decide (n <= c) then Some (Vec l c g, RRes OK)
      else None
  | BBack => Some (v, RRef (match n with 0 => None | S m => Some m end))
  | BFront => if decide (cap = 0) then Some (v, RRef None)
              else Some (v, RRef (Some 0))
  | BSize => Some (v, RNum n)
  | BCapacity => Some (v, RNum cap)
  end.

Fixpoint vec_run (v : vec) (os : list (buf_op A)) : option (vec * list buf_ret) :=
  match os with
  | [] => Some (v, [])
  | o :: os =>
      '(v1, r) ← vec_step v o;
      '(v2, rs) ← vec_run v1 os;
      Some (v2, r :: rs)
  end.

(** A buffer as the initialiser leaves it: [cap] slots, none in use. *)
Definition fresh_buf (cap : nat) (grow : bool) : buf A :=
  Buf (replicate cap None) 0 grow.

End spec.
Arguments vec : clear implicits.
