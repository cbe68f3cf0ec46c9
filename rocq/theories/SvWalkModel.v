(** Model of the rest of util/str_view.c: pointers into string views and small functions. *)
From stdpp Require Import base numbers option list.
From Verif Require Import Common SvModel.

(** 365-373 sv_begin, 375-383 sv_end, 385-393 sv_next, 433-445 sv_pos. Simplification: the
    comparison with nil.s in sv_end and sv_rend is left out, since a view of nil has
    length zero and the answer is nil.s either way. *)
Definition sv_begin (v : view) : ptr := if is_null (s v) then nil_s else s v.
Definition sv_end (v : view) : ptr := if is_null (s v) then nil_s else plus (s v) (len v).
Definition sv_next (c : ptr) : ptr := if is_null c then nil_s else plus c 1.
Definition sv_pos (v : view) (i : nat) : ptr :=
  if is_null (s v) then nil_s else if len v <? i then sv_end v else plus (s v) i.

(** 395-407 sv_rbegin, 409-421 sv_rend, 423-431 sv_rnext. The end is the pointer one
    before the first byte, so these pointers are kept one higher here: [rd_back]
    dereferences them. *)
Definition sv_rbegin (v : view) : ptr :=
  if is_null (s v) then plus nil_s 1 else if len v =? 0 then plus (s v) 1 else plus (s v) (len v).
Definition sv_rend (v : view) : ptr :=
  if is_null (s v) then plus nil_s 1 else if len v =? 0 then plus (s v) 1 else s v.
Definition sv_rnext (c : ptr) : ptr := if is_null c then plus nil_s 1 else Ptr (arr c) (off c - 1).
Definition rd_back (c : ptr) : outcome N :=
  match off c with 0 => UB | S o => rd (Ptr (arr c) o) 0 end.

(** The loops over all bytes from one end to the other. *)
Fixpoint walk (fuel : nat) (get : ptr -> outcome N) (next : ptr -> ptr) (c stop : ptr) : outcome (list N) :=
  if off c =? off stop then Ok []
  else match fuel with
  | 0 => Fuel
  | S f => b ← get c; l ← walk f get next (next c) stop; Ok (b :: l)
  end.
Definition forwards (v : view) : outcome (list N) := walk (len v) (fun c => rd c 0) sv_next (sv_begin v) (sv_end v).
Definition backwards (v : view) : outcome (list N) := walk (len v) rd_back sv_rnext (sv_rbegin v) (sv_rend v).

(** 214-230 sv_empty, sv_len, sv_size, 232-240 sv_strsize, 242-246 sv_minlen. *)
Definition sv_empty (v : view) : bool := len v =? 0.
Definition sv_len (v : view) : nat := len v.
Definition sv_size (v : view) : nat := len v + 1.
Definition sv_strsize (str : ptr) : outcome nat := if is_null str then Ok 0 else n ← strlen str; Ok (n + 1).
Definition sv_minlen (str : ptr) (n : nat) : outcome nat := strnlen_loop n str 0.

(** 183-193 sv_print: the bytes written to a file that takes all of them. *)
Definition sv_print (v : view) : outcome (list N) :=
  if is_null (s v) || (len v =? 0) then Ok [] else read_bytes (len v) (s v) 0.

(** 264-276 sv_swap, of views in memory; [None]: NULL. *)
Definition sv_swap (m : list view) (a b : option nat) : outcome (list view) :=
  match a, b with
  | Some i, Some j =>
    if i =? j then Ok m
    else match m !! i, m !! j with
    | Some va, Some vb =>
      let m := <[j := View (s va) (len vb)]> m in
      let m := <[j := View (s va) (len va)]> m in
      let m := <[i := View (s vb) (len va)]> m in
      Ok (<[i := View (s vb) (len vb)]> m)
    | _, _ => UB
    end
  | _, _ => Ok m
  end.
