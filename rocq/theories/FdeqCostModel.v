(** The functions of FdeqModel.v that write elements, with a count of the elements
    written: by memcpy into new memory, and by the pushes themselves. The citations are
    those of FdeqModel.v. *)
From stdpp Require Import base numbers option list.
From Verif Require Import Common BufferModel FdeqModel TickModel.

Section fdeq.
Context {A : Type}.
Local Notation fdeq := (fdeq A).

Definition copy_in_c (l : slots A) (dst : nat) (vs : list (option A)) : ticked (slots A) :=
  m ← copy_in l dst vs; Ok (m, length vs).

Definition unroll_c (d : fdeq) (mem : slots A) : ticked (slots A) :=
  let first_chunk := min (d_sz d) (d_cap d - d_front d) in
  c1 ← copy_out (d_slots d) (d_front d) first_chunk;
  m1 ⇠ copy_in_c mem 0 c1;
  if first_chunk <? d_sz d then
    c2 ← copy_out (d_slots d) 0 (d_sz d - first_chunk);
    copy_in_c m1 first_chunk c2
  else Ok (m1, 0).

Definition maybe_resize_c (d : fdeq) (add : nat) (ok : bool) : ticked (fdeq * result) :=
  if d_sz d + add <? d_cap d then Ok (d, OK, 0)
  else if negb (d_alloc d) then Ok (d, NO_ALLOC, 0)
  else
    let new_cap := if d_cap d =? 0 then start_capacity else (d_cap d + add) * 2 in
    if negb ok then Ok (d, MEM_ERR, 0)
    else
      let new_mem := replicate new_cap None in
      m ⇠ (if d_sz d =? 0 then Ok (new_mem, 0) else unroll_c d new_mem);
      Ok (Fdeq (Buf m (d_sz d) (d_alloc d)) 0, OK, 0).

Definition alloc_front_c (d : fdeq) (ok : bool) : ticked (fdeq * slotref) :=
  '(d1, r) ⇠ maybe_resize_c d 0 ok;
  let full := negb (is_ok r) in
  if d_alloc d1 && full then Ok (d1, None, 0)
  else if d_cap d1 =? 0 then UB
  else
    let f := front_free_slot (d_front d1) (d_cap d1) in
    let d2 := with_front d1 f in
    let slot := buf_at (d_buf d2) f in
    Ok (if full then d2 else with_size d2 (d_sz d2 + 1), slot, 0).

Definition alloc_back_c (d : fdeq) (ok : bool) : ticked (fdeq * slotref) :=
  '(d1, r) ⇠ maybe_resize_c d 0 ok;
  let full := negb (is_ok r) in
  if d_alloc d1 && full then Ok (d1, None, 0)
  else
    b ← back_free_slot d1;
    let slot := buf_at (d_buf d1) b in
    Ok (if full then with_front d1 (increment d1 (d_front d1))
        else with_size d1 (d_sz d1 + 1), slot, 0).

Definition fdeq_push_back_c (d : fdeq) (x : A) (ok : bool) : ticked (fdeq * slotref) :=
  '(d1, r) ⇠ alloc_back_c d ok;
  match r with
  | None => Ok (d1, None, 0)
  | Some i => s ← slot_set (d_slots d1) i (Some x); Ok (with_slots d1 s, Some i, 1)
  end.

Definition fdeq_push_front_c (d : fdeq) (x : A) (ok : bool) : ticked (fdeq * slotref) :=
  '(d1, r) ⇠ alloc_front_c d ok;
  match r with
  | None => Ok (d1, None, 0)
  | Some i => s ← slot_set (d_slots d1) i (Some x); Ok (with_slots d1 s, Some i, 1)
  end.

Definition overwrite_all_c (d : fdeq) (elems : list A) : ticked fdeq :=
  let cap := d_cap d in
  s ⇠ copy_in_c (d_slots d) 0 (Some <$> drop (length elems - cap) elems);
  Ok (Fdeq (Buf s cap (d_alloc d)) 0, 0).

Definition fdeq_push_back_range_c (d : fdeq) (elems : list A) (ok : bool) : ticked (fdeq * result) :=
  let n := length elems in
  '(d1, r) ⇠ maybe_resize_c d n ok;
  let full := negb (is_ok r) in
  let cap := d_cap d1 in
  if d_alloc d1 && full then Ok (d1, MEM_ERR, 0)
  else if cap <=? n then d2 ⇠ overwrite_all_c d1 elems; Ok (d2, OK, 0)
  else
    let new_size := d_sz d1 + n in
    back_slot ← back_free_slot d1;
    let chunk := min n (cap - back_slot) in
    remainder_back_slot ← omod (back_slot + chunk) cap;
    let remainder := n - chunk in
    s1 ⇠ copy_in_c (d_slots d1) back_slot (Some <$> take chunk elems);
    s2 ⇠ (if remainder =? 0 then Ok (s1, 0)
          else copy_in_c s1 remainder_back_slot (Some <$> drop chunk elems));
    f ← (if cap <? new_size then omod (d_front d1 + (new_size - cap)) cap
         else Ok (d_front d1));
    Ok (Fdeq (Buf s2 (min cap new_size) (d_alloc d1)) f, OK, 0).

Definition fdeq_push_front_range_c (d : fdeq) (elems : list A) (ok : bool) : ticked (fdeq * result) :=
  let n := length elems in
  '(d1, r) ⇠ maybe_resize_c d n ok;
  let full := negb (is_ok r) in
  let cap := d_cap d1 in
  if d_alloc d1 && full then Ok (d1, MEM_ERR, 0)
  else if cap <=? n then d2 ⇠ overwrite_all_c d1 elems; Ok (d2, OK, 0)
  else
    let space_ahead := front_free_slot (d_front d1) cap + 1 in
    let i := if space_ahead <? n then 0 else space_ahead - n in
    let chunk := min n space_ahead in
    let remainder := n - chunk in
    s1 ⇠ copy_in_c (d_slots d1) i (Some <$> drop (n - chunk) elems);
    s2 ⇠ (if remainder =? 0 then Ok (s1, 0)
          else copy_in_c s1 (cap - remainder) (Some <$> take remainder elems));
    Ok (Fdeq (Buf s2 (min cap (d_sz d1 + n)) (d_alloc d1))
             (if remainder =? 0 then i else cap - remainder), OK, 0).

(** The other calls write no element. *)
Definition fdeq_step_c (d : fdeq) (o : fdeq_op A) : ticked (fdeq * fdeq_ret A) :=
  match o with
  | DPushBack x ok => '(d', r) ⇠ fdeq_push_back_c d x ok; v ← deref d' r; Ok (d', v, 0)
  | DPushFront x ok => '(d', r) ⇠ fdeq_push_front_c d x ok; v ← deref d' r; Ok (d', v, 0)
  | DPushBackRange l ok => '(d', r) ⇠ fdeq_push_back_range_c d l ok; Ok (d', DRes r, 0)
  | DPushFrontRange l ok => '(d', r) ⇠ fdeq_push_front_range_c d l ok; Ok (d', DRes r, 0)
  | o => plain (fdeq_step d o)
  end.

Fixpoint fdeq_run_c (d : fdeq) (os : list (fdeq_op A)) : ticked (fdeq * list (fdeq_ret A)) :=
  match os with
  | [] => Ok (d, [], 0)
  | o :: os =>
      '(d1, r) ⇠ fdeq_step_c d o;
      '(d2, rs) ⇠ fdeq_run_c d1 os;
      Ok (d2, r :: rs, 0)
  end.
End fdeq.
