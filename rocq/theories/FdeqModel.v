(** Model of src/flat_double_ended_queue.c. *)
From stdpp Require Import base numbers option list.
From Verif Require Import Common BufferModel.

Section fdeq.
Context {A : Type}.

(** ccc/impl/impl_flat_double_ended_queue.h, struct ccc_fdeq_. *)
Record fdeq : Type := Fdeq { d_buf : buf A; d_front : nat }.

Definition d_slots (d : fdeq) : slots A := b_slots (d_buf d).
Definition d_cap (d : fdeq) : nat := b_cap (d_buf d).
Definition d_sz (d : fdeq) : nat := b_sz (d_buf d).
Definition d_alloc (d : fdeq) : bool := b_alloc (d_buf d).

(** C [%]: the remainder by 0 is undefined. Simplification: sums of two
    indices are not wrapped modulo 2^64 (each is below the capacity of an
    allocated array). *)
Definition omod (x c : nat) : outcome nat :=
  if c =? 0 then UB else Ok (x mod c).

(** src/flat_double_ended_queue.c:679-683 increment; [capacity - 1] is only
    evaluated by callers with a non empty buffer. *)
Definition increment (d : fdeq) (i : nat) : nat :=
  if i =? d_cap d - 1 then 0 else i + 1.

(** src/flat_double_ended_queue.c:685-689 decrement. *)
Definition decrement (d : fdeq) (i : nat) : nat :=
  match i with 0 => d_cap d - 1 | S j => j end.

(** src/flat_double_ended_queue.c:691-696 back_free_slot. *)
Definition back_free_slot (d : fdeq) : outcome nat :=
  omod (d_front d + d_sz d) (d_cap d).

(** src/flat_double_ended_queue.c:698-702 front_free_slot. With [cap = 0] the
    C code yields SIZE_MAX; the model's caller reports that case as UB. *)
Definition front_free_slot (front cap : nat) : nat :=
  match front with 0 => cap - 1 | S f => f end.

(** src/flat_double_ended_queue.c:704-710 last_elem_index; callers have
    [size > 0]. *)
Definition last_elem_index (d : fdeq) : outcome nat :=
  omod (d_front d + (d_sz d - 1)) (d_cap d).

(** src/flat_double_ended_queue.c:647-653 distance. *)
Definition distance (d : fdeq) (iter origin : nat) : nat :=
  if origin <? iter then iter - origin else (d_cap d - origin) + iter.

(** src/flat_double_ended_queue.c:655-661 rdistance. *)
Definition rdistance (d : fdeq) (iter origin : nat) : nat :=
  if origin <? iter then (d_cap d - iter) + origin else origin - iter.

(** ccc_buf_size_plus(&buf, 1) where size < capacity, ccc_buf_size_minus with
    n <= size and ccc_buf_size_set with n <= capacity (src/buffer.c:306-353):
    in these ranges the call stores the new size. *)
Definition with_size (d : fdeq) (n : nat) : fdeq :=
  Fdeq (Buf (d_slots d) n (d_alloc d)) (d_front d).
Definition with_front (d : fdeq) (f : nat) : fdeq := Fdeq (d_buf d) f.
Definition with_slots (d : fdeq) (s : slots A) : fdeq :=
  Fdeq (Buf s (d_sz d) (d_alloc d)) (d_front d).

(** src/flat_double_ended_queue.c:627-639 (in maybe_resize) and 285-295 (in
    copy): unroll the ring into fresh memory, first the part up to the end of
    the array, then the wrapped part. *)
Definition unroll (d : fdeq) (mem : slots A) : outcome (slots A) :=
  let first_chunk := min (d_sz d) (d_cap d - d_front d) in
  c1 ← copy_out (d_slots d) (d_front d) first_chunk;
  m1 ← copy_in mem 0 c1;
  if first_chunk <? d_sz d then
    c2 ← copy_out (d_slots d) 0 (d_sz d - first_chunk);
    copy_in m1 first_chunk c2
  else Ok m1.

(** src/flat_double_ended_queue.c:604-645 maybe_resize. [ok]: the allocator
    returns memory if called. *)
Definition maybe_resize (d : fdeq) (add : nat) (ok : bool)
  : outcome (fdeq * result) :=
  if d_sz d + add <? d_cap d then Ok (d, OK)
  else if negb (d_alloc d) then Ok (d, NO_ALLOC)
  else
    let new_cap := if d_cap d =? 0 then start_capacity else (d_cap d + add) * 2 in
    if negb ok then Ok (d, MEM_ERR)
    else
      let new_mem := replicate new_cap None in
      m ← (if d_sz d =? 0 then Ok new_mem else unroll d new_mem);
      Ok (Fdeq (Buf m (d_sz d) (d_alloc d)) 0, OK).

Definition is_ok (r : result) : bool := match r with OK => true | _ => false end.

(** src/flat_double_ended_queue.c:415-431 alloc_front. Simplification: with
    capacity 0 and no allocator the C code stores front_ = SIZE_MAX and returns
    NULL; the model says UB. *)
Definition alloc_front (d : fdeq) (ok : bool) : outcome (fdeq * slotref) :=
  '(d1, r) ← maybe_resize d 0 ok;
  let full := negb (is_ok r) in
  if d_alloc d1 && full then Ok (d1, None)
  else if d_cap d1 =? 0 then UB
  else
    let f := front_free_slot (d_front d1) (d_cap d1) in
    let d2 := with_front d1 f in
    let slot := buf_at (d_buf d2) f in
    Ok (if full then d2 else with_size d2 (d_sz d2 + 1), slot).

(** src/flat_double_ended_queue.c:433-453 alloc_back. *)
Definition alloc_back (d : fdeq) (ok : bool) : outcome (fdeq * slotref) :=
  '(d1, r) ← maybe_resize d 0 ok;
  let full := negb (is_ok r) in
  if d_alloc d1 && full then Ok (d1, None)
  else
    b ← back_free_slot d1;
    let slot := buf_at (d_buf d1) b in
    Ok (if full then with_front d1 (increment d1 (d_front d1))
        else with_size d1 (d_sz d1 + 1), slot).

(** src/flat_double_ended_queue.c:37-51 ccc_fdeq_push_back. *)
Definition fdeq_push_back (d : fdeq) (x : A) (ok : bool)
  : outcome (fdeq * slotref) :=
  '(d1, r) ← alloc_back d ok;
  match r with
  | None => Ok (d1, None)
  | Some i => s ← slot_set (d_slots d1) i (Some x); Ok (with_slots d1 s, Some i)
  end.

(** src/flat_double_ended_queue.c:53-67 ccc_fdeq_push_front. *)
Definition fdeq_push_front (d : fdeq) (x : A) (ok : bool)
  : outcome (fdeq * slotref) :=
  '(d1, r) ← alloc_front d ok;
  match r with
  | None => Ok (d1, None)
  | Some i => s ← slot_set (d_slots d1) i (Some x); Ok (with_slots d1 s, Some i)
  end.

(** src/flat_double_ended_queue.c:465-474, 506-515: a range of at least
    [cap] elements replaces everything by its last [cap] elements. *)
Definition overwrite_all (d : fdeq) (elems : list A) : outcome fdeq :=
  let cap := d_cap d in
  s ← copy_in (d_slots d) 0 (Some <$> drop (length elems - cap) elems);
  Ok (Fdeq (Buf s cap (d_alloc d)) 0).

(** src/flat_double_ended_queue.c:455-493 push_back_range (80-89
    ccc_fdeq_push_back_range). *)
Definition fdeq_push_back_range (d : fdeq) (elems : list A) (ok : bool)
  : outcome (fdeq * result) :=
  let n := length elems in
  '(d1, r) ← maybe_resize d n ok;
  let full := negb (is_ok r) in
  let cap := d_cap d1 in
  if d_alloc d1 && full then Ok (d1, MEM_ERR)
  else if cap <=? n then d2 ← overwrite_all d1 elems; Ok (d2, OK)
  else
    let new_size := d_sz d1 + n in
    back_slot ← back_free_slot d1;
    let chunk := min n (cap - back_slot) in
    remainder_back_slot ← omod (back_slot + chunk) cap;
    let remainder := n - chunk in
    s1 ← copy_in (d_slots d1) back_slot (Some <$> take chunk elems);
    s2 ← (if remainder =? 0 then Ok s1
          else copy_in s1 remainder_back_slot (Some <$> drop chunk elems));
    f ← (if cap <? new_size then omod (d_front d1 + (new_size - cap)) cap
         else Ok (d_front d1));
    Ok (Fdeq (Buf s2 (min cap new_size) (d_alloc d1)) f, OK).

(** src/flat_double_ended_queue.c:495-531 push_front_range (69-78
    ccc_fdeq_push_front_range). *)
Definition fdeq_push_front_range (d : fdeq) (elems : list A) (ok : bool)
  : outcome (fdeq * result) :=
  let n := length elems in
  '(d1, r) ← maybe_resize d n ok;
  let full := negb (is_ok r) in
  let cap := d_cap d1 in
  if d_alloc d1 && full then Ok (d1, MEM_ERR)
  else if cap <=? n then d2 ← overwrite_all d1 elems; Ok (d2, OK)
  else
    let space_ahead := front_free_slot (d_front d1) cap + 1 in
    let i := if space_ahead <? n then 0 else space_ahead - n in
    let chunk := min n space_ahead in
    let remainder := n - chunk in
    s1 ← copy_in (d_slots d1) i (Some <$> drop (n - chunk) elems);
    s2 ← (if remainder =? 0 then Ok s1
          else copy_in s1 (cap - remainder) (Some <$> take remainder elems));
    Ok (Fdeq (Buf s2 (min cap (d_sz d1 + n)) (d_alloc d1))
             (if remainder =? 0 then i else cap - remainder), OK).

(** src/flat_double_ended_queue.c:533-602 push_range, the middle case of
    insert_range. The position is given as a slot index. When maybe_resize
    moves the array the C code goes on to use the old address: UB. *)
Definition fdeq_push_range (d : fdeq) (pos_i : nat) (elems : list A) (ok : bool)
  : outcome (fdeq * slotref) :=
  let n := length elems in
  '(d1, r) ← maybe_resize d n ok;
  let full := negb (is_ok r) in
  if d_alloc d1 && full then Ok (d1, None)
  else
  let cap := d_cap d1 in
  let new_size := d_sz d1 + n in
  if cap <=? n then d2 ← overwrite_all d1 elems; Ok (d2, buf_at (d_buf d2) 0)
  else if negb (d_sz d + n <? d_cap d) && d_alloc d then UB
  else
    _ ← oassert (pos_i <? cap);
    back ← back_free_slot d1;
    let to_move := if pos_i <? back then back - pos_i else cap - pos_i + back in
    move_i ← omod (pos_i + n) cap;
    let mc0 := if cap <? move_i + to_move then cap - move_i else to_move in
    let move_chunk := if back <? pos_i then min (cap - pos_i) mc0
                      else min (back - pos_i) mc0 in
    let move_remain := to_move - move_chunk in
    s1 ← memmove (d_slots d1) move_i pos_i move_chunk;
    s2 ← (if move_remain =? 0 then Ok s1
          else
            move_remain_i ← omod (move_i + move_chunk) cap;
            remaining_start_i ← omod (pos_i + move_chunk) cap;
            memmove s1 move_remain_i remaining_start_i move_remain);
    let elems_chunk := min n (cap - pos_i) in
    let elems_remain := n - elems_chunk in
    s3 ← copy_in s2 pos_i (Some <$> take elems_chunk elems);
    s4 ← (if elems_remain =? 0 then Ok s3
          else
            second_chunk_i ← omod (pos_i + elems_chunk) cap;
            copy_in s3 second_chunk_i (Some <$> drop elems_chunk elems));
    let front := d_front d1 in
    f ← (if cap <? new_size then
           let excess := new_size - cap in
           if ((front <=? pos_i) && (pos_i <=? front + excess))
              || ((cap <? front + excess) && (pos_i <=? front + excess - cap))
           then Ok pos_i
           else omod (front + excess) cap
         else Ok front);
    Ok (Fdeq (Buf s4 (min cap new_size) (d_alloc d1)) f, Some pos_i).

(** src/flat_double_ended_queue.c:672-677 at. *)
Definition fdeq_at_ (d : fdeq) (i : nat) : outcome slotref :=
  j ← omod (d_front d + i) (d_cap d); Ok (buf_at (d_buf d) j).

(** src/flat_double_ended_queue.c:191-199 ccc_fdeq_begin. *)
Definition fdeq_begin (d : fdeq) : slotref :=
  if d_sz d =? 0 then None else buf_at (d_buf d) (d_front d).

(** src/flat_double_ended_queue.c:91-115 ccc_fdeq_insert_range; [pos] is a
    slot, [None] is NULL which is also end(). *)
Definition fdeq_insert_range (d : fdeq) (pos : slotref) (elems : list A)
    (ok : bool) : outcome (fdeq * slotref) :=
  let n := length elems in
  if n =? 0 then Ok (d, pos)
  else if decide (pos = fdeq_begin d) then
    '(d', r) ← fdeq_push_front_range d elems ok;
    if is_ok r then p ← fdeq_at_ d' (n - 1); Ok (d', p) else Ok (d', None)
  else match pos with
  | None =>
    '(d', r) ← fdeq_push_back_range d elems ok;
    (* size - n is negative (wraps) when more than the capacity was pushed *)
    if is_ok r then
      (if d_sz d' <? n then UB
       else p ← fdeq_at_ d' (d_sz d' - n); Ok (d', p))
    else Ok (d', None)
  | Some p => fdeq_push_range d p elems ok
  end.

(** src/flat_double_ended_queue.c:117-130 ccc_fdeq_pop_front. *)
Definition fdeq_pop_front (d : fdeq) : fdeq * result :=
  if d_sz d =? 0 then (d, INPUT_ERR)
  else (with_size (with_front d (increment d (d_front d))) (d_sz d - 1), OK).

(** src/flat_double_ended_queue.c:132-140 ccc_fdeq_pop_back (size_minus sets
    size 0 and reports an input error when empty). *)
Definition fdeq_pop_back (d : fdeq) : fdeq * result :=
  if d_sz d <? 1 then (with_size d 0, INPUT_ERR)
  else (with_size d (d_sz d - 1), OK).

(** src/flat_double_ended_queue.c:142-150 ccc_fdeq_front. *)
Definition fdeq_front (d : fdeq) : slotref :=
  if d_sz d =? 0 then None else buf_at (d_buf d) (d_front d).

(** src/flat_double_ended_queue.c:152-160 ccc_fdeq_back. *)
Definition fdeq_back (d : fdeq) : outcome slotref :=
  if d_sz d =? 0 then Ok None
  else i ← last_elem_index d; Ok (buf_at (d_buf d) i).

(** src/flat_double_ended_queue.c:180-189 ccc_fdeq_at. *)
Definition fdeq_at (d : fdeq) (i : nat) : outcome slotref :=
  if d_cap d <=? i then Ok None else fdeq_at_ d i.

(** src/flat_double_ended_queue.c:201-209 ccc_fdeq_rbegin. *)
Definition fdeq_rbegin (d : fdeq) : outcome slotref := fdeq_back d.

(** src/flat_double_ended_queue.c:211-222 ccc_fdeq_next (663-670 index_of with
    its assertions). *)
Definition fdeq_next (d : fdeq) (iter : nat) : outcome slotref :=
  _ ← oassert (iter <? d_cap d);
  let next_i := increment d iter in
  if (next_i =? d_front d) || (d_sz d <=? distance d next_i (d_front d))
  then Ok None
  else Ok (buf_at (d_buf d) next_i).

(** src/flat_double_ended_queue.c:224-237 ccc_fdeq_rnext. *)
Definition fdeq_rnext (d : fdeq) (iter : nat) : outcome slotref :=
  _ ← oassert (iter <? d_cap d);
  let next_i := decrement d iter in
  rbegin ← last_elem_index d;
  if (next_i =? rbegin) || (d_sz d <=? rdistance d next_i rbegin)
  then Ok None
  else Ok (buf_at (d_buf d) next_i).

(** The user's loop: for (i = begin; i != end (NULL); i = next(i)), reading
    every designated slot. *)
Fixpoint fdeq_walk (fuel : nat) (step : nat -> outcome slotref) (d : fdeq)
    (cur : slotref) : outcome (list (option A)) :=
  match cur with
  | None => Ok []
  | Some i =>
    match fuel with
    | O => Fuel
    | S f =>
        x ← slot_get (d_slots d) i;
        nxt ← step i;
        xs ← fdeq_walk f step d nxt;
        Ok (x :: xs)
    end
  end.

(** src/flat_double_ended_queue.c:257-312 ccc_fdeq_copy; [has_fn], [ok]: the
    allocation function argument and its answer. *)
Definition fdeq_copy (dst src : fdeq) (has_fn ok : bool)
  : outcome (fdeq * result) :=
  if (d_cap dst <? d_cap src) && negb has_fn then Ok (dst, INPUT_ERR)
  else
    let d1 := Fdeq (Buf (d_slots dst) (d_sz src) (d_alloc dst)) (d_front src) in
    if d_cap src =? 0 then Ok (d1, OK)
    else if d_cap src <? d_cap d1 then
      m ← unroll src (d_slots dst);
      Ok (Fdeq (Buf m (d_sz src) (d_alloc dst)) 0, OK)
    else
      let '(b, r) := if d_cap d1 <? d_cap src
                     then buf_alloc (d_buf d1) (d_cap src) has_fn ok
                     else (d_buf d1, OK) in
      if is_ok r then
        s ← copy_in (b_slots b) 0 (d_slots src);
        Ok (Fdeq (Buf s (b_sz b) (b_alloc b)) (d_front src), OK)
      else Ok (Fdeq b (d_front d1), r).

(** The destructor loop of clear, src/flat_double_ended_queue.c:327-332 and
    349-354; the result lists the slots handed to the destructor. *)
Fixpoint destroy_loop (fuel : nat) (d : fdeq) (i back : nat)
  : outcome (list nat) :=
  if i =? back then Ok [] else
  match fuel with
  | O => Fuel
  | S f => l ← destroy_loop f d (increment d i) back; Ok (i :: l)
  end.

(** src/flat_double_ended_queue.c:314-334 ccc_fdeq_clear. *)
Definition fdeq_clear (d : fdeq) (destructor : bool)
  : outcome (fdeq * list nat * result) :=
  if negb destructor then Ok (with_size (with_front d 0) 0, [], OK)
  else
    back ← back_free_slot d;
    l ← destroy_loop (d_cap d) d (d_front d) back;
    Ok (d, l, OK).

(** src/flat_double_ended_queue.c:336-356 ccc_fdeq_clear_and_free. *)
Definition fdeq_clear_and_free (d : fdeq) (destructor : bool)
  : outcome (fdeq * list nat * result) :=
  if negb destructor then
    let '(b, r) := buf_alloc (Buf (d_slots d) 0 (d_alloc d)) 0 (d_alloc d) true in
    Ok (Fdeq b 0, [], r)
  else
    back ← back_free_slot d;
    l ← destroy_loop (d_cap d) d (d_front d) back;
    let '(b, r) := buf_alloc (d_buf d) 0 (d_alloc d) true in
    Ok (Fdeq b (d_front d), l, r).

(** src/flat_double_ended_queue.c:358-397 ccc_fdeq_validate. *)
Fixpoint count_walk (fuel : nat) (step : nat -> outcome slotref) (d : fdeq)
    (cur : slotref) (n : nat) : outcome (option nat) :=
  match cur with
  | None => Ok (Some n)
  | Some i =>
    match fuel with
    | O => Fuel
    | S f => if d_sz d <=? n then Ok None
             else nxt ← step i; count_walk f step d nxt (S n)
    end
  end.
Definition fdeq_validate (d : fdeq) : outcome bool :=
  if d_sz d =? 0 then Ok true
  else if negb (bool_decide (fdeq_begin d = Some (d_front d))) then Ok false
  else
    c ← count_walk (S (d_sz d)) (fdeq_next d) d (fdeq_begin d) 0;
    if negb (bool_decide (c = Some (d_sz d))) then Ok false
    else
      rb ← fdeq_rbegin d;
      li ← last_elem_index d;
      if negb (bool_decide (rb = Some li)) then Ok false
      else
        c2 ← count_walk (S (d_sz d)) (fdeq_rnext d) d rb 0;
        Ok (bool_decide (c2 = Some (d_sz d))).

(** What a user sees: at(0) ... at(size - 1). *)
Definition fdeq_contents (d : fdeq) : list (option A) :=
  (fun i => mjoin (d_slots d !! ((d_front d + i) mod d_cap d))) <$> seq 0 (d_sz d).

(** Calls of one history; the boolean is the allocator's answer. *)
Inductive fdeq_op : Type :=
  | DPushBack (x : A) (ok : bool)
  | DPushFront (x : A) (ok : bool)
  | DPopFront
  | DPopBack
  | DPushBackRange (l : list A) (ok : bool)
  | DPushFrontRange (l : list A) (ok : bool)
  | DClear
  | DFront | DBack | DAt (i : nat) | DSize | DValidate.

(** Returned references are reported with the value they designate. *)
Inductive fdeq_ret : Type :=
  | DVal (v : option A)
  | DRes (r : result)
  | DNum (n : nat)
  | DBool (b : bool).

Definition deref (d : fdeq) (r : slotref) : outcome fdeq_ret :=
  match r with
  | None => Ok (DVal None)
  | Some i => v ← slot_get (d_slots d) i; Ok (DVal v)
  end.

Definition fdeq_step (d : fdeq) (o : fdeq_op) : outcome (fdeq * fdeq_ret) :=
  match o with
  | DPushBack x ok => '(d', r) ← fdeq_push_back d x ok; v ← deref d' r; Ok (d', v)
  | DPushFront x ok => '(d', r) ← fdeq_push_front d x ok; v ← deref d' r; Ok (d', v)
  | DPopFront => let '(d', r) := fdeq_pop_front d in Ok (d', DRes r)
  | DPopBack => let '(d', r) := fdeq_pop_back d in Ok (d', DRes r)
  | DPushBackRange l ok => '(d', r) ← fdeq_push_back_range d l ok; Ok (d', DRes r)
  | DPushFrontRange l ok => '(d', r) ← fdeq_push_front_range d l ok; Ok (d', DRes r)
  | DClear => '(d', _, r) ← fdeq_clear d false; Ok (d', DRes r)
  | DFront => v ← deref d (fdeq_front d); Ok (d, v)
  | DBack => r ← fdeq_back d; v ← deref d r; Ok (d, v)
  | DAt i => r ← fdeq_at d i; v ← deref d r; Ok (d, v)
  | DSize => Ok (d, DNum (d_sz d))
  | DValidate => b ← fdeq_validate d; Ok (d, DBool b)
  end.

Fixpoint fdeq_run (d : fdeq) (os : list fdeq_op)
  : outcome (fdeq * list fdeq_ret) :=
  match os with
  | [] => Ok (d, [])
  | o :: os =>
      '(d1, r) ← fdeq_step d o;
      '(d2, rs) ← fdeq_run d1 os;
      Ok (d2, r :: rs)
  end.

End fdeq.
Arguments fdeq : clear implicits.
Arguments fdeq_op : clear implicits.
Arguments fdeq_ret : clear implicits.
