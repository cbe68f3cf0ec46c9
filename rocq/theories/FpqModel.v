(** Model of src/flat_priority_queue.c and ccc/impl/impl_flat_priority_queue.h.
    The queue is its buffer; comparison function and order are fixed. *)
From stdpp Require Import base numbers option list.
From Verif Require Import Common BufferModel.

Section fpq.
Context {A : Type} (cmp : A -> A -> comparison) (order : comparison).

Definition is_order (c : comparison) : bool :=
  match c, order with Lt, Lt | Eq, Eq | Gt, Gt => true | _, _ => false end.

Definition set_slots (b : buf A) (s : slots A) : buf A := Buf s (b_sz b) (b_alloc b).
Definition set_size (b : buf A) (n : nat) : buf A := Buf (b_slots b) n (b_alloc b).

(** Reading an element through src/flat_priority_queue.c:435-441 at, which
    asserts that the slot exists; reading an indeterminate slot is UB. *)
Definition rd (b : buf A) (i : nat) : outcome A :=
  v ← slot_get (b_slots b) i;
  match v with Some x => Ok x | None => UB end.

(** src/flat_priority_queue.c:456-461 wins. *)
Definition wins (b : buf A) (i j : nat) : outcome bool :=
  x ← rd b i; y ← rd b j; Ok (is_order (cmp x y)).

(** src/flat_priority_queue.c:426-431 swap over src/buffer.c:91-102
    ccc_buf_swap. The scratch slot [tmp] is a slot of the same buffer or NULL;
    the assertion fails when ccc_buf_swap rejects its arguments. *)
Definition swap (b : buf A) (tmp : slotref) (i j : nat) : outcome (buf A) :=
  match tmp with
  | None => UB
  | Some t =>
    if (b_cap b <=? i) || (b_cap b <=? j) || (j =? i) then UB
    else
      xi ← slot_get (b_slots b) i;
      s1 ← slot_set (b_slots b) t xi;
      xj ← slot_get s1 j;
      s2 ← slot_set s1 i xj;
      xt ← slot_get s2 t;
      s3 ← slot_set s2 j xt;
      Ok (set_slots b s3)
  end.

(** src/flat_priority_queue.c:392-404 bubble_up. The initial value of
    [parent] for i = 0 is never used. *)
Fixpoint bubble_up (fuel : nat) (b : buf A) (tmp : slotref) (i : nat)
  : outcome (buf A * nat) :=
  match i with
  | 0 => Ok (b, 0)
  | S i' =>
    match fuel with
    | 0 => Fuel
    | S f =>
      let parent := i' / 2 in
      w ← wins b i parent;
      if (w : bool) then b' ← swap b tmp parent i; bubble_up f b' tmp parent
      else Ok (b, i)
    end
  end.

(** src/flat_priority_queue.c:406-424 bubble_down. *)
Fixpoint bubble_down (fuel : nat) (b : buf A) (tmp : slotref) (i : nat)
  : outcome (buf A * nat) :=
  let left := i * 2 + 1 in
  let right := left + 1 in
  if b_sz b <=? left then Ok (b, i)
  else match fuel with
  | 0 => Fuel
  | S f =>
    next ← (if right <? b_sz b then
              w ← wins b right left; Ok (if (w : bool) then right else left)
            else Ok left);
    w ← wins b next i;
    if (w : bool) then b' ← swap b tmp next i; bubble_down f b' tmp next
    else Ok (b, i)
  end.

(** Loop bounds handed to the two loops: every iteration of the first lowers
    i, every iteration of the second raises it. *)
Definition up (b : buf A) (tmp : slotref) (i : nat) := bubble_up i b tmp i.
Definition down (b : buf A) (tmp : slotref) (i : nat) := bubble_down (b_sz b) b tmp i.

(** src/flat_priority_queue.c:52-56 and 361-364: for (i = n/2 + 1; i--;). *)
Fixpoint heapify_loop (k : nat) (b : buf A) (tmp : slotref) : outcome (buf A) :=
  match k with
  | 0 => Ok b
  | S i => '(b', _) ← down b tmp i; heapify_loop i b' tmp
  end.

(** src/flat_priority_queue.c:33-58 ccc_fpq_heapify. *)
Definition fpq_heapify (b : buf A) (array : list A) (ok : bool)
  : outcome (buf A * result) :=
  let n := length array in
  let '(b1, r) := if b_cap b <? n + 1 then buf_alloc b (n + 1) (b_alloc b) ok
                  else (b, OK) in
  match r with
  | OK =>
    s ← copy_in (b_slots b1) 0 (Some <$> array);
    let b2 := Buf s n (b_alloc b1) in
    b3 ← heapify_loop (n / 2 + 1) b2 (buf_at b2 n);
    Ok (b3, OK)
  | _ => Ok (b1, r)
  end.

(** src/flat_priority_queue.c:352-365 ccc_impl_fpq_in_place_heapify, used by
    the heapify_init macro on a buffer whose first [n] slots are filled. *)
Definition fpq_in_place_heapify (b : buf A) (n : nat) : outcome (buf A) :=
  if b_cap b <? n + 1 then Ok b
  else
    let b2 := set_size b n in
    heapify_loop (n / 2 + 1) b2 (buf_at b2 n).

(** src/flat_priority_queue.c:60-97 ccc_fpq_push. *)
Definition fpq_push (b : buf A) (e : A) (ok : bool)
  : outcome (buf A * slotref) :=
  let '(b1, r) := if b_cap b <=? b_sz b + 1
                  then buf_alloc b (b_cap b * 2) (b_alloc b) ok
                  else (b, OK) in
  match r with
  | OK =>
    let '(b2, new) := buf_alloc_back b1 ok in
    match new with
    | None => Ok (b2, None)
    | Some p =>
      s ← slot_set (b_slots b2) p (Some e);
      let b3 := set_slots b2 s in
      if 1 <? b_sz b3 then
        '(b4, i) ← up b3 (buf_at b3 (b_sz b3)) (b_sz b3 - 1);
        Ok (b4, buf_at b4 i)
      else Ok (b3, buf_at b3 0)
    end
  | _ => Ok (b1, None)
  end.

(** ccc/impl/impl_flat_priority_queue.h:53-87 ccc_impl_fpq_emplace. *)
Definition fpq_emplace (b : buf A) (e : A) (ok : bool)
  : outcome (buf A * slotref) :=
  let '(b1, new) := buf_alloc_back b ok in
  let '(b2, new2) :=
    if b_sz b1 =? b_cap b1 then
      let '(b2, r) := buf_alloc b1 (b_cap b1 * 2) (b_alloc b1) ok in
      match r with OK => (b2, buf_back b2) | _ => (b2, None) end
    else (b1, new) in
  match new2 with
  | None => Ok (b2, None)
  | Some p =>
    s ← slot_set (b_slots b2) p (Some e);
    let b3 := set_slots b2 s in
    if 1 <? b_sz b3 then
      '(b4, i) ← up b3 (buf_at b3 (b_sz b3)) (b_sz b3 - 1);
      Ok (b4, buf_at b4 i)
    else Ok (b3, buf_at b3 0)
  end.

(** src/flat_priority_queue.c:99-116 ccc_fpq_pop. *)
Definition fpq_pop (b : buf A) : outcome (buf A * result) :=
  if b_sz b =? 0 then Ok (b, INPUT_ERR)
  else if b_sz b =? 1 then Ok (set_size b 0, OK)
  else
    let tmp := buf_at b (b_sz b) in
    b1 ← swap b tmp 0 (b_sz b - 1);
    '(b3, _) ← down (set_size b1 (b_sz b1 - 1)) tmp 0;
    Ok (b3, OK).

(** src/flat_priority_queue.c:118-154 ccc_fpq_erase; the handle is a slot,
    index_of (446-454) asserts that it lies below the size. *)
Definition fpq_erase (b : buf A) (e : nat) : outcome (buf A * result) :=
  if b_sz b =? 0 then Ok (b, INPUT_ERR)
  else if b_sz b =? 1 then Ok (set_size b 0, OK)
  else
    _ ← oassert (e <? b_sz b);
    if e =? b_sz b - 1 then Ok (set_size b (b_sz b - 1), OK)
    else
      let tmp := buf_at b (b_sz b) in
      b1 ← swap b tmp e (b_sz b - 1);
      let b2 := set_size b1 (b_sz b1 - 1) in
      x ← rd b2 e;
      y ← rd b2 (b_sz b2);
      let c := cmp x y in
      if is_order c then '(b3, _) ← up b2 tmp e; Ok (b3, OK)
      else match c with
           | Eq => Ok (b2, OK)
           | _ => '(b3, _) ← down b2 tmp e; Ok (b3, OK)
           end.

(** src/flat_priority_queue.c:369-390 update_fixup. *)
Definition update_fixup (b : buf A) (e : nat) : outcome (buf A * nat) :=
  let tmp := buf_at b (b_sz b) in
  _ ← oassert (e <? b_sz b);
  if e =? 0 then down b tmp 0
  else
    x ← rd b e;
    y ← rd b ((e - 1) / 2);
    let c := cmp x y in
    if is_order c then up b tmp e
    else match c with
         | Eq => Ok (b, e)
         | _ => down b tmp e
         end.

(** src/flat_priority_queue.c:156-182 ccc_fpq_update, increase, decrease (all
    the same code) and the *_w macros; [fn] is the user's change of value. *)
Definition fpq_update (b : buf A) (e : nat) (fn : A -> A)
  : outcome (buf A * slotref) :=
  if b_sz b =? 0 then Ok (b, None)
  else
    x ← rd b e;
    s ← slot_set (b_slots b) e (Some (fn x));
    '(b', i) ← update_fixup (set_slots b s) e;
    Ok (b', buf_at b' i).

(** src/flat_priority_queue.c:184-192 ccc_fpq_front. *)
Definition fpq_front (b : buf A) : slotref :=
  if b_sz b =? 0 then None else buf_at b 0.

(** src/flat_priority_queue.c:235-267 ccc_fpq_copy. *)
Definition fpq_copy (dst src : buf A) (has_fn ok : bool)
  : outcome (buf A * result) :=
  if (b_cap dst <? b_cap src) && negb has_fn then Ok (dst, INPUT_ERR)
  else
    let d1 := Buf (b_slots dst) (b_sz src) (b_alloc dst) in
    let '(d2, r) := if b_cap d1 <? b_cap src
                    then buf_alloc d1 (b_cap src) has_fn ok
                    else (d1, OK) in
    match r with
    | OK => s ← copy_in (b_slots d2) 0 (b_slots src);
            Ok (set_slots d2 s, OK)
    | _ => Ok (d2, r)
    end.

(** src/flat_priority_queue.c:269-285 ccc_fpq_clear; the list is the slots
    given to the destructor. *)
Definition fpq_clear (b : buf A) (destructor : bool) : buf A * list nat * result :=
  (set_size b 0, if destructor then seq 0 (b_sz b) else [], OK).

(** src/flat_priority_queue.c:287-304 ccc_fpq_clear_and_free. *)
Definition fpq_clear_and_free (b : buf A) (destructor : bool)
  : buf A * list nat * result :=
  let '(b', r) := buf_alloc b 0 (b_alloc b) true in
  (b', if destructor then seq 0 (b_sz b) else [], r).

(** src/flat_priority_queue.c:306-336 ccc_fpq_validate: the loop over
    i = 0 .. (sz - 2) / 2. *)
Fixpoint validate_loop (b : buf A) (is : list nat) : outcome bool :=
  match is with
  | [] => Ok true
  | i :: is =>
    let left := i * 2 + 1 in
    let right := i * 2 + 2 in
    l ← (if left <? b_sz b then wins b left i else Ok false);
    if (l : bool) then Ok false
    else
      r ← (if right <? b_sz b then wins b right i else Ok false);
      if (r : bool) then Ok false else validate_loop b is
  end.
Definition fpq_validate (b : buf A) : outcome bool :=
  if b_sz b <=? 1 then Ok true
  else validate_loop b (seq 0 ((b_sz b - 2) / 2 + 1)).

(** The user's drain loop: while (!is_empty) { read front; pop; }. *)
Fixpoint fpq_drain (fuel : nat) (b : buf A) : outcome (list A) :=
  match fpq_front b with
  | None => Ok []
  | Some i =>
    match fuel with
    | 0 => Fuel
    | S f =>
      x ← rd b i;
      '(b', _) ← fpq_pop b;
      xs ← fpq_drain f b';
      Ok (x :: xs)
    end
  end.

(** Calls of one history. *)
Inductive fpq_op : Type :=
  | QPush (x : A) (ok : bool)
  | QPop
  | QErase (handle : nat)
  | QUpdate (handle : nat) (fn : A -> A)
  | QHeapify (l : list A) (ok : bool)
  | QClear
  | QFront
  | QSize
  | QValidate.

Inductive fpq_ret : Type :=
  | QVal (v : option A)
  | QRes (r : result)
  | QNum (n : nat)
  | QBool (b : bool).

(** Returned references are reported with the value they designate. *)
Definition deref_val (b : buf A) (r : slotref) : outcome fpq_ret :=
  match r with
  | None => Ok (QVal None)
  | Some i => x ← rd b i; Ok (QVal (Some x))
  end.

Definition fpq_step (b : buf A) (o : fpq_op) : outcome (buf A * fpq_ret) :=
  match o with
  | QPush x ok => '(b', r) ← fpq_push b x ok; v ← deref_val b' r; Ok (b', v)
  | QPop => '(b', r) ← fpq_pop b; Ok (b', QRes r)
  | QErase h => '(b', r) ← fpq_erase b h; Ok (b', QRes r)
  | QUpdate h f => '(b', r) ← fpq_update b h f; v ← deref_val b' r; Ok (b', v)
  | QHeapify l ok => '(b', r) ← fpq_heapify b l ok; Ok (b', QRes r)
  | QClear => let '(b', _, r) := fpq_clear b false in Ok (b', QRes r)
  | QFront => v ← deref_val b (fpq_front b); Ok (b, v)
  | QSize => Ok (b, QNum (b_sz b))
  | QValidate => v ← fpq_validate b; Ok (b, QBool v)
  end.

(** The documented precondition of erase and update: the handle is a stored
    element. Calls violating it are not made. *)
Definition handle_ok (b : buf A) (o : fpq_op) : bool :=
  match o with QErase h | QUpdate h _ => h <? b_sz b | _ => true end.

(** A history; the trace lists each call with its answer and the elements
    (ccc_fpq_data up to size) after it. *)
Fixpoint fpq_run (b : buf A) (os : list fpq_op)
  : outcome (buf A * list (fpq_op * fpq_ret * list (option A))) :=
  match os with
  | [] => Ok (b, [])
  | o :: os =>
      if handle_ok b o then
        '(b1, r) ← fpq_step b o;
        '(b2, tr) ← fpq_run b1 os;
        Ok (b2, (o, r, buf_contents b1) :: tr)
      else fpq_run b os
  end.

End fpq.
Arguments fpq_op : clear implicits.
Arguments fpq_ret : clear implicits.
