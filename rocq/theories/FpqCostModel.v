(** The functions of FpqModel.v with a count of the comparisons they make: each
    is the function of the same name there with nothing but the count added, see
    [fpq_step_untick]. *)
From stdpp Require Import base numbers option list.
From Verif Require Import Common BufferModel FpqModel TickModel.

Section fpq.
Context {A : Type} (cmp : A -> A -> comparison) (order : comparison).
Local Notation wins := (wins cmp order).
Local Notation is_order := (is_order order).

Fixpoint bubble_up_c (fuel : nat) (b : buf A) (tmp : slotref) (i : nat) : ticked (buf A * nat) :=
  match i with
  | 0 => plain (Ok (b, 0))
  | S i' =>
    match fuel with
    | 0 => Fuel
    | S f =>
      let parent := i' / 2 in
      w ⇠ tick (wins b i parent);
      if (w : bool) then b' ⇠ plain (swap b tmp parent i); bubble_up_c f b' tmp parent
      else plain (Ok (b, i))
    end
  end.

Fixpoint bubble_down_c (fuel : nat) (b : buf A) (tmp : slotref) (i : nat) : ticked (buf A * nat) :=
  let left := i * 2 + 1 in
  let right := left + 1 in
  if b_sz b <=? left then plain (Ok (b, i))
  else match fuel with
  | 0 => Fuel
  | S f =>
    next ⇠ (if right <? b_sz b then
              w ⇠ tick (wins b right left); plain (Ok (if (w : bool) then right else left))
            else plain (Ok left));
    w ⇠ tick (wins b next i);
    if (w : bool) then b' ⇠ plain (swap b tmp next i); bubble_down_c f b' tmp next
    else plain (Ok (b, i))
  end.

Definition up_c (b : buf A) (tmp : slotref) (i : nat) := bubble_up_c i b tmp i.
Definition down_c (b : buf A) (tmp : slotref) (i : nat) := bubble_down_c (b_sz b) b tmp i.

Fixpoint heapify_loop_c (k : nat) (b : buf A) (tmp : slotref) : ticked (buf A) :=
  match k with
  | 0 => plain (Ok b)
  | S i => '(b', _) ⇠ down_c b tmp i; heapify_loop_c i b' tmp
  end.

Definition fpq_heapify_c (b : buf A) (array : list A) (ok : bool) : ticked (buf A * result) :=
  let n := length array in
  let '(b1, r) := if b_cap b <? n + 1 then buf_alloc b (n + 1) (b_alloc b) ok
                  else (b, OK) in
  match r with
  | OK =>
    s ⇠ plain (copy_in (b_slots b1) 0 (Some <$> array));
    let b2 := Buf s n (b_alloc b1) in
    b3 ⇠ heapify_loop_c (n / 2 + 1) b2 (buf_at b2 n);
    plain (Ok (b3, OK))
  | _ => plain (Ok (b1, r))
  end.

Definition fpq_in_place_heapify_c (b : buf A) (n : nat) : ticked (buf A) :=
  if b_cap b <? n + 1 then plain (Ok b)
  else
    let b2 := set_size b n in
    heapify_loop_c (n / 2 + 1) b2 (buf_at b2 n).

Definition fpq_push_c (b : buf A) (e : A) (ok : bool) : ticked (buf A * slotref) :=
  let '(b1, r) := if b_cap b <=? b_sz b + 1
                  then buf_alloc b (b_cap b * 2) (b_alloc b) ok
                  else (b, OK) in
  match r with
  | OK =>
    let '(b2, new) := buf_alloc_back b1 ok in
    match new with
    | None => plain (Ok (b2, None))
    | Some p =>
      s ⇠ plain (slot_set (b_slots b2) p (Some e));
      let b3 := set_slots b2 s in
      if 1 <? b_sz b3 then
        '(b4, i) ⇠ up_c b3 (buf_at b3 (b_sz b3)) (b_sz b3 - 1);
        plain (Ok (b4, buf_at b4 i))
      else plain (Ok (b3, buf_at b3 0))
    end
  | _ => plain (Ok (b1, None))
  end.

Definition fpq_emplace_c (b : buf A) (e : A) (ok : bool) : ticked (buf A * slotref) :=
  let '(b1, new) := buf_alloc_back b ok in
  let '(b2, new2) :=
    if b_sz b1 =? b_cap b1 then
      let '(b2, r) := buf_alloc b1 (b_cap b1 * 2) (b_alloc b1) ok in
      match r with OK => (b2, buf_back b2) | _ => (b2, None) end
    else (b1, new) in
  match new2 with
  | None => plain (Ok (b2, None))
  | Some p =>
    s ⇠ plain (slot_set (b_slots b2) p (Some e));
    let b3 := set_slots b2 s in
    if 1 <? b_sz b3 then
      '(b4, i) ⇠ up_c b3 (buf_at b3 (b_sz b3)) (b_sz b3 - 1);
      plain (Ok (b4, buf_at b4 i))
    else plain (Ok (b3, buf_at b3 0))
  end.

Definition fpq_pop_c (b : buf A) : ticked (buf A * result) :=
  if b_sz b =? 0 then plain (Ok (b, INPUT_ERR))
  else if b_sz b =? 1 then plain (Ok (set_size b 0, OK))
  else
    let tmp := buf_at b (b_sz b) in
    b1 ⇠ plain (swap b tmp 0 (b_sz b - 1));
    '(b3, _) ⇠ down_c (set_size b1 (b_sz b1 - 1)) tmp 0;
    plain (Ok (b3, OK)).

Definition fpq_erase_c (b : buf A) (e : nat) : ticked (buf A * result) :=
  if b_sz b =? 0 then plain (Ok (b, INPUT_ERR))
  else if b_sz b =? 1 then plain (Ok (set_size b 0, OK))
  else
    _ ⇠ plain (oassert (e <? b_sz b));
    if e =? b_sz b - 1 then plain (Ok (set_size b (b_sz b - 1), OK))
    else
      let tmp := buf_at b (b_sz b) in
      b1 ⇠ plain (swap b tmp e (b_sz b - 1));
      let b2 := set_size b1 (b_sz b1 - 1) in
      x ⇠ plain (rd b2 e);
      y ⇠ plain (rd b2 (b_sz b2));
      c ⇠ tick (Ok (cmp x y));
      if is_order c then '(b3, _) ⇠ up_c b2 tmp e; plain (Ok (b3, OK))
      else match c with
           | Eq => plain (Ok (b2, OK))
           | _ => '(b3, _) ⇠ down_c b2 tmp e; plain (Ok (b3, OK))
           end.

Definition update_fixup_c (b : buf A) (e : nat) : ticked (buf A * nat) :=
  let tmp := buf_at b (b_sz b) in
  _ ⇠ plain (oassert (e <? b_sz b));
  if e =? 0 then down_c b tmp 0
  else
    x ⇠ plain (rd b e);
    y ⇠ plain (rd b ((e - 1) / 2));
    c ⇠ tick (Ok (cmp x y));
    if is_order c then up_c b tmp e
    else match c with
         | Eq => plain (Ok (b, e))
         | _ => down_c b tmp e
         end.

Definition fpq_update_c (b : buf A) (e : nat) (fn : A -> A) : ticked (buf A * slotref) :=
  if b_sz b =? 0 then plain (Ok (b, None))
  else
    x ⇠ plain (rd b e);
    s ⇠ plain (slot_set (b_slots b) e (Some (fn x)));
    '(b', i) ⇠ update_fixup_c (set_slots b s) e;
    plain (Ok (b', buf_at b' i)).

Fixpoint validate_loop_c (b : buf A) (is : list nat) : ticked bool :=
  match is with
  | [] => plain (Ok true)
  | i :: is =>
    let left := i * 2 + 1 in
    let right := i * 2 + 2 in
    l ⇠ (if left <? b_sz b then tick (wins b left i) else plain (Ok false));
    if (l : bool) then plain (Ok false)
    else
      r ⇠ (if right <? b_sz b then tick (wins b right i) else plain (Ok false));
      if (r : bool) then plain (Ok false) else validate_loop_c b is
  end.
Definition fpq_validate_c (b : buf A) : ticked bool :=
  if b_sz b <=? 1 then plain (Ok true)
  else validate_loop_c b (seq 0 ((b_sz b - 2) / 2 + 1)).

Definition fpq_step_c (b : buf A) (o : fpq_op A) : ticked (buf A * fpq_ret A) :=
  match o with
  | QPush x ok => '(b', r) ⇠ fpq_push_c b x ok; v ⇠ plain (deref_val b' r); plain (Ok (b', v))
  | QPop => '(b', r) ⇠ fpq_pop_c b; plain (Ok (b', QRes r))
  | QErase h => '(b', r) ⇠ fpq_erase_c b h; plain (Ok (b', QRes r))
  | QUpdate h f => '(b', r) ⇠ fpq_update_c b h f; v ⇠ plain (deref_val b' r); plain (Ok (b', v))
  | QHeapify l ok => '(b', r) ⇠ fpq_heapify_c b l ok; plain (Ok (b', QRes r))
  | QClear => let '(b', _, r) := fpq_clear b false in plain (Ok (b', QRes r))
  | QFront => v ⇠ plain (deref_val b (fpq_front b)); plain (Ok (b, v))
  | QSize => plain (Ok (b, QNum (b_sz b)))
  | QValidate => v ⇠ fpq_validate_c b; plain (Ok (b, QBool v))
  end.

(** A history; the trace lists each call with its answer, the size before it and
    the number of comparisons it made. *)
Fixpoint fpq_run_c (b : buf A) (os : list (fpq_op A))
  : outcome (buf A * list (fpq_op A * fpq_ret A * nat * nat)) :=
  match os with
  | [] => Ok (b, [])
  | o :: os =>
      if handle_ok b o then
        '(b1, r, n) ← fpq_step_c b o;
        '(b2, tr) ← fpq_run_c b1 os;
        Ok (b2, (o, r, b_sz b, n) :: tr)
      else fpq_run_c b os
  end.
End fpq.
