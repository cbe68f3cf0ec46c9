(** Model of src/buffer.c. *)
From stdpp Require Import base numbers option list.
From Verif Require Import Common.

Section buffer.
Context {A : Type}.

(** ccc/impl/impl_buffer.h, struct ccc_buf_. [capacity_] is the length of
    [b_slots]; [mem_] is NULL exactly when the capacity is 0 (simplification:
    a zero length non NULL block is not distinguished); [elem_sz_] is one slot;
    [alloc_] is represented by whether it is NULL. *)
Record buf : Type := Buf {
  b_slots : slots A;
  b_sz : nat;
  b_alloc : bool
}.

Definition b_cap (b : buf) : nat := length (b_slots b).

(** A returned element pointer, as the slot index it designates. *)
Definition slotref := option nat.

(** src/buffer.c:16-36 ccc_buf_alloc. [has_fn]: the function pointer is not
    NULL; [ok]: the callback returns memory. Simplification: the byte count
    product [elem_sz_ * capacity] is not wrapped (see WordModel.v). *)
Definition buf_alloc (b : buf) (capacity : nat) (has_fn ok : bool)
  : buf * result :=
  if negb has_fn then (b, NO_ALLOC)
  else if negb (capacity =? 0) && negb ok then (b, MEM_ERR)
  else (Buf (realloc (b_slots b) capacity) (b_sz b) (b_alloc b), OK).

(** src/buffer.c:38-46 ccc_buf_at: checks against the capacity, not the size. *)
Definition buf_at (b : buf) (i : nat) : slotref :=
  if (b_cap b <=? i) then None else Some i.

(** src/buffer.c:48-52 ccc_buf_back: [sz_ - 1] wraps to SIZE_MAX when empty,
    which is never below the capacity. *)
Definition buf_back (b : buf) : slotref :=
  match b_sz b with O => None | S n => buf_at b n end.

(** src/buffer.c:54-58 ccc_buf_front. *)
Definition buf_front (b : buf) : slotref := buf_at b 0.

(** src/buffer.c:8 start_capacity. *)
Definition start_capacity : nat := 8.

(** src/buffer.c:60-78 ccc_buf_alloc_back. [ok]: outcome of the allocator if
    it is called. *)
Definition buf_alloc_back (b : buf) (ok : bool) : buf * slotref :=
  if b_sz b =? b_cap b then
    let '(b', r) :=
      if b_cap b =? 0
      then buf_alloc b start_capacity (b_alloc b) ok
      else buf_alloc b (b_cap b * 2) (b_alloc b) ok in
    match r with
    | OK => (Buf (b_slots b') (S (b_sz b')) (b_alloc b'), Some (b_sz b'))
    | _ => (b', None)
    end
  else (Buf (b_slots b) (S (b_sz b)) (b_alloc b), Some (b_sz b)).

(** src/buffer.c:80-89 ccc_buf_push_back. *)
Definition buf_push_back (b : buf) (x : A) (ok : bool)
  : outcome (buf * slotref) :=
  let '(b', r) := buf_alloc_back b ok in
  match r with
  | None => Ok (b', None)
  | Some i =>
      s ← slot_set (b_slots b') i (Some x);
      Ok (Buf s (b_sz b') (b_alloc b'), Some i)
  end.

(** src/buffer.c:91-102 ccc_buf_swap; [tmp] is the caller's scratch slot. *)
Definition buf_swap (b : buf) (i j : nat) : outcome (buf * result) :=
  if (b_cap b <=? i) || (b_cap b <=? j) || (j =? i) then Ok (b, INPUT_ERR)
  else
    tmp ← slot_get (b_slots b) i;
    xj ← slot_get (b_slots b) j;
    s1 ← slot_set (b_slots b) i xj;
    s2 ← slot_set s1 j tmp;
    Ok (Buf s2 (b_sz b) (b_alloc b), OK).

(** src/buffer.c:104-116 ccc_buf_copy. *)
Definition buf_copy (b : buf) (dst src : nat) : outcome (buf * slotref) :=
  if (b_cap b <=? dst) || (b_cap b <=? src) then Ok (b, None)
  else if dst =? src then Ok (b, Some dst)
  else
    x ← slot_get (b_slots b) src;
    s ← slot_set (b_slots b) dst x;
    Ok (Buf s (b_sz b) (b_alloc b), Some dst).

(** src/buffer.c:118-132 ccc_buf_write; the source is memory outside the
    buffer, so [data == pos] does not arise. *)
Definition buf_write (b : buf) (i : nat) (x : A) : outcome (buf * result) :=
  if b_cap b =? 0 then Ok (b, INPUT_ERR)
  else match buf_at b i with
  | None => Ok (b, INPUT_ERR)
  | Some p =>
      s ← slot_set (b_slots b) p (Some x);
      Ok (Buf s (b_sz b) (b_alloc b), OK)
  end.

(** src/buffer.c:134-155 ccc_buf_erase. *)
Definition buf_erase (b : buf) (i : nat) : outcome (buf * result) :=
  if (b_sz b =? 0) || (b_sz b <=? i) then Ok (b, INPUT_ERR)
  else if b_sz b =? 1 then Ok (Buf (b_slots b) 0 (b_alloc b), OK)
  else if i =? b_sz b - 1
  then Ok (Buf (b_slots b) (b_sz b - 1) (b_alloc b), OK)
  else
    s ← memcpy (b_slots b) i (i + 1) (b_sz b - (i + 1));
    Ok (Buf s (b_sz b - 1) (b_alloc b), OK).

(** src/buffer.c:157-171 ccc_buf_insert. As in the C text, [data] is not used
    when [i < sz_], and the capacity is not checked. *)
Definition buf_insert (b : buf) (i : nat) (x : A) (ok : bool)
  : outcome (buf * slotref) :=
  if (b_cap b =? 0) || (b_sz b <? i) then Ok (b, None)
  else if i =? b_sz b then buf_push_back b x ok
  else
    s ← memmove (b_slots b) (i + 1) i (b_sz b - i);
    Ok (Buf s (b_sz b + 1) (b_alloc b), Some i).

(** src/buffer.c:173-182 ccc_buf_pop_back_n. *)
Definition buf_pop_back_n (b : buf) (n : nat) : buf * result :=
  if b_sz b <? n then (b, INPUT_ERR)
  else (Buf (b_slots b) (b_sz b - n) (b_alloc b), OK).

(** src/buffer.c:184-188 ccc_buf_pop_back. *)
Definition buf_pop_back (b : buf) : buf * result := buf_pop_back_n b 1.

(** src/buffer.c:190-218 size, capacity, full, is_empty. *)
Definition buf_size (b : buf) : nat := b_sz b.
Definition buf_full (b : buf) : bool := b_sz b =? b_cap b.
Definition buf_is_empty (b : buf) : bool := b_sz b =? 0.

(** Iterators are byte addresses in C; here the signed slot index relative to
    [mem_] (so [rend] is -1); [None] is NULL.
    src/buffer.c:220-224 ccc_buf_begin. *)
Definition buf_begin (b : buf) : option Z :=
  if b_cap b =? 0 then None else Some 0%Z.
(** src/buffer.c:226-234 ccc_buf_rbegin. *)
Definition buf_rbegin (b : buf) : option Z :=
  if b_cap b =? 0 then None else Some (Z.of_nat (b_sz b)).
(** src/buffer.c:264-272 ccc_buf_end. *)
Definition buf_end (b : buf) : option Z :=
  if b_cap b =? 0 then None else Some (Z.of_nat (b_sz b)).
(** src/buffer.c:274-282 ccc_buf_rend. *)
Definition buf_rend (b : buf) : option Z :=
  if b_cap b =? 0 then None else Some (-1)%Z.
(** src/buffer.c:236-248 ccc_buf_next (284-292 ccc_buf_capacity_end). *)
Definition buf_next (b : buf) (it : Z) : option Z :=
  if b_cap b =? 0 then None
  else if (Z.of_nat (b_cap b) <=? it)%Z then buf_end b
  else Some (it + 1)%Z.
(** src/buffer.c:250-262 ccc_buf_rnext. *)
Definition buf_rnext (b : buf) (it : Z) : option Z :=
  if b_cap b =? 0 then None
  else if (it <=? -1)%Z then buf_rend b
  else Some (it - 1)%Z.

(** size_t is 64 bits wide. *)
Definition size_t_mod : N := (2 ^ 64)%N.

(** src/buffer.c:306-321 ccc_buf_size_plus; [sz_ + n] wraps. *)
Definition buf_size_plus (b : buf) (n : N) : buf * result :=
  let new_sz := ((N.of_nat (b_sz b) + n) mod size_t_mod)%N in
  if (N.of_nat (b_cap b) <? new_sz)%N
  then (Buf (b_slots b) (b_cap b) (b_alloc b), INPUT_ERR)
  else (Buf (b_slots b) (N.to_nat new_sz) (b_alloc b), OK).

(** src/buffer.c:323-337 ccc_buf_size_minus. *)
Definition buf_size_minus (b : buf) (n : N) : buf * result :=
  if (N.of_nat (b_sz b) <? n)%N
  then (Buf (b_slots b) 0 (b_alloc b), INPUT_ERR)
  else (Buf (b_slots b) (b_sz b - N.to_nat n) (b_alloc b), OK).

(** src/buffer.c:339-353 ccc_buf_size_set. *)
Definition buf_size_set (b : buf) (n : N) : buf * result :=
  if (N.of_nat (b_cap b) <? n)%N
  then (Buf (b_slots b) (b_cap b) (b_alloc b), INPUT_ERR)
  else (Buf (b_slots b) (N.to_nat n) (b_alloc b), OK).

(** What a user sees: the slots below [size]. *)
Definition buf_contents (b : buf) : list (option A) :=
  take (b_sz b) (b_slots b).

(** Calls of one history. The boolean is the allocator's answer, used only if
    the call asks for memory. *)
Inductive buf_op : Type :=
  | BPush (x : A) (ok : bool)
  | BPop
  | BPopN (n : nat)
  | BSwap (i j : nat)
  | BWrite (i : nat) (x : A)
  | BCopy (dst src : nat)
  | BReserve (cap : nat) (has_fn ok : bool)
  | BBack | BFront | BSize | BCapacity.

Inductive buf_ret : Type :=
  | RRef (r : slotref)
  | RRes (r : result)
  | RNum (n : nat).

(** One API call (dispatcher over the functions above). *)
Definition buf_step (b : buf) (o : buf_op) : outcome (buf * buf_ret) :=
  match o with
  | BPush x ok => '(b', r) ← buf_push_back b x ok; Ok (b', RRef r)
  | BPop => let '(b', r) := buf_pop_back b in Ok (b', RRes r)
  | BPopN n => let '(b', r) := buf_pop_back_n b n in Ok (b', RRes r)
  | BSwap i j => '(b', r) ← buf_swap b i j; Ok (b', RRes r)
  | BWrite i x => '(b', r) ← buf_write b i x; Ok (b', RRes r)
  | BCopy d s => '(b', r) ← buf_copy b d s; Ok (b', RRef r)
  | BReserve c h k => let '(b', r) := buf_alloc b c h k in Ok (b', RRes r)
  | BBack => Ok (b, RRef (buf_back b))
  | BFront => Ok (b, RRef (buf_front b))
  | BSize => Ok (b, RNum (buf_size b))
  | BCapacity => Ok (b, RNum (b_cap b))
  end.

Fixpoint buf_run (b : buf) (os : list buf_op) : outcome (buf * list buf_ret) :=
  match os with
  | [] => Ok (b, [])
  | o :: os =>
      '(b1, r) ← buf_step b o;
      '(b2, rs) ← buf_run b1 os;
      Ok (b2, r :: rs)
  end.

(** Walk with an iterator pair, reading every designated slot; reading outside
    [0, capacity) is UB. The loop of a user: for (i = begin; i != end; i =
    next(i)). *)
Fixpoint buf_walk (fuel : nat) (step : Z -> option Z) (b : buf)
    (cur stop : option Z) : outcome (list (option A)) :=
  if decide (cur = stop) then Ok [] else
  match fuel with
  | O => Fuel
  | S f =>
      match cur with
      | None => UB
      | Some i =>
          if (i <? 0)%Z then UB else
          x ← slot_get (b_slots b) (Z.to_nat i);
          xs ← buf_walk f step b (step i) stop;
          Ok (x :: xs)
      end
  end.

End buffer.
Arguments buf : clear implicits.
Arguments buf_op : clear implicits.
