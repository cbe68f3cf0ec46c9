(** The arithmetic on sizes of src/buffer.c and of the containers that keep their
    elements in a buffer, with size_t as it is: 64 bits that wrap. The other models
    take sizes as natural numbers; this one has nothing but sizes. *)
From stdpp Require Import base numbers list.
From Verif Require Import Common FhmModel.
Local Open Scope Z_scope.

Definition word (z : Z) : Z := z mod 2 ^ 64.

(** ccc/impl/impl_buffer.h struct ccc_buf_: elem_sz_, capacity_, sz_, whether there is
    an alloc_, and in [block] the number of bytes mem_ points to (0 if it is NULL). *)
Record store : Type := Store { block : Z; elem : Z; cap : Z; count : Z; perm : bool }.
Definition set_count (s : store) (n : Z) : store := Store (block s) (elem s) (cap s) n (perm s).

(** What a call answers: the status, the new state, the requests made to the allocator
    (the capacity wanted and the bytes asked for), and the byte offset of the slot
    returned (None: NULL, or no slot is returned). *)
Record reply : Type := Reply { ans : result; st : store; asked : list (Z * Z); slot : option Z }.
Definition plainly (r : result) (s : store) : reply := Reply r s [] None.

(** src/buffer.c:16-36 ccc_buf_alloc, 22-31 of src/flat_priority_queue.c ccc_fpq_alloc.
    [fn]: an allocator is given; [yes]: it grants what it is asked for. *)
Definition w_alloc (s : store) (c : Z) (fn yes : bool) : reply :=
  if negb fn then plainly NO_ALLOC s
  else
    let bytes := word (elem s * c) in
    if negb (c =? 0) && negb yes then Reply MEM_ERR s [(c, bytes)] None
    else Reply OK (Store bytes (elem s) c (count s) (perm s)) [(c, bytes)] None.

(** src/buffer.c:60-78 ccc_buf_alloc_back. *)
Definition w_alloc_back (s : store) (yes : bool) : reply :=
  let r := if count s =? cap s
           then w_alloc s (if cap s =? 0 then 8 else word (cap s * 2)) (perm s) yes
           else plainly OK s in
  match ans r with
  | OK =>
    let s1 := st r in
    Reply OK (set_count s1 (word (count s1 + 1))) (asked r) (Some (word (elem s1 * count s1)))
  | _ => r
  end.

(** src/buffer.c:306-321 ccc_buf_size_plus, 323-337 ccc_buf_size_minus, 339-353
    ccc_buf_size_set. *)
Definition w_size_plus (s : store) (n : Z) : reply :=
  let new_sz := word (count s + n) in
  if cap s <? new_sz then plainly INPUT_ERR (set_count s (cap s)) else plainly OK (set_count s new_sz).
Definition w_size_minus (s : store) (n : Z) : reply :=
  if count s <? n then plainly INPUT_ERR (set_count s 0) else plainly OK (set_count s (count s - n)).
Definition w_size_set (s : store) (n : Z) : reply :=
  if cap s <? n then plainly INPUT_ERR (set_count s (cap s)) else plainly OK (set_count s n).

(** src/flat_double_ended_queue.c:604-645 maybe_resize. *)
Definition w_deque (s : store) (n : Z) (yes : bool) : reply :=
  if word (count s + n) <? cap s then plainly OK s
  else if negb (perm s) then plainly NO_ALLOC s
  else
    let c := if cap s =? 0 then 8 else word (word (cap s + n) * 2) in
    let bytes := word (elem s * c) in
    if negb yes then Reply MEM_ERR s [(c, bytes)] None
    else Reply OK (Store bytes (elem s) c (count s) (perm s)) [(c, bytes)] None.

(** src/flat_priority_queue.c:60-97 ccc_fpq_push up to the slot of the new element. *)
Definition w_heap_push (s : store) (yes : bool) : reply :=
  let r := if cap s <=? word (count s + 1) then w_alloc s (word (cap s * 2)) (perm s) yes
           else plainly OK s in
  match ans r with
  | OK => let r' := w_alloc_back (st r) yes in Reply (ans r') (st r') (asked r ++ asked r') (slot r')
  | _ => r
  end.

(** ccc/impl/impl_flat_priority_queue.h:53-87 ccc_impl_fpq_emplace up to the slot. The
    status is that of the last request. *)
Definition w_heap_emplace (s : store) (yes : bool) : reply :=
  let r := w_alloc_back s yes in
  if count (st r) =? cap (st r) then
    let r' := w_alloc (st r) (word (cap (st r) * 2)) (perm s) yes in
    Reply (ans r') (st r') (asked r ++ asked r')
      (match ans r' with
       | OK => if word (count (st r') - 1) <? cap (st r')
               then Some (word (word (count (st r') - 1) * elem (st r'))) else None
       | _ => None
       end)
  else r.

(** src/flat_priority_queue.c:33-58 ccc_fpq_heapify: the array is copied to the front. *)
Definition w_heapify (s : store) (n : Z) (yes : bool) : reply :=
  let r := if cap s <? word (n + 1) then w_alloc s (word (n + 1)) (perm s) yes else plainly OK s in
  match ans r with
  | OK => Reply OK (st (w_size_set (st r) n)) (asked r) None
  | _ => r
  end.

(** src/flat_hash_map.c:862-923 maybe_resize. [moved]: the number of elements moved to
    the new table, each of which adds one to the size. The load factor as in FhmModel.v. *)
Definition w_hash (s : store) (moved : Z) (yes : bool) : reply :=
  let s1 := if negb (cap s =? 0) && (count s <? 2) then st (w_size_set s 2) else s in
  if negb (cap s1 =? 0) && (5 * count s1 <=? 4 * cap s1) then plainly OK s1
  else if negb (perm s1) then plainly NO_ALLOC s1
  else
    let c := if cap s1 =? 0 then Z.of_N (first_above 0 primes)
             else Z.of_N (first_above (Z.to_N (word (count s1 * 2))) primes) in
    if c <=? cap s1 then plainly MEM_ERR s1
    else
      let bytes := word (elem s1 * c) in
      if negb yes then Reply MEM_ERR s1 [(c, bytes)] None
      else Reply OK (Store bytes (elem s1) c (2 + moved) (perm s1)) [(c, bytes)] None.

(** src/flat_ordered_map.c:865-874 alloc_back, src/flat_realtime_ordered_map.c:791-806:
    the first element is preceded by the sentinel. *)
Definition w_map_back (s : store) (yes : bool) : reply :=
  if count s =? 0 then
    let r := w_alloc_back s yes in
    match slot r with
    | None => r
    | Some _ =>
      let r' := w_alloc_back (st r) yes in
      Reply (ans r') (st r') (asked r ++ asked r') (slot r')
    end
  else w_alloc_back s yes.

(** The calls. *)
Inductive word_op : Type :=
  | WAlloc (c : Z) (fn : bool)
  | WPush
  | WPlus (n : Z)
  | WMinus (n : Z)
  | WSet (n : Z)
  | WDeque (n : Z)
  | WHeapPush
  | WHeapEmplace
  | WHeapify (n : Z)
  | WHash (moved : Z)
  | WMapPush.

Definition w_step (s : store) (o : word_op) (yes : bool) : reply :=
  match o with
  | WAlloc c fn => w_alloc s c fn yes
  | WPush => w_alloc_back s yes
  | WPlus n => w_size_plus s n
  | WMinus n => w_size_minus s n
  | WSet n => w_size_set s n
  | WDeque n => w_deque s n yes
  | WHeapPush => w_heap_push s yes
  | WHeapEmplace => w_heap_emplace s yes
  | WHeapify n => w_heapify s n yes
  | WHash m => w_hash s m yes
  | WMapPush => w_map_back s yes
  end.
