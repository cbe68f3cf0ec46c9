(** Model of src/flat_hash_map.c and ccc/impl/impl_flat_hash_map.h. *)
From stdpp Require Import base numbers option list.
From Verif Require Import Common BufferModel.

(** ccc/impl/impl_types.h:32-40 and ccc/types.h: entry status bits. *)
Definition ST_VACANT : N := 0.
Definition ST_OCCUPIED : N := 1.
Definition ST_INSERT_ERROR : N := 2.
Definition ST_INPUT_ERROR : N := 16.
Definition ST_NO_UNWRAP : N := 32.
Definition has (st flag : N) : bool := negb (N.land st flag =? 0)%N.

(** src/flat_hash_map.c:66-127 primes. *)
Definition primes : list N :=
  [11; 37; 79; 163; 331; 691; 1439; 2999; 6079; 12263; 25717; 53611; 111697;
   232499; 483611; 1005761; 2091191; 4347799; 9039167; 18792019; 39067739;
   81219493; 168849973; 351027263; 729760741; 1517120861; 3153985903;
   6556911073; 13631348041; 28338593999; 58913902231; 122477772247;
   254622492793; 529341875947; 1100463743389; 2287785087839; 4756140888377;
   9887675318611; 20555766849589; 42733962953639; 88840839803449;
   184693725350723; 383964990193007; 798235638020831; 1659474561692683;
   3449928429320413; 7172153428667531; 14910391869919981; 30997633824443711;
   64441854452711651; 133969987155270011; 278513981492471381;
   579010564484755961; 1203721378684243091; 2502450294306576181;
   5202414434410211531; 10815445968671840317; 17617221824571301183]%N.

(** src/flat_hash_map.c:925-938 next_prime. *)
Fixpoint first_above (n : N) (l : list N) : N :=
  match l with
  | [] => 0
  | p :: l => if (n <? p)%N then p else first_above n l
  end.
Definition next_prime (n : nat) : nat := N.to_nat (first_above (N.of_nat n) primes).

(** src/flat_hash_map.c:968-972 distance, 974-978 increment, 980-985
    decrement; num_swap_slots = 2, last_swap_slot = 1. Simplification: [nat]
    subtraction truncates instead of wrapping; [distance] is only used with
    both indices in [2, capacity), where it does not; validate uses
    [distance_w]. *)
Definition distance (cap i j : nat) : nat := if i <? j then (cap - j) + i - 2 else i - j.
Definition increment (cap i : nat) : nat := if cap <=? i + 1 then 2 else i + 1.
Definition decrement (cap i : nat) : nat :=
  let i' := if i =? 0 then cap - 1 else i - 1 in
  if i' <=? 1 then cap - 1 else i'.

(** A slot holds the stored hash word and the user's key and value; [None] as a
    slot is indeterminate memory, [None] as user data is zeroed memory that was
    never given a key. *)
Notation hcell K V := (N * option (K * V))%type.

Section fhm.
(** [wide]: whether __SIZEOF_INT128__ is defined. The user's hash is an
    arbitrary function truncated to 64 bits; key equality is the user's
    eq_fn_. *)
Context {K V : Type} (wide : bool) (hash_fn : K -> N) (eqb : K -> K -> bool).

Notation cell := (hcell K V).
Notation fhm := (buf cell).

(** src/flat_hash_map.c:1016-1025 to_i. *)
Definition to_i (cap : nat) (hash : N) : nat :=
  let h := if wide then N.to_nat ((hash * N.of_nat cap) / 2 ^ 64)%N
           else N.to_nat (hash mod N.of_nat cap)%N in
  if h <=? 1 then 2 else h.

(** src/flat_hash_map.c:948-954 filter; CCC_FHM_EMPTY is 0. *)
Definition filter (k : K) : N :=
  let h := (hash_fn k mod 2 ^ 64)%N in if (h =? 0)%N then 1%N else h.

(** Reading the hash word of a slot; indeterminate memory is UB. *)
Definition get_hash (T : slots cell) (i : nat) : outcome N :=
  c ← slot_get T i;
  match c with Some (h, _) => Ok h | None => UB end.

(** Reading the key of a slot for eq_fn_. *)
Definition get_kv (T : slots cell) (i : nat) : outcome (K * V) :=
  c ← slot_get T i;
  match c with Some (_, Some kv) => Ok kv | _ => UB end.

(** src/flat_hash_map.c:940-946 hash_at, as an assignment target. *)
Definition set_hash (T : slots cell) (i : nat) (h : N) : outcome (slots cell) :=
  c ← slot_get T i;
  match c with
  | Some (_, kv) => slot_set T i (Some (h, kv))
  | None => slot_set T i (Some (h, None))
  end.

(** src/flat_hash_map.c:994-1004 swap, all three operands slots. *)
Definition swap3 (T : slots cell) (tmp a b : nat) : outcome (slots cell) :=
  if a =? b then Ok T
  else
    xa ← slot_get T a;
    T1 ← slot_set T tmp xa;
    xb ← slot_get T1 b;
    T2 ← slot_set T1 a xb;
    xt ← slot_get T2 tmp;
    slot_set T2 b xt.

Definition with_slots (h : fhm) (T : slots cell) : fhm := Buf T (b_sz h) (b_alloc h).
Definition with_size (h : fhm) (n : nat) : fhm := Buf (b_slots h) n (b_alloc h).

(** src/buffer.c:306-337 ccc_buf_size_plus and ccc_buf_size_minus by one,
    result ignored. *)
Definition size_inc (h : fhm) : fhm :=
  with_size h (if b_cap h <? b_sz h + 1 then b_cap h else b_sz h + 1).
Definition size_dec (h : fhm) : fhm := with_size h (b_sz h - 1).

(** ccc/impl/impl_types.h struct ccc_ent_: the slot it points to and status. *)
Record ent : Type := Ent { e_at : option nat; e_st : N }.

(** src/flat_hash_map.c:732-769 find. *)
Fixpoint find_loop (fuel : nat) (T : slots cell) (cap : nat) (key : K) (hash : N)
    (i dist : nat) : outcome ent :=
  match fuel with
  | 0 => Fuel
  | S f =>
    slot_hash ← get_hash T i;
    if (slot_hash =? 0)%N || (distance cap i (to_i cap slot_hash) <? dist)
    then Ok (Ent (Some i) (N.lor ST_VACANT ST_NO_UNWRAP))
    else
      eq ← (if (hash =? slot_hash)%N
            then kv ← get_kv T i; Ok (eqb key (fst kv)) else Ok false);
      if (eq : bool) then Ok (Ent (Some i) ST_OCCUPIED)
      else find_loop f T cap key hash (increment cap i) (dist + 1)
  end.

Definition find (h : fhm) (key : K) (hash : N) : outcome ent :=
  if b_cap h =? 0 then Ok (Ent None ST_VACANT)
  else if b_cap h <=? b_sz h then Ok (Ent None ST_INPUT_ERROR)
  else find_loop (b_cap h) (b_slots h) (b_cap h) key hash (to_i (b_cap h) hash) 0.

(** src/flat_hash_map.c:771-810 insert. Slot 0 is the floater, slot 1 the
    scratch slot. *)
Fixpoint insert_loop (fuel : nat) (h : fhm) (i dist : nat) : outcome fhm :=
  match fuel with
  | 0 => Fuel
  | S f =>
    let cap := b_cap h in
    slot_hash ← get_hash (b_slots h) i;
    if (slot_hash =? 0)%N then
      x ← slot_get (b_slots h) 0;
      T1 ← slot_set (b_slots h) i x;
      T2 ← set_hash T1 0 0;
      T3 ← set_hash T2 1 0;
      Ok (size_inc (with_slots h T3))
    else
      let slot_dist := distance cap i (to_i cap slot_hash) in
      if slot_dist <? dist then
        T1 ← swap3 (b_slots h) 1 0 i;
        insert_loop f (with_slots h T1) (increment cap i) (slot_dist + 1)
      else insert_loop f h (increment cap i) (dist + 1)
  end.

(** [i] is the result of ccc_buf_i, negative for a NULL slot. *)
Definition insert (h : fhm) (kv : K * V) (hash : N) (i : option nat) : outcome fhm :=
  match i with
  | None => UB
  | Some i =>
    T1 ← slot_set (b_slots h) 0 (Some (hash, Some kv));
    insert_loop (b_cap h) (with_slots h T1) i (distance (b_cap h) i (to_i (b_cap h) hash))
  end.

(** src/flat_hash_map.c:812-839 erase. *)
Fixpoint erase_loop (fuel : nat) (h : fhm) (i next : nat) : outcome fhm :=
  match fuel with
  | 0 => Fuel
  | S f =>
    let cap := b_cap h in
    next_hash ← get_hash (b_slots h) next;
    if (next_hash =? 0)%N || (distance cap next (to_i cap next_hash) =? 0) then
      T1 ← set_hash (b_slots h) 0 0;
      Ok (size_dec (with_slots h T1))
    else
      T1 ← swap3 (b_slots h) 0 next i;
      erase_loop f (with_slots h T1) next (increment cap next)
  end.

Definition erase (h : fhm) (i : option nat) : outcome fhm :=
  match i with
  | None => UB
  | Some i =>
    T1 ← set_hash (b_slots h) i 0;
    erase_loop (b_cap h) (with_slots h T1) i (increment (b_cap h) i)
  end.

(** memset(mem, 0, capacity * elem_sz). *)
Definition zero_cell : option cell := Some (0%N, None).
Definition zeroed (cap : nat) : slots cell := replicate cap zero_cell.

(** src/flat_hash_map.c:902-916: move every occupied slot to the new table. *)
Fixpoint rehash (old : slots cell) (new : fhm) : outcome fhm :=
  match old with
  | [] => Ok new
  | c :: old =>
    match c with
    | None => UB
    | Some (h, kv) =>
      if (h =? 0)%N then rehash old new
      else
        match kv with
        | None => UB
        | Some kv =>
          e ← find new (fst kv) h;
          new' ← insert new kv h (e_at e);
          rehash old new'
        end
    end
  end.

(** src/flat_hash_map.c:862-923 maybe_resize. Simplification: the floating
    point test size / capacity <= 0.8 is taken exactly (5 size <= 4 capacity);
    the two agree for capacities below 2^50. [ok]: the allocator returns
    memory. Freeing the old block always succeeds (src/buffer.c:28-35 with
    capacity 0). *)
Definition maybe_resize (h : fhm) (ok : bool) : outcome (fhm * result) :=
  let h1 := if negb (b_cap h =? 0) && (b_sz h <? 2)
            then Buf (zeroed (b_cap h)) (if b_cap h <? 2 then b_cap h else 2) (b_alloc h)
            else h in
  if negb (b_cap h1 =? 0) && (5 * b_sz h1 <=? 4 * b_cap h1) then Ok (h1, OK)
  else if negb (b_alloc h1) then Ok (h1, NO_ALLOC)
  else
    let new_cap := if b_cap h1 =? 0 then next_prime 0 else next_prime (b_sz h1 * 2) in
    if new_cap <=? b_cap h1 then Ok (h1, MEM_ERR)
    else if negb ok then Ok (h1, MEM_ERR)
    else
      new ← rehash (b_slots h1) (Buf (zeroed new_cap) 2 (b_alloc h1));
      Ok (new, OK).

(** src/flat_hash_map.c:719-730 entry. *)
Definition entry (h : fhm) (key : K) (ok : bool) : outcome (fhm * ent) :=
  '(h1, r) ← maybe_resize h ok;
  e ← find h1 key (filter key);
  Ok (h1, match r with OK => e | _ => Ent (e_at e) (N.lor (e_st e) ST_INSERT_ERROR) end).

(** The value a slot pointer designates after the call; NULL is [None]. *)
Definition deref (h : fhm) (i : option nat) : outcome (option (K * V)) :=
  match i with None => Ok None | Some i => kv ← get_kv (b_slots h) i; Ok (Some kv) end.

(** A returned ccc_entry: src/types.c:40-48 ccc_entry_unwrap, and the status
    bits asked by ccc_entry_occupied and ccc_entry_insert_error. *)
Record res : Type := Res { r_val : option (K * V); r_occ : bool; r_err : bool }.
Definition mk_res (h : fhm) (e : ent) : outcome res :=
  v ← (if has (e_st e) ST_NO_UNWRAP then Ok None else deref h (e_at e));
  Ok (Res v (has (e_st e) ST_OCCUPIED) (has (e_st e) ST_INSERT_ERROR)).

Definition the_slot (i : option nat) : outcome nat :=
  match i with Some i => Ok i | None => UB end.

(** Overwrite the user data of an occupied slot and set its hash. *)
Definition overwrite (h : fhm) (i : option nat) (hash : N) (kv : K * V) : outcome fhm :=
  i ← the_slot i;
  T ← slot_set (b_slots h) i (Some (hash, Some kv));
  Ok (with_slots h T).

(** src/flat_hash_map.c:179-187 ccc_fhm_contains. *)
Definition fhm_contains (h : fhm) (k : K) (ok : bool) : outcome (fhm * bool) :=
  '(h1, e) ← entry h k ok;
  Ok (h1, has (e_st e) ST_OCCUPIED).

(** src/flat_hash_map.c:189-198 ccc_fhm_size; size_t wraps. *)
Definition fhm_size (h : fhm) : N :=
  if b_sz h =? 0 then 0%N
  else ((N.of_nat (b_sz h) + 2 ^ 64 - 2) mod 2 ^ 64)%N.

(** src/flat_hash_map.c:170-178 ccc_fhm_is_empty. *)
Definition fhm_is_empty (h : fhm) : bool := (fhm_size h =? 0)%N.

(** src/flat_hash_map.c:234-247 ccc_fhm_get_key_val. *)
Definition fhm_get (h : fhm) (k : K) : outcome (option (K * V)) :=
  if b_cap h =? 0 then Ok None
  else
    e ← find h k (filter k);
    if has (e_st e) ST_OCCUPIED then deref h (e_at e) else Ok None.

(** src/flat_hash_map.c:285-310 ccc_fhm_insert. The user's struct outside the
    table is swapped with the slot through slot 0. *)
Definition fhm_insert (h : fhm) (kv : K * V) (ok : bool) : outcome (fhm * res) :=
  let hash := filter (fst kv) in
  '(h1, e) ← entry h (fst kv) ok;
  if has (e_st e) ST_OCCUPIED then
    i ← the_slot (e_at e);
    old ← slot_get (b_slots h1) i;
    T1 ← slot_set (b_slots h1) 0 old;
    T2 ← slot_set T1 i (Some (hash, Some kv));
    tmp ← slot_get T2 0;
    T3 ← set_hash T2 0 0;
    match tmp with
    | Some (_, Some okv) => Ok (with_slots h1 T3, Res (Some okv) true false)
    | _ => UB
    end
  else if has (e_st e) ST_INSERT_ERROR then Ok (h1, Res None false true)
  else
    h2 ← insert h1 kv hash (e_at e);
    Ok (h2, Res None false false).

(** src/flat_hash_map.c:312-332 ccc_fhm_try_insert. *)
Definition fhm_try_insert (h : fhm) (kv : K * V) (ok : bool) : outcome (fhm * res) :=
  let hash := filter (fst kv) in
  '(h1, e) ← entry h (fst kv) ok;
  if has (e_st e) ST_OCCUPIED then r ← mk_res h1 (Ent (e_at e) ST_OCCUPIED); Ok (h1, r)
  else if has (e_st e) ST_INSERT_ERROR then Ok (h1, Res None false true)
  else
    h2 ← insert h1 kv hash (e_at e);
    r ← mk_res h2 (Ent (e_at e) ST_VACANT);
    Ok (h2, r).

(** src/flat_hash_map.c:334-355 ccc_fhm_insert_or_assign. *)
Definition fhm_insert_or_assign (h : fhm) (kv : K * V) (ok : bool) : outcome (fhm * res) :=
  let hash := filter (fst kv) in
  '(h1, e) ← entry h (fst kv) ok;
  if has (e_st e) ST_OCCUPIED then
    h2 ← overwrite h1 (e_at e) hash kv;
    r ← mk_res h2 (Ent (e_at e) ST_OCCUPIED);
    Ok (h2, r)
  else if has (e_st e) ST_INSERT_ERROR then Ok (h1, Res None false true)
  else
    h2 ← insert h1 kv hash (e_at e);
    r ← mk_res h2 (Ent (e_at e) ST_VACANT);
    Ok (h2, r).

(** src/flat_hash_map.c:357-374 ccc_fhm_remove. *)
Definition fhm_remove (h : fhm) (k : K) : outcome (fhm * res) :=
  e ← find h k (filter k);
  if has (e_st e) ST_OCCUPIED then
    v ← deref h (e_at e);
    h1 ← erase h (e_at e);
    Ok (h1, Res v true false)
  else Ok (h, Res None false false).

(** The entry interface: an entry is obtained and used at once. The functions
    below are the second halves; [e] is the entry and [hash] its hash. *)

(** src/flat_hash_map.c:376-396 ccc_fhm_or_insert. *)
Definition or_insert (h : fhm) (e : ent) (kv : K * V) (hash : N)
  : outcome (fhm * option nat) :=
  if has (e_st e) ST_OCCUPIED then Ok (h, e_at e)
  else if has (e_st e) ST_INSERT_ERROR then Ok (h, None)
  else h1 ← insert h kv hash (e_at e); Ok (h1, e_at e).

(** src/flat_hash_map.c:210-232 ccc_fhm_insert_entry. *)
Definition insert_entry (h : fhm) (e : ent) (kv : K * V) (hash : N)
  : outcome (fhm * option nat) :=
  if has (e_st e) ST_OCCUPIED then h1 ← overwrite h (e_at e) hash kv; Ok (h1, e_at e)
  else if has (e_st e) ST_INSERT_ERROR then Ok (h, None)
  else h1 ← insert h kv hash (e_at e); Ok (h1, e_at e).

(** src/flat_hash_map.c:249-262 ccc_fhm_remove_entry. *)
Definition remove_entry (h : fhm) (e : ent) : outcome (fhm * res) :=
  if negb (e_st e =? ST_OCCUPIED)%N then Ok (h, Res None false false)
  else h1 ← erase h (e_at e); Ok (h1, Res None true false).

(** src/flat_hash_map.c:264-283 and 851-860 ccc_fhm_and_modify; the user's
    function changes the value, not the key. *)
Definition and_modify (h : fhm) (e : ent) (f : V -> V) : outcome fhm :=
  if (e_st e =? ST_OCCUPIED)%N then
    i ← the_slot (e_at e);
    c ← slot_get (b_slots h) i;
    match c with
    | Some (hash, Some (k, v)) =>
        T ← slot_set (b_slots h) i (Some (hash, Some (k, f v)));
        Ok (with_slots h T)
    | _ => UB
    end
  else Ok h.

(** src/flat_hash_map.c:398-415 ccc_fhm_unwrap. *)
Definition unwrap (e : ent) : option nat := if has (e_st e) ST_OCCUPIED then e_at e else None.

(** ccc/impl/impl_flat_hash_map.h:108-141 ccc_impl_fhm_swaps. *)
Definition swaps (h : fhm) (e : ent) (kv : K * V) (hash : N) : outcome fhm :=
  i ← the_slot (e_at e);
  slot_hash ← get_hash (b_slots h) i;
  if (slot_hash =? 0)%N then
    T ← slot_set (b_slots h) i (Some (hash, Some kv));
    Ok (size_inc (with_slots h T))
  else
    cur ← get_kv (b_slots h) i;
    T ← slot_set (b_slots h) i (Some (hash, Some kv));
    insert (with_slots h T) cur slot_hash (Some (increment (b_cap h) i)).

(** ccc/impl/impl_flat_hash_map.h:166-188 ccc_impl_fhm_or_insert_w. *)
Definition or_insert_w (h : fhm) (e : ent) (kv : K * V) (hash : N)
  : outcome (fhm * option nat) :=
  if has (e_st e) ST_INSERT_ERROR then Ok (h, None)
  else if has (e_st e) ST_OCCUPIED then Ok (h, e_at e)
  else h1 ← swaps h e kv hash; Ok (h1, e_at e).

(** ccc/impl/impl_flat_hash_map.h:190-219 ccc_impl_fhm_insert_entry_w. *)
Definition insert_entry_w (h : fhm) (e : ent) (kv : K * V) (hash : N)
  : outcome (fhm * option nat) :=
  if has (e_st e) ST_INSERT_ERROR then Ok (h, None)
  else if has (e_st e) ST_OCCUPIED then h1 ← overwrite h (e_at e) hash kv; Ok (h1, e_at e)
  else h1 ← swaps h e kv hash; Ok (h1, e_at e).

(** ccc/impl/impl_flat_hash_map.h:221-250 ccc_impl_fhm_try_insert_w.
    Simplification: the key is written together with the value, not after it;
    nothing reads it in between. *)
Definition fhm_try_insert_w (h : fhm) (kv : K * V) (ok : bool) : outcome (fhm * res) :=
  let hash := filter (fst kv) in
  '(h1, e) ← entry h (fst kv) ok;
  if has (e_st e) ST_OCCUPIED || has (e_st e) ST_INSERT_ERROR then
    r ← mk_res h1 e; Ok (h1, r)
  else
    h2 ← swaps h1 e kv hash;
    r ← mk_res h2 (Ent (e_at e) ST_VACANT);
    Ok (h2, r).

(** ccc/impl/impl_flat_hash_map.h:252-293 ccc_impl_fhm_insert_or_assign_w. *)
Definition fhm_insert_or_assign_w (h : fhm) (kv : K * V) (ok : bool) : outcome (fhm * res) :=
  let hash := filter (fst kv) in
  '(h1, e) ← entry h (fst kv) ok;
  if has (e_st e) ST_OCCUPIED then
    h2 ← overwrite h1 (e_at e) hash kv;
    r ← mk_res h2 e;
    Ok (h2, Res (r_val r) true (r_err r))
  else if has (e_st e) ST_INSERT_ERROR then Ok (h1, Res None false true)
  else
    h2 ← swaps h1 e kv hash;
    r ← mk_res h2 (Ent (e_at e) ST_VACANT);
    Ok (h2, r).

(** src/flat_hash_map.c:438-467 ccc_fhm_begin and ccc_fhm_next: scan for the
    next occupied slot from position [i] on; [n] slots are left. *)
Fixpoint scan (n : nat) (T : slots cell) (i : nat) : outcome (option nat) :=
  match n with
  | 0 => Ok None
  | S n' =>
    h ← get_hash T i;
    if (h =? 0)%N then scan n' T (i + 1) else Ok (Some i)
  end.
Definition fhm_begin (h : fhm) : outcome (option nat) :=
  if b_sz h =? 0 then Ok None else scan (b_cap h) (b_slots h) 0.
Definition fhm_next (h : fhm) (i : nat) : outcome (option nat) :=
  scan (b_cap h - (i + 1)) (b_slots h) (i + 1).

(** The user's loop: for (i = begin; i != end; i = next(i)) use *i. *)
Fixpoint iterate (fuel : nat) (h : fhm) (cur : option nat) : outcome (list (K * V)) :=
  match cur with
  | None => Ok []
  | Some i =>
    match fuel with
    | 0 => Fuel
    | S f =>
      kv ← get_kv (b_slots h) i;
      nx ← fhm_next h i;
      rest ← iterate f h nx;
      Ok (kv :: rest)
    end
  end.
Definition fhm_iter (h : fhm) : outcome (list (K * V)) :=
  it ← fhm_begin h; iterate (b_cap h) h it.

(** Destructor calls of src/flat_hash_map.c:526-535 and 550-559: the user data
    of every slot whose hash is not empty. *)
Fixpoint destroyed (T : slots cell) : outcome (list (K * V)) :=
  match T with
  | [] => Ok []
  | c :: T =>
    match c with
    | None => UB
    | Some (h, kv) =>
      if (h =? 0)%N then destroyed T
      else match kv with None => UB | Some kv => d ← destroyed T; Ok (kv :: d) end
    end
  end.

(** src/flat_hash_map.c:515-537 ccc_fhm_clear; [fn]: a destructor is given. The
    list is the sequence of destructor calls. *)
Definition fhm_clear (h : fhm) (fn : bool) : outcome (fhm * list (K * V)) :=
  if negb fn then Ok (with_size h 0, [])
  else d ← destroyed (b_slots h); Ok (h, d).

(** src/flat_hash_map.c:539-561 ccc_fhm_clear_and_free. *)
Definition fhm_clear_and_free (h : fhm) (fn : bool)
  : outcome (fhm * result * list (K * V)) :=
  if negb fn then
    let '(h1, r) := buf_alloc (with_size h 0) 0 (b_alloc h) true in Ok (h1, r, [])
  else
    d ← destroyed (b_slots h);
    let '(h1, r) := buf_alloc h 0 (b_alloc h) true in Ok (h1, r, d).

(** src/flat_hash_map.c:481-513 ccc_fhm_copy; [fn]: an allocation function is
    given, [ok]: it returns memory. *)
Definition fhm_copy (dst src : fhm) (fn ok : bool) : outcome (fhm * result) :=
  if (b_cap dst <? b_cap src) && negb fn then Ok (dst, INPUT_ERR)
  else
    let d1 := with_size dst (b_sz src) in
    let '(d2, r) := if b_cap d1 <? b_cap src then buf_alloc d1 (b_cap src) fn ok
                    else (d1, OK) in
    match r with
    | OK => T ← copy_in (b_slots d2) 0 (b_slots src); Ok (with_slots d2 T, OK)
    | _ => Ok (d2, r)
    end.

(** src/flat_hash_map.c:968-972 distance again, as it is: validate also asks for
    the swap slots, where the subtractions wrap. *)
Definition distance_w (cap i j : nat) : N :=
  if i <? j then ((N.of_nat cap + 2 ^ 64 - N.of_nat j + N.of_nat i + 2 ^ 64 - 2) mod 2 ^ 64)%N
  else N.of_nat (i - j).

(** src/flat_hash_map.c:609-638 valid_distance_from_home. *)
Fixpoint valid_walk (fuel : nat) (T : slots cell) (cap : nat) (stop i : nat) (d : N) : outcome bool :=
  if i =? stop then Ok true
  else match fuel with
  | 0 => Fuel
  | S f =>
    cur ← get_hash T i;
    if (cur =? 0)%N then Ok false
    else if (distance_w cap i (to_i cap cur) <? d)%N then Ok false
    else valid_walk f T cap stop (decrement cap i) ((d + 2 ^ 64 - 1) mod 2 ^ 64)
  end.

(** src/flat_hash_map.c:578-607 ccc_fhm_validate. *)
Fixpoint validate_loop (n : nat) (T : slots cell) (cap i occ emp : nat)
  : outcome (option (nat * nat)) :=
  match n with
  | 0 => Ok (Some (occ, emp))
  | S n' =>
    h ← get_hash T i;
    if (h =? 0)%N then validate_loop n' T cap (i + 1) occ (emp + 1)
    else
      let home := to_i cap h in
      v ← valid_walk cap T cap (decrement cap home) i (distance_w cap i home);
      if (v : bool) then validate_loop n' T cap (i + 1) (occ + 1) emp else Ok None
  end.
Definition fhm_validate (h : fhm) : outcome bool :=
  r ← validate_loop (b_cap h) (b_slots h) (b_cap h) 0 0 0;
  match r with
  | None => Ok false
  | Some (occ, emp) => Ok ((N.of_nat occ =? fhm_size h)%N && (emp =? b_cap h - occ))
  end.

(** Calls of a history; [ok] is the allocator's answer if it is asked. *)
Inductive fhm_op : Type :=
  | HContains (k : K) (ok : bool)
  | HGet (k : K)
  | HInsert (kv : K * V) (ok : bool)
  | HTryInsert (kv : K * V) (ok : bool)
  | HAssign (kv : K * V) (ok : bool)
  | HTryInsertW (kv : K * V) (ok : bool)
  | HAssignW (kv : K * V) (ok : bool)
  | HOrInsert (kv : K * V) (ok : bool)
  | HInsertEntry (kv : K * V) (ok : bool)
  | HOrInsertW (kv : K * V) (ok : bool)
  | HInsertEntryW (kv : K * V) (ok : bool)
  | HAndModify (k : K) (f : V -> V) (ok : bool)
  | HRemoveEntry (k : K) (ok : bool)
  | HRemove (k : K)
  | HIter
  | HSize
  | HIsEmpty
  | HValidate.

Inductive fhm_res : Type :=
  | RBool (b : bool)
  | RVal (v : option (K * V))
  | REnt (r : res)
  | RList (l : list (K * V))
  | RNum (n : N)
  | RUnit.

(** Obtain an entry, then use it; the second half returns a slot pointer. *)
Definition via_entry (h : fhm) (kv : K * V) (ok : bool)
    (use : fhm -> ent -> K * V -> N -> outcome (fhm * option nat)) : outcome (fhm * fhm_res) :=
  '(h1, e) ← entry h (fst kv) ok;
  '(h2, i) ← use h1 e kv (filter (fst kv));
  v ← deref h2 i;
  Ok (h2, RVal v).

Definition fhm_step (h : fhm) (o : fhm_op) : outcome (fhm * fhm_res) :=
  match o with
  | HContains k ok => '(h1, b) ← fhm_contains h k ok; Ok (h1, RBool b)
  | HGet k => v ← fhm_get h k; Ok (h, RVal v)
  | HInsert kv ok => '(h1, r) ← fhm_insert h kv ok; Ok (h1, REnt r)
  | HTryInsert kv ok => '(h1, r) ← fhm_try_insert h kv ok; Ok (h1, REnt r)
  | HAssign kv ok => '(h1, r) ← fhm_insert_or_assign h kv ok; Ok (h1, REnt r)
  | HTryInsertW kv ok => '(h1, r) ← fhm_try_insert_w h kv ok; Ok (h1, REnt r)
  | HAssignW kv ok => '(h1, r) ← fhm_insert_or_assign_w h kv ok; Ok (h1, REnt r)
  | HOrInsert kv ok => via_entry h kv ok or_insert
  | HInsertEntry kv ok => via_entry h kv ok insert_entry
  | HOrInsertW kv ok => via_entry h kv ok or_insert_w
  | HInsertEntryW kv ok => via_entry h kv ok insert_entry_w
  | HAndModify k f ok =>
      '(h1, e) ← entry h k ok;
      h2 ← and_modify h1 e f;
      v ← deref h2 (unwrap e);
      Ok (h2, RVal v)
  | HRemoveEntry k ok =>
      '(h1, e) ← entry h k ok;
      '(h2, r) ← remove_entry h1 e;
      Ok (h2, REnt r)
  | HRemove k => '(h1, r) ← fhm_remove h k; Ok (h1, REnt r)
  | HIter => l ← fhm_iter h; Ok (h, RList l)
  | HSize => Ok (h, RNum (fhm_size h))
  | HIsEmpty => Ok (h, RBool (fhm_is_empty h))
  | HValidate => b ← fhm_validate h; Ok (h, RBool b)
  end.

(** Whether an insertion of a new key would be refused: no room under the load
    limit and no growth. Recorded with every call of a history. *)
Definition fhm_full (h : fhm) (ok : bool) : bool :=
  (((b_cap h =? 0) || (4 * b_cap h <? 5 * (if b_sz h <? 2 then 2 else b_sz h)))
   && negb (b_alloc h && ok
            && (b_cap h <? (if b_cap h =? 0 then next_prime 0 else next_prime (b_sz h * 2)))))%nat.

Definition op_ok (o : fhm_op) : bool :=
  match o with
  | HContains _ ok | HInsert _ ok | HTryInsert _ ok | HAssign _ ok | HTryInsertW _ ok
  | HAssignW _ ok | HOrInsert _ ok | HInsertEntry _ ok | HOrInsertW _ ok
  | HInsertEntryW _ ok | HAndModify _ _ ok | HRemoveEntry _ ok => ok
  | _ => true
  end.

Fixpoint fhm_run (h : fhm) (os : list fhm_op) : outcome (fhm * list (fhm_op * bool * fhm_res)) :=
  match os with
  | [] => Ok (h, [])
  | o :: os =>
      '(h1, r) ← fhm_step h o;
      '(h2, rs) ← fhm_run h1 os;
      Ok (h2, (o, fhm_full h (op_ok o), r) :: rs)
  end.

(** ccc/impl/impl_flat_hash_map.h ccc_impl_fhm_init on memory that is zero, and
    on memory with arbitrary content. *)
Definition fresh_fhm (cap : nat) (grow : bool) : fhm := Buf (zeroed cap) 0 grow.
Definition raw_fhm (cap : nat) (grow : bool) : fhm := Buf (replicate cap None) 0 grow.

End fhm.
Arguments fhm_op : clear implicits.
Arguments fhm_res : clear implicits.
Arguments res : clear implicits.
