(** Model of what src/flat_ordered_map.c (fom) and src/flat_realtime_ordered_map.c
    (frm) share: ordered maps in the slots of a ccc_buffer, with the macros of
    ccc/impl/impl_flat_ordered_map.h and ccc/impl/impl_flat_realtime_ordered_map.h.
    The two sources contain the same code up to the functions that are parameters
    here. Line numbers are those of flat_realtime_ordered_map.c, then those of
    flat_ordered_map.c. *)
From stdpp Require Import base numbers option gmap fin_maps list.
From Verif Require Import Common LinkHeap TreeModel WavlModel WavlNode FlatOps.

Section model.
Context {K V : Type}.

(** struct ccc_fromap_ / ccc_fomap_ with the memory of its buffer: nodes of all
    slots below the capacity (the parity of a slot is not used by fom), the user
    data of the slots that were ever written, buf_.sz_ and buf_.capacity_. The slot
    numbers are the indices of the C code, slot 0 is the sentinel; the pointers of
    the C interface are slots too. Offsets within the user struct are taken as
    zero. size_t is unbounded. *)
Record flat : Type := Flat { tr : wavl; dat : gmap nat (K * V); sz : nat; cap : nat }.

Definition set_tr (s : flat) (t : wavl) : flat := Flat t (dat s) (sz s) (cap s).
Definition set_sz (s : flat) (n : nat) : flat := Flat (tr s) (dat s) n (cap s).
Definition set_root (s : flat) (r : nat) : flat := set_tr s (with_root (tr s) r).
Definition set_dat (s : flat) (e : nat) (kv : K * V) : flat :=
  Flat (tr s) (<[e := kv]> (dat s)) (sz s) (cap s).

(** The bytes of one slot; the data is None if it was never written. *)
Definition cell : Type := fnode * option (K * V).
Definition cell_of (u : user K V) : cell := (fst u, Some (snd u)).
Definition put_fnode (t : wavl) (i : nat) (n : fnode) : wavl := put_node t i (nl n) (nr n) (np n) (nb n).

(** memcpy of elem_sz bytes from and to slot [i]. *)
Definition read (s : flat) (i : nat) : outcome cell :=
  l ← child (tr s) false i; r ← child (tr s) true i; p ← up (tr s) i; b ← parity (tr s) i;
  Ok (Node l r p b, dat s !! i).
Definition write (s : flat) (i : nat) (c : cell) : outcome flat :=
  _ ← parity (tr s) i;
  Ok (Flat (put_fnode (tr s) i (fst c))
    (match snd c with Some kv => <[i := kv]> (dat s) | None => delete i (dat s) end) (sz s) (cap s)).

(** New slots hold anything. *)
Definition fresh (t : wavl) (junk : nat -> fnode) (l : list nat) : wavl :=
  foldr (fun i t => put_fnode t i (junk i)) t l.
Definition blank : wavl := Wavl (Links ∅ ∅ ∅) ∅ 0.

(** impl_flat_realtime_ordered_map.h:62 ccc_impl_frm_init, impl_flat_ordered_map.h:45:
    a buffer of [n] slots provided by the user (0: none yet), size 0, root 0. *)
Definition flat_init (n : nat) (junk : nat -> fnode) : flat :=
  Flat (fresh blank junk (seq 0 n)) ∅ 0 n.

(** Whether the map was initialised with an allocator. *)
Context (alloc : bool).

(** src/buffer.c:16-36 ccc_buf_alloc enlarging the buffer to [n] slots. *)
Definition grow (s : flat) (n : nat) (junk : nat -> fnode) : flat :=
  Flat (fresh (tr s) junk (seq (cap s) (n - cap s))) (dat s) (sz s) n.

(** src/buffer.c:60-78 ccc_buf_alloc_back; the answer is the new slot. *)
Definition buf_alloc_back (s : flat) (ans : grant) : flat * option nat :=
  let next s1 := (set_sz s1 (S (sz s)), Some (sz s)) in
  if sz s =? cap s then
    match alloc, ans with
    | true, Some junk => next (grow s (if cap s =? 0 then 8 else cap s * 2) junk)
    | _, _ => (s, None)
    end
  else next s.

(** What differs between the two maps. frm: slot 0 gets parity 1. fom: nothing. *)
Context (seal : flat -> outcome flat).

(** 791-806 alloc_back, 865-874. At most one of the two requests asks the allocator
    for memory and gets it. *)
Definition alloc_back (s : flat) (ans : grant) : outcome (flat * option nat) :=
  if sz s =? 0 then
    let '(s1, o) := buf_alloc_back s ans in
    match o with
    | None => Ok (s1, None)
    | Some _ => s2 ← seal s1; Ok (buf_alloc_back s2 ans)
    end
  else Ok (buf_alloc_back s ans).

(** Search for a key: the slot that holds it, and what an entry remembers. frm:
    700-717 find. fom: 750-760 find, which splays. *)
Context {H : Type} (find : flat -> K -> outcome (flat * option nat * H)).
(** 656-677 insert, 650-667: puts slot [n] into the tree; None is NULL. *)
Context (link : flat -> H -> nat -> outcome (flat * option nat)).

(** 640-654 maybe_alloc_insert, 635-647. ccc_buf_write (src/buffer.c:118-132) copies
    the user struct, which is not in the buffer. *)
Definition maybe_alloc_insert (s : flat) (h : H) (u : cell) (ans : grant) : outcome (flat * option nat) :=
  '(s1, o) ← alloc_back s ans;
  match o with
  | None => Ok (s1, None)
  | Some _ =>
    let n := sz s1 - 1 in
    s2 ← write s1 n u;
    link s2 h n
  end.

(** A ccc_entry (types.h): where it points, occupied, insert_error. *)
Record fent : Type := FEnt { fp : option place; focc : bool; ferr : bool }.
Definition inserted_ent (p : option nat) : fent :=
  match p with Some i => FEnt (Some (Slot i)) false false | None => FEnt None false true end.

(** 166-176 get_key_val, 110-118. *)
Definition flat_get (s : flat) (k : K) : outcome (flat * option nat) :=
  '(s1, o, _) ← find s k; Ok (s1, o).

(** 178-204 insert, 197-222. The swap of 816-826, 883-893 uses slot 0 as temporary;
    the user struct is not in the buffer. *)
Definition flat_insert (s : flat) (u : user K V) (ans : grant) : outcome (flat * fent * cell) :=
  '(s1, o, h) ← find s (fst (snd u));
  match o with
  | Some x =>
    c ← read s1 x;
    let u1 : cell := (fst c, Some (snd u)) in
    s2 ← write s1 0 u1;
    u2 ← read s2 x;
    c0 ← read s2 0;
    s3 ← write s2 x c0;
    s4 ← seal s3;
    Ok (s4, FEnt (Some (Slot x)) true false, u2)
  | None =>
    '(s2, p) ← maybe_alloc_insert s1 h (cell_of u) ans;
    Ok (s2, match p with Some _ => FEnt None false false | None => FEnt None false true end, cell_of u)
  end.

(** 206-227 try_insert, 224-244. *)
Definition flat_try_insert (s : flat) (u : user K V) (ans : grant) : outcome (flat * fent * cell) :=
  '(s1, o, h) ← find s (fst (snd u));
  match o with
  | Some x => Ok (s1, FEnt (Some (Slot x)) true false, cell_of u)
  | None => '(s2, p) ← maybe_alloc_insert s1 h (cell_of u) ans; Ok (s2, inserted_ent p, cell_of u)
  end.

(** The user struct takes the node of slot [x] and is then copied over the slot:
    240-243 and 303-306, 257-260 and 139-142. *)
Definition overwrite (s : flat) (x : nat) (u : user K V) : outcome (flat * cell) :=
  c ← read s x;
  let u1 : cell := (fst c, Some (snd u)) in
  s1 ← write s x u1;
  Ok (s1, u1).

(** 229-253 insert_or_assign, 246-269. *)
Definition flat_insert_or_assign (s : flat) (u : user K V) (ans : grant) : outcome (flat * fent * cell) :=
  '(s1, o, h) ← find s (fst (snd u));
  match o with
  | Some x => '(s2, u1) ← overwrite s1 x u; Ok (s2, FEnt (Some (Slot x)) true false, u1)
  | None => '(s2, p) ← maybe_alloc_insert s1 h (cell_of u) ans; Ok (s2, inserted_ent p, cell_of u)
  end.

(** struct ccc_frtree_entry_ / ccc_ftree_entry_: the slot if occupied. *)
Record tent : Type := TEnt { te : option nat; hint : H }.
(** 313-322 and 679-698 entry, 120-128 and 615-632. *)
Definition flat_entry (s : flat) (k : K) : outcome (flat * tent) :=
  '(s1, o, h) ← find s k; Ok (s1, TEnt o h).

(** 278-291 or_insert, 183-195. *)
Definition flat_or_insert (s : flat) (en : tent) (u : user K V) (ans : grant) : outcome (flat * option nat) :=
  match te en with Some x => Ok (s, Some x) | None => maybe_alloc_insert s (hint en) (cell_of u) ans end.

(** 293-311 insert_entry, 130-146. *)
Definition flat_insert_entry (s : flat) (en : tent) (u : user K V) (ans : grant) : outcome (flat * option nat) :=
  match te en with
  | Some x => '(s1, _) ← overwrite s x u; Ok (s1, Some x)
  | None => maybe_alloc_insert s (hint en) (cell_of u) ans
  end.

(** 255-276 and_modify and its _aux form, 148-181, and the macro and_modify_w
    (impl_flat_realtime_ordered_map.h:74-94, impl_flat_ordered_map.h:69-89). The callback
    changes the value, not the key. *)
Definition flat_and_modify (s : flat) (en : tent) (f : V -> V) : outcome (flat * option nat) :=
  match te en with
  | Some x => kv ← value (dat s) x; Ok (set_dat s x (fst kv, f (snd kv)), Some x)
  | None => Ok (s, None)
  end.

(** The macros: the literal is written to the new slot, then inserted; the answer of
    the insertion is dropped. impl_flat_realtime_ordered_map.h:96-262,
    impl_flat_ordered_map.h:91-251. *)
Definition literal_insert (s : flat) (h : H) (u : cell) (ans : grant) : outcome (flat * option nat) :=
  '(s1, o) ← alloc_back s ans;
  match o with
  | None => Ok (s1, None)
  | Some i => s2 ← write s1 i u; '(s3, _) ← link s2 h (sz s1 - 1); Ok (s3, Some i)
  end.
(** The literal replaces the contents of slot [x] but for its node. *)
Definition literal_overwrite (s : flat) (x : nat) (u : cell) : outcome flat :=
  c ← read s x; write s x (fst c, snd u).

Definition flat_or_insert_w (s : flat) (en : tent) (u : user K V) (ans : grant) : outcome (flat * option nat) :=
  match te en with Some x => Ok (s, Some x) | None => literal_insert s (hint en) (cell_of u) ans end.
Definition flat_insert_entry_w (s : flat) (en : tent) (u : user K V) (ans : grant) : outcome (flat * option nat) :=
  match te en with
  | None => literal_insert s (hint en) (cell_of u) ans
  | Some x => s1 ← literal_overwrite s x (cell_of u); Ok (s1, Some x)
  end.

(** impl_flat_realtime_ordered_map.h:164-204, impl_flat_ordered_map.h:157-195: the
    key is written into the literal. ccc_buf_i of the new slot is its number. *)
Definition keyed_cell (k : K) (u : user K V) : cell := (fst u, Some (k, snd (snd u))).
Definition flat_try_insert_w (s : flat) (k : K) (u : user K V) (ans : grant) : outcome (flat * fent) :=
  '(s1, en) ← flat_entry s k;
  match te en with
  | None => '(s2, p) ← literal_insert s1 (hint en) (keyed_cell k u) ans; Ok (s2, inserted_ent p)
  | Some x => Ok (s1, FEnt (Some (Slot x)) true false)
  end.
(** impl_flat_realtime_ordered_map.h:206-262, impl_flat_ordered_map.h:197-251. *)
Definition flat_insert_or_assign_w (s : flat) (k : K) (u : user K V) (ans : grant) : outcome (flat * fent) :=
  '(s1, en) ← flat_entry s k;
  match te en with
  | None => '(s2, p) ← literal_insert s1 (hint en) (keyed_cell k u) ans; Ok (s2, inserted_ent p)
  | Some x => s2 ← literal_overwrite s1 x (keyed_cell k u); Ok (s2, FEnt (Some (Slot x)) true false)
  end.

(** ** Removal *)

(** src/buffer.c:91-102 ccc_buf_swap with slot 0 as temporary. *)
Definition buf_swap (s : flat) (i j : nat) : outcome flat :=
  if (cap s <=? i) || (cap s <=? j) || (j =? i) then Ok s
  else
    ci ← read s i; s1 ← write s 0 ci;
    cj ← read s1 j; s2 ← write s1 i cj;
    c0 ← read s2 0; write s2 j c0.

(** 1114-1130 of swap_and_pop, 697-713, up to the swap; [x], the slot left behind, is
    cleared by the callers of this definition. *)
Definition relocate (s : flat) (v : nat) : outcome flat :=
  let x := sz s in
  _ ← oassert (negb (v =? 0));
  _ ← oassert (negb (x =? 0));
  let t := tr s in
  t1 ← (if x =? wroot t then Ok (with_root t v)
        else p ← up t x; r ← child t true p; wchild t (r =? x) p v);
  xr ← child t1 true x;
  t2 ← wup t1 xr v;
  xl ← child t2 false x;
  t3 ← wup t2 xl v;
  buf_swap (set_tr s t3) v x.

(** ** Walking *)

(** 417-426 size, 340-349; 428-436 capacity, 351-359; 411-415 is_empty, 334-338. *)
Definition flat_size (s : flat) : nat := sz s - 1.
Definition flat_capacity (s : flat) : nat := cap s.
Definition flat_is_empty (s : flat) : bool := flat_size s =? 0.

(** 444-464 begin and rbegin, 361-381, with 769-780 min_max_from, 817-828. end() and
    rend(), 490-508, 407-425, are NULL if the buffer is empty and slot 0 otherwise;
    both are written 0. *)
Definition flat_begin (s : flat) (d : bool) : outcome nat :=
  if sz s =? 0 then Ok 0
  else if wroot (tr s) =? 0 then Ok 0 else edge 0 (wl (tr s)) (negb d) (wroot (tr s)).

(** 719-742 next, 830-853. *)
Definition fnext (s : flat) (d : bool) (n : nat) : outcome nat :=
  if n =? 0 then Ok 0 else tree_next 0 (wl (tr s)) (wroot (tr s)) d n.
(** 466-488 next and rnext, 383-405. *)
Definition flat_next (s : flat) (d : bool) (i : nat) : outcome nat :=
  if sz s =? 0 then Ok 0 else fnext s d i.

(** A whole walk: for (e = begin; e != end; e = next(e)), with the user data. *)
Fixpoint walk (fuel : nat) (s : flat) (d : bool) (e : nat) : outcome (list (nat * (K * V))) :=
  match fuel with
  | 0 => Fuel
  | S f =>
    if e =? 0 then Ok []
    else
      kv ← value (dat s) e;
      e' ← flat_next s d e;
      l ← walk f s d e';
      Ok ((e, kv) :: l)
  end.
Definition flat_iter (s : flat) (d : bool) : outcome (list (nat * (K * V))) :=
  e ← flat_begin s d; walk (S (S (sz s))) s d e.

(** ** Clearing and copying *)

(** src/buffer.c:340-353 ccc_buf_size_set. *)
Definition size_set (s : flat) (n : nat) : flat * result :=
  if cap s <? n then (set_sz s (cap s), INPUT_ERR) else (set_sz s n, OK).

(** The loop of clear and clear_and_free: e = ccc_buf_at(buf, 1); e != ccc_buf_end(buf);
    e = ccc_buf_next(buf, e) (src/buffer.c:38-46, 237-248, 265-272). The destructor reads the element; reading a slot that
    was never written or lies beyond the capacity is undefined. *)
Fixpoint destroy (fuel : nat) (s : flat) (i : nat) : outcome (list (nat * (K * V))) :=
  match fuel with
  | 0 => Fuel
  | S f => if i =? sz s then Ok [] else kv ← value (dat s) i; l ← destroy f s (S i); Ok ((i, kv) :: l)
  end.
Definition destroy_all (s : flat) : outcome (list (nat * (K * V))) :=
  match cap s with
  | 0 => Ok []                     (* ccc_buf_at and ccc_buf_end answer NULL *)
  | 1 => UB                        (* ccc_buf_at answers NULL, ccc_buf_end does not *)
  | _ => destroy (S (cap s)) s 1
  end.

(** 545-566 clear, 491-512: fom reports CCC_OK in place of the answer of
    ccc_buf_size_set. *)
Definition flat_clear (s : flat) (fn : bool) : outcome (flat * result * list (nat * (K * V))) :=
  if fn then
    l ← destroy_all s;
    let '(s1, _) := size_set s 1 in Ok (set_root s1 0, OK, l)
  else let '(s1, r) := size_set (set_root s 0) 1 in Ok (s1, r, []).

(** 568-588 clear_and_free, 514-534: buf_.sz_ is not touched. *)
Definition flat_clear_and_free (s : flat) (fn : bool) : outcome (flat * result * list (nat * (K * V))) :=
  l ← (if fn then destroy_all s else Ok []);
  let s1 := set_root s 0 in
  Ok (if alloc then (Flat blank ∅ (sz s1) 0, OK, l) else (s1, NO_ALLOC, l)).

(** 510-543 copy, 457-489. [fn] says whether an allocation function was given, [ans]
    is its answer. The memcpy covers the capacity of the source. *)
Definition blit (d s : flat) : flat :=
  let h := wl (tr s) in let g := wl (tr d) in
  Flat (Wavl (Links (lf h ∪ lf g) (rt h ∪ rt g) (pa h ∪ pa g)) (wp (tr s) ∪ wp (tr d)) (wroot (tr d)))
    (dat s ∪ filter (fun p => cap s <= fst p) (dat d)) (sz d) (cap d).
Definition flat_copy (d s : flat) (fn : bool) (ans : grant) : flat * result :=
  if (cap d <? cap s) && negb fn then (d, INPUT_ERR)
  else
    let d1 := set_sz (set_root d (wroot (tr s))) (sz s) in
    if cap d <? cap s then
      match ans with
      | None => (d1, MEM_ERR)
      | Some junk => (blit (grow d1 (cap s) junk) s, OK)
      end
    else (blit d1 s, OK).

(** ** Steps *)

(** The functions that the two maps implement differently. *)
Context (contains : flat -> K -> outcome (flat * bool)).
Context (remove : flat -> user K V -> outcome (flat * fent * cell)).
Context (remove_at : flat -> nat -> outcome (flat * nat)).
Context (range : flat -> bool -> K -> K -> outcome (flat * option nat * option nat)).
Context (clear : flat -> bool -> outcome (flat * result * list (nat * (K * V)))).
Context (validate : flat -> outcome bool).

(** 324-338 remove_entry, 287-302. *)
Definition flat_remove_entry (s : flat) (en : tent) : outcome (flat * fent) :=
  match te en with
  | Some x => '(s1, n) ← remove_at s x; Ok (s1, FEnt (Some (Slot n)) true false)
  | None => Ok (s, FEnt None false false)
  end.

(** The user looks at what was returned. *)
Definition see (s : flat) (p : option nat) : outcome (flat_res K V) :=
  match p with Some i => kv ← value (dat s) i; Ok (XPtr (Some (i, kv))) | None => Ok (XPtr None) end.
Definition look (s : flat) (e : fent) (u : option cell) : outcome (flat_res K V) :=
  p ← match fp e with
      | None => Ok None
      | Some (Slot i) => kv ← value (dat s) i; Ok (Some (Slot i, kv))
      | Some Handle =>
        match u with Some (_, Some kv) => Ok (Some (Handle, kv)) | _ => UB end
      end;
  Ok (XEnt (focc e) (ferr e) p (match u with Some c => snd c | None => None end)).
Definition tlook (s : flat) (en : tent) : outcome (flat_res K V) :=
  look s (match te en with Some x => FEnt (Some (Slot x)) true false | None => FEnt None false false end) None.

Definition flat_step (s : flat) (o : flat_op K V) : outcome (flat * flat_res K V) :=
  match o with
  | FContains k => '(s', b) ← contains s k; Ok (s', XBool b)
  | FGet k => '(s', p) ← flat_get s k; r ← see s' p; Ok (s', r)
  | FInsert u ans => '(s', e, h) ← flat_insert s u ans; r ← look s' e (Some h); Ok (s', r)
  | FTryInsert u ans => '(s', e, h) ← flat_try_insert s u ans; r ← look s' e (Some h); Ok (s', r)
  | FAssign u ans => '(s', e, h) ← flat_insert_or_assign s u ans; r ← look s' e (Some h); Ok (s', r)
  | FRemove u => '(s', e, h) ← remove s u; r ← look s' e (Some h); Ok (s', r)
  | FEntry k => '(s', en) ← flat_entry s k; r ← tlook s' en; Ok (s', r)
  | FOrInsert k u ans =>
    '(s1, en) ← flat_entry s k; '(s', p) ← flat_or_insert s1 en u ans; r ← see s' p; Ok (s', r)
  | FInsertEntry k u ans =>
    '(s1, en) ← flat_entry s k; '(s', p) ← flat_insert_entry s1 en u ans; r ← see s' p; Ok (s', r)
  | FAndModify k f =>
    '(s1, en) ← flat_entry s k; '(s', p) ← flat_and_modify s1 en f; r ← see s' p; Ok (s', r)
  | FRemoveEntry k =>
    '(s1, en) ← flat_entry s k; '(s', e) ← flat_remove_entry s1 en; r ← look s' e None; Ok (s', r)
  | FOrInsertW k u ans =>
    '(s1, en) ← flat_entry s k; '(s', p) ← flat_or_insert_w s1 en u ans; r ← see s' p; Ok (s', r)
  | FInsertEntryW k u ans =>
    '(s1, en) ← flat_entry s k; '(s', p) ← flat_insert_entry_w s1 en u ans; r ← see s' p; Ok (s', r)
  | FTryInsertW k u ans => '(s', e) ← flat_try_insert_w s k u ans; r ← look s' e None; Ok (s', r)
  | FAssignW k u ans => '(s', e) ← flat_insert_or_assign_w s k u ans; r ← look s' e None; Ok (s', r)
  | FBegin => i ← flat_begin s true; Ok (s, XIter i)
  | FRBegin => i ← flat_begin s false; Ok (s, XIter i)
  | FNext i => j ← flat_next s true i; Ok (s, XIter j)
  | FRNext i => j ← flat_next s false i; Ok (s, XIter j)
  | FRange a b => '(s', x, y) ← range s true a b; Ok (s', XRange x y)
  | FRRange a b => '(s', x, y) ← range s false a b; Ok (s', XRange x y)
  | FClear fn => '(s', r, l) ← clear s fn; Ok (s', XDestroyed r l)
  | FSize => Ok (s, XNum (flat_size s))
  | FCapacity => Ok (s, XNum (flat_capacity s))
  | FIsEmpty => Ok (s, XBool (flat_is_empty s))
  | FValidate => b ← validate s; Ok (s, XBool b)
  end.
Fixpoint flat_run (s : flat) (os : list (flat_op K V)) : outcome (flat * list (flat_res K V)) :=
  match os with
  | [] => Ok (s, [])
  | o :: os' =>
    '(s1, r) ← flat_step s o;
    '(s2, rs) ← flat_run s1 os';
    Ok (s2, r :: rs)
  end.
End model.
Arguments flat K V : clear implicits.
Arguments cell K V : clear implicits.
