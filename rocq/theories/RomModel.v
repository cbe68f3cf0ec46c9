(** Model of src/realtime_ordered_map.c and ccc/impl/impl_realtime_ordered_map.h: a
    WAVL tree of user elements with parent links and a sentinel inside the map.
    Line numbers without a file name are those of realtime_ordered_map.c. *)
From stdpp Require Import base numbers option gmap fin_maps list.
From Verif Require Import Common LinkHeap TreeModel WavlModel WavlNode MapOps.

Definition nil : nat := 1.  (* &rom->end_ *)

(** branch_[L] = branch_[R] = parent_ = NULL, the parity stays. *)
Definition null_links (s : wavl) (e : nat) : outcome wavl :=
  h ← set_links (wl s) e 0; Ok (with_links s h).

Section model.
Context {K V : Type} (cmp : K -> K -> comparison).

(** Whether the map was initialised with an allocator (rom->alloc_ != NULL). *)
Context (alloc : bool).

(** ccc/impl/impl_realtime_ordered_map.h struct ccc_romap_, with all of memory: the
    links and parity of the sentinel and of every live element, the user data of
    the elements, and which of them the allocator handed out. The offsets of
    struct_base, key_from_node, elem_in_slot and key_in_slot (758-783) are taken as
    zero: node and user struct are one cell. *)
Record rom : Type := Rom { tr : wavl; dat : gmap nat (K * V); heap : gset nat; sz : Z }.

Definition set_tr (s : rom) (t : wavl) : rom := Rom t (dat s) (heap s) (sz s).
Definition set_sz (s : rom) (n : Z) : rom := Rom (tr s) (dat s) (heap s) n.
Definition set_dat (s : rom) (e : nat) (kv : K * V) : rom :=
  Rom (tr s) (<[e := kv]> (dat s)) (heap s) (sz s).

(** ccc/impl/impl_realtime_ordered_map.h:48-62 ccc_impl_rom_init. The branches of
    the sentinel are its own address, its parity is 1. *)
Definition rom_init : rom :=
  Rom (Wavl (put_links (Links ∅ ∅ ∅) nil nil nil nil) {[ nil := true ]} nil) ∅ ∅ 0.

(** The user writes a new element somewhere. *)
Definition rom_new (s : rom) (e : nat) (k : K) (v : V) (l r p : nat) (b : bool) : rom :=
  Rom (put_node (tr s) e l r p b) (<[e := (k, v)]> (dat s)) (heap s) (sz s).

(** memcpy(dst, src, elem_sz) of whole user structs, links included. *)
Definition copy_struct (s : rom) (dst src : nat) : outcome rom :=
  if dst =? src then UB
  else
    kv ← value (dat s) src;
    _ ← value (dat s) dst;
    t ← copy_node (tr s) dst src;
    Ok (set_dat (set_tr s t) dst kv).

(** alloc_(NULL, elem_sz, aux) answered [ans]: memory at [ans], if not NULL, becomes
    live. Its contents, indeterminate in C, are overwritten by all callers at
    once with a whole struct: [kv], links [l], [r], [p] and parity [b]. *)
Definition take (s : rom) (ans : nat) (kv : K * V) (l r p : nat) (b : bool) : rom :=
  Rom (put_node (tr s) ans l r p b) (<[ans := kv]> (dat s)) ({[ans]} ∪ heap s) (sz s).

(** alloc_(p, 0, aux). *)
Definition give_back (s : rom) (p : nat) : outcome rom :=
  if bool_decide (p ∈ heap s)
  then Ok (Rom (Wavl (del_links (wl (tr s)) p) (delete p (wp (tr s))) (wroot (tr s)))
    (delete p (dat s)) (heap s ∖ {[p]}) (sz s))
  else UB.

(** 656-674 find. *)
Definition find (s : rom) (k : K) : outcome (option comparison * nat) :=
  tree_find nil (budget (sz s)) cmp (dat s) (wl (tr s)) (wroot (tr s)) k.

(** CCC_EQL == q.last_cmp_ *)
Definition hit (c : option comparison) : bool := match c with Some Eq => true | _ => false end.

(** 154-175 ccc_rom_contains and ccc_rom_get_key_val. *)
Definition rom_contains (s : rom) (k : K) : outcome bool :=
  '(c, _) ← find s k; Ok (hit c).
Definition rom_get (s : rom) (k : K) : outcome nat :=
  '(c, x) ← find s k; Ok (if hit c then x else 0).

(** 612-635 insert: sz_ == 0 says that the map is empty. *)
Definition insert (s : rom) (parent : nat) (c : option comparison) (e : nat) : outcome (rom * nat) :=
  t ← attach nil (budget (sz s)) (tr s) (sz s =? 0)%Z parent c e;
  Ok (set_sz (set_tr s t) (sz s + 1), e).

(** 637-654 maybe_alloc_insert. *)
Definition maybe_alloc_insert (s : rom) (parent : nat) (c : option comparison) (e ans : nat)
  : outcome (rom * nat) :=
  if alloc then
    if ans =? 0 then Ok (s, 0)
    else
      kv ← value (dat s) e;
      l ← rd (lf (wl (tr s))) e; r ← rd (rt (wl (tr s))) e; p ← rd (pa (wl (tr s))) e;
      b ← parity (tr s) e;
      insert (take s ans kv l r p b) parent c ans
  else insert s parent c e.

(** 823-887 remove_fixup, with what follows the rebalancing (883-886). The parity
    of the node lives as long as its links do. *)
Definition remove_fixup (s : rom) (x : nat) : outcome (rom * nat) :=
  t ← unlink nil (budget (sz s)) (tr s) x;
  h ← set_links (wl t) x 0;
  Ok (set_sz (set_tr s (Wavl h (<[x := false]> (wp t)) (wroot t))) (sz s - 1), x).

(** 178-206 ccc_rom_insert. The swap of 734-745 is three copies unless the
    addresses are equal. *)
Definition rom_insert (s : rom) (e tmp ans : nat) : outcome (rom * ent) :=
  kv ← value (dat s) e;
  '(c, x) ← find s (fst kv);
  if hit c then
    t ← copy_node (tr s) e x;
    let s1 := set_tr s t in
    s2 ← (if x =? e then Ok s1
          else
            a ← copy_struct s1 tmp x;
            b ← copy_struct a x e;
            copy_struct b e tmp);
    t1 ← null_links (tr s2) e;
    t2 ← null_links t1 tmp;
    Ok (set_tr s2 t2, occupied_ent tmp)
  else
    '(s1, ins) ← maybe_alloc_insert s x c e ans;
    Ok (s1, if ins =? 0 then error_ent 0 else vacant_ent 0).

(** 208-229 ccc_rom_try_insert. *)
Definition rom_try_insert (s : rom) (e ans : nat) : outcome (rom * ent) :=
  kv ← value (dat s) e;
  '(c, x) ← find s (fst kv);
  if hit c then Ok (s, occupied_ent x)
  else
    '(s1, ins) ← maybe_alloc_insert s x c e ans;
    Ok (s1, if ins =? 0 then error_ent 0 else vacant_ent ins).

(** [*elem = *elem_in_slot(found); memcpy(found, elem, elem_sz)], in 242-243 and
    290-292. *)
Definition overwrite (s : rom) (found e : nat) : outcome rom :=
  t ← copy_node (tr s) e found;
  copy_struct (set_tr s t) found e.

(** 231-255 ccc_rom_insert_or_assign. *)
Definition rom_insert_or_assign (s : rom) (e ans : nat) : outcome (rom * ent) :=
  kv ← value (dat s) e;
  '(c, x) ← find s (fst kv);
  if hit c then s1 ← overwrite s x e; Ok (s1, occupied_ent x)
  else
    '(s1, ins) ← maybe_alloc_insert s x c e ans;
    Ok (s1, if ins =? 0 then error_ent 0 else vacant_ent ins).

(** 323-345 ccc_rom_remove. *)
Definition rom_remove (s : rom) (e : nat) : outcome (rom * ent) :=
  kv ← value (dat s) e;
  '(c, x) ← find s (fst kv);
  if negb (hit c) then Ok (s, vacant_ent 0)
  else
    '(s1, n) ← remove_fixup s x;
    if alloc then
      s2 ← copy_struct s1 e n;
      s3 ← give_back s2 n;
      Ok (s3, occupied_ent e)
    else Ok (s1, occupied_ent n).

(** struct ccc_rtree_entry_: an entry with the comparison the search ended with. *)
Record rent : Type := Rent { re : ent; last : option comparison }.

(** 257-265 ccc_rom_entry and 588-610 entry: a vacant entry holds the parent. *)
Definition rom_entry (s : rom) (k : K) : outcome rent :=
  '(c, x) ← find s k;
  Ok (Rent (if hit c then occupied_ent x else Ent x false false true) c).

(** 267-281 ccc_rom_or_insert. *)
Definition rom_or_insert (s : rom) (en : rent) (e ans : nat) : outcome (rom * nat) :=
  if occupied (re en) then Ok (s, e_ (re en))
  else maybe_alloc_insert s (e_ (re en)) (last en) e ans.

(** 283-299 ccc_rom_insert_entry. *)
Definition rom_insert_entry (s : rom) (en : rent) (e ans : nat) : outcome (rom * nat) :=
  if occupied (re en) then s1 ← overwrite s (e_ (re en)) e; Ok (s1, e_ (re en))
  else maybe_alloc_insert s (e_ (re en)) (last en) e ans.

(** 347-373 ccc_rom_and_modify and its _aux form, followed by 375-383 unwrap. The
    callback changes the value, not the key. *)
Definition rom_and_modify (s : rom) (en : rent) (f : V -> V) : outcome (rom * nat) :=
  if occupied (re en) then
    kv ← value (dat s) (e_ (re en));
    Ok (set_dat s (e_ (re en)) (fst kv, f (snd kv)), e_ (re en))
  else Ok (s, 0).

(** 301-321 ccc_rom_remove_entry. *)
Definition rom_remove_entry (s : rom) (en : rent) : outcome (rom * ent) :=
  if occupied (re en) then
    '(s1, n) ← remove_fixup s (e_ (re en));
    _ ← oassert (negb (n =? 0));
    if alloc then s2 ← give_back s1 n; Ok (s2, occupied_ent 0)
    else Ok (s1, occupied_ent n)
  else Ok (s, vacant_ent 0).

(** impl_realtime_ordered_map.h:78-107 ccc_impl_rom_new and
    ccc_impl_rom_insert_key_val: a struct literal sets links and parity to zero, the
    rest is insert at the place of the entry. *)
Definition new_and_insert (s : rom) (en : rent) (kv : K * V) (ans : nat) : outcome (rom * nat) :=
  if alloc && negb (ans =? 0)
  then insert (take s ans kv 0 0 0 false) (e_ (re en)) (last en) ans
  else Ok (s, 0).

(** impl_realtime_ordered_map.h:160-183 ccc_impl_rom_or_insert_w. *)
Definition rom_or_insert_w (s : rom) (en : rent) (kv : K * V) (ans : nat) : outcome (rom * nat) :=
  if occupied (re en) then Ok (s, e_ (re en)) else new_and_insert s en kv ans.

(** impl_realtime_ordered_map.h:185-213 ccc_impl_rom_insert_entry_w. The node is
    saved and restored around the assignment. *)
Definition rom_insert_entry_w (s : rom) (en : rent) (kv : K * V) (ans : nat) : outcome (rom * nat) :=
  if negb (occupied (re en)) then new_and_insert s en kv ans
  else _ ← value (dat s) (e_ (re en)); Ok (set_dat s (e_ (re en)) kv, e_ (re en)).

(** impl_realtime_ordered_map.h:109-134 ccc_impl_rom_insert_and_copy_key: the status
    stays CCC_ENTRY_INSERT_ERROR. *)
Definition insert_and_copy_key (s : rom) (en : rent) (kv : K * V) (ans : nat) : outcome (rom * ent) :=
  let p := if alloc then ans else 0 in
  '(s1, _) ← new_and_insert s en kv ans; Ok (s1, error_ent p).

(** impl_realtime_ordered_map.h:215-239 ccc_impl_rom_try_insert_w. *)
Definition rom_try_insert_w (s : rom) (k : K) (v : V) (ans : nat) : outcome (rom * ent) :=
  en ← rom_entry s k;
  if negb (occupied (re en)) then insert_and_copy_key s en (k, v) ans else Ok (s, re en).

(** impl_realtime_ordered_map.h:241-287 ccc_impl_rom_insert_or_assign_w. *)
Definition rom_insert_or_assign_w (s : rom) (k : K) (v : V) (ans : nat) : outcome (rom * ent) :=
  en ← rom_entry s k;
  if negb (occupied (re en)) then insert_and_copy_key s en (k, v) ans
  else _ ← value (dat s) (e_ (re en)); Ok (set_dat s (e_ (re en)) (k, v), re en).

(** 403-412 begin, 430-439 rbegin, with 575-585 min_max_from. *)
Definition rom_begin (s : rom) (d : bool) : outcome nat :=
  let start := wroot (tr s) in
  m ← (if start =? nil then Ok start else edge nil (wl (tr s)) (negb d) start);
  Ok (if m =? nil then 0 else m).

(** 676-698 next. *)
Definition rnext (s : rom) (d : bool) (n : nat) : outcome nat :=
  if (n =? 0) || (n =? nil) then Ok nil
  else tree_next nil (wl (tr s)) (wroot (tr s)) d n.

(** 414-428 next ([d] = true), 453-464 rnext. *)
Definition rom_next (s : rom) (d : bool) (e : nat) : outcome nat :=
  if e =? 0 then Ok 0
  else n ← rnext s d e; Ok (if n =? nil then 0 else n).

Definition last_is (a : option comparison) (b : comparison) : bool :=
  match a, b with Some Eq, Eq | Some Lt, Lt | Some Gt, Gt => true | _, _ => false end.

(** 466-486 equal_range ([d] = true) and equal_rrange, 700-723 equal_range. *)
Definition rom_range (s : rom) (d : bool) (a b : K) : outcome (nat * nat) :=
  if (sz s =? 0)%Z then Ok (0, 0)
  else
    let les_or_grt (d : bool) := if d then Gt else Lt in
    '(c, x) ← find s a;
    x' ← (if last_is c (les_or_grt d) then rnext s d x else Ok x);
    '(c', y) ← find s b;
    y' ← (if last_is c' (les_or_grt (negb d)) then Ok y else rnext s d y);
    Ok (if x' =? nil then 0 else x', if y' =? nil then 0 else y').

(** 488-498 ccc_rom_size, ccc_rom_is_empty. *)
Definition rom_size (s : rom) : outcome Z := Ok (sz s).
Definition rom_is_empty (s : rom) : bool := (sz s =? 0)%Z.

(** 506-532 ccc_rom_clear, with the list of elements given to the destructor. *)
Fixpoint clear_loop (fuel : nat) (s : rom) (fn : bool) : outcome (rom * result * list (nat * (K * V))) :=
  match fuel with
  | 0 => Fuel
  | S f =>
    if rom_is_empty s then Ok (s, OK, [])
    else
      l ← child (tr s) false (wroot (tr s));
      r ← child (tr s) true (wroot (tr s));
      if (l =? 0) || (r =? 0) then Ok (s, INPUT_ERR, [])
      else
        '(s1, n) ← remove_fixup s (wroot (tr s));
        d ← (if fn then v ← value (dat s1) n; Ok [(n, v)] else Ok []);
        s2 ← (if alloc then give_back s1 n else Ok s1);
        '(s3, res, l) ← clear_loop f s2 fn;
        Ok (s3, res, d ++ l)
  end.
Definition rom_clear (s : rom) (fn : bool) : outcome (rom * result * list (nat * (K * V))) :=
  clear_loop (S (Z.to_nat (sz s))) s fn.

(** 500-504 ccc_rom_validate, 1286-1312 validate. *)
Definition rom_validate (s : rom) : outcome bool :=
  let h := wl (tr s) in
  let fuel := S (S (size (lf h))) in
  p ← parity (tr s) nil;
  if negb p then Ok false
  else
    a ← subtrees_valid cmp nil fuel (fun r => r =? 0) (dat s) h nil (wroot (tr s)) nil;
    if negb a then Ok false
    else
      n ← recursive_size nil fuel h (wroot (tr s));
      if negb (n =? sz s)%Z then Ok false
      else storing_parent nil false fuel h nil (wroot (tr s)).

(** A whole walk: for (e = begin; e != end; e = next(e)), with the user data. *)
Fixpoint walk (fuel : nat) (s : rom) (d : bool) (e : nat) : outcome (list (nat * (K * V))) :=
  match fuel with
  | 0 => Fuel
  | S f =>
    if e =? 0 then Ok []
    else
      kv ← value (dat s) e;
      e' ← rom_next s d e;
      l ← walk f s d e';
      Ok ((e, kv) :: l)
  end.
Definition rom_iter (s : rom) (d : bool) : outcome (list (nat * (K * V))) :=
  e ← rom_begin s d; walk (S (S (size (lf (wl (tr s)))))) s d e.

Definition rom_step (s : rom) (o : map_op K V) : outcome (rom * map_res K V) :=
  match o with
  | MNew e k v l r p b => Ok (rom_new s e k v l r p b, RPtr e)
  | MContains k => b ← rom_contains s k; Ok (s, RBool b)
  | MGet k => p ← rom_get s k; Ok (s, RPtr p)
  | MInsert e tmp ans => '(s', en) ← rom_insert s e tmp ans; Ok (s', observe en)
  | MTryInsert e ans => '(s', en) ← rom_try_insert s e ans; Ok (s', observe en)
  | MAssign e ans => '(s', en) ← rom_insert_or_assign s e ans; Ok (s', observe en)
  | MRemove e => '(s', en) ← rom_remove s e; Ok (s', observe en)
  | MEntry k => en ← rom_entry s k; Ok (s, observe (re en))
  | MOrInsert k e ans =>
    en ← rom_entry s k; '(s', p) ← rom_or_insert s en e ans; Ok (s', RPtr p)
  | MInsertEntry k e ans =>
    en ← rom_entry s k; '(s', p) ← rom_insert_entry s en e ans; Ok (s', RPtr p)
  | MAndModify k f =>
    en ← rom_entry s k; '(s', p) ← rom_and_modify s en f; Ok (s', RPtr p)
  | MRemoveEntry k =>
    en ← rom_entry s k; '(s', en') ← rom_remove_entry s en; Ok (s', observe en')
  | MOrInsertW k k' v ans =>
    en ← rom_entry s k; '(s', p) ← rom_or_insert_w s en (k', v) ans; Ok (s', RPtr p)
  | MInsertEntryW k k' v ans =>
    en ← rom_entry s k; '(s', p) ← rom_insert_entry_w s en (k', v) ans; Ok (s', RPtr p)
  | MTryInsertW k v ans => '(s', en) ← rom_try_insert_w s k v ans; Ok (s', observe en)
  | MAssignW k v ans => '(s', en) ← rom_insert_or_assign_w s k v ans; Ok (s', observe en)
  | MBegin => p ← rom_begin s true; Ok (s, RPtr p)
  | MRBegin => p ← rom_begin s false; Ok (s, RPtr p)
  | MNext e => p ← rom_next s true e; Ok (s, RPtr p)
  | MRNext e => p ← rom_next s false e; Ok (s, RPtr p)
  | MRange a b => '(x, y) ← rom_range s true a b; Ok (s, RRange x y)
  | MRRange a b => '(x, y) ← rom_range s false a b; Ok (s, RRange x y)
  | MClear fn => '(s', res, l) ← rom_clear s fn; Ok (s', RDestroyed res l)
  | MSize => n ← rom_size s; Ok (s, RNum n)
  | MIsEmpty => Ok (s, RBool (rom_is_empty s))
  | MValidate => b ← rom_validate s; Ok (s, RBool b)
  end.

Fixpoint rom_run (s : rom) (os : list (map_op K V)) : outcome (rom * list (map_res K V)) :=
  match os with
  | [] => Ok (s, [])
  | o :: os =>
    '(s1, r) ← rom_step s o;
    '(s2, rs) ← rom_run s1 os;
    Ok (s2, r :: rs)
  end.
End model.
Arguments rom K V : clear implicits.
