(** Model of src/ordered_map.c and ccc/impl/impl_ordered_map.h: a splay tree of
    user elements with parent links and a sentinel inside the map. *)
From stdpp Require Import base numbers option gmap fin_maps list.
From Verif Require Import Common LinkHeap TreeModel MapOps.

Definition nil : nat := 1.  (* &t->end_ *)

Section model.
Context {K V : Type} (cmp : K -> K -> comparison).

(** Whether the map was initialised with an allocator (t->alloc_ != NULL). *)
Context (alloc : bool).

(** ccc/impl/impl_tree.h:52-64 struct ccc_tree_, with all of memory: the links of
    the sentinel and of every live element, the user data of the elements, and
    which of them the allocator handed out. The offsets of struct_base,
    key_from_node, elem_in_slot and key_in_slot (ordered_map.c:493-512, 780-787)
    are taken as zero: node and user struct are one cell. *)
Record om : Type := Om { lk : links; dat : gmap nat (K * V); heap : gset nat; root : nat; sz : Z }.

Definition set_lk (s : om) (h : links) : om := Om h (dat s) (heap s) (root s) (sz s).
Definition set_root (s : om) (r : nat) : om := Om (lk s) (dat s) (heap s) r (sz s).
Definition set_sz (s : om) (n : Z) : om := Om (lk s) (dat s) (heap s) (root s) n.
Definition set_dat (s : om) (e : nat) (kv : K * V) : om :=
  Om (lk s) (<[e := kv]> (dat s)) (heap s) (root s) (sz s).

(** ccc/impl/impl_tree.h:73-92 ccc_tree_init. *)
Definition om_init : om := Om (put_links (Links ∅ ∅ ∅) nil nil nil nil) ∅ ∅ nil 0.

(** The user writes a new element somewhere. *)
Definition om_new (s : om) (e : nat) (k : K) (v : V) (l r p : nat) : om :=
  Om (put_links (lk s) e l r p) (<[e := (k, v)]> (dat s)) (heap s) (root s) (sz s).

(** memcpy(dst, src, elem_sz) of whole user structs, links included. *)
Definition copy_struct (s : om) (dst src : nat) : outcome om :=
  if dst =? src then UB
  else
    kv ← value (dat s) src;
    _ ← value (dat s) dst;
    h ← copy_links (lk s) dst src;
    Ok (set_dat (set_lk s h) dst kv).

(** alloc_(NULL, elem_sz, aux) answered [ans]: memory at [ans], if not NULL, becomes
    live. Its contents, indeterminate in C, are overwritten by all callers at
    once with a whole struct: [kv] and links [l], [r], [p]. *)
Definition take (s : om) (ans : nat) (kv : K * V) (l r p : nat) : om :=
  Om (put_links (lk s) ans l r p) (<[ans := kv]> (dat s)) ({[ans]} ∪ heap s) (root s) (sz s).

(** alloc_(p, 0, aux). *)
Definition give_back (s : om) (p : nat) : outcome om :=
  if bool_decide (p ∈ heap s)
  then Ok (Om (del_links (lk s) p) (delete p (dat s)) (heap s ∖ {[p]}) (root s) (sz s))
  else UB.

(** 735-778 splay, storing t->root_. *)
Definition splay_s (s : om) (r : nat) (k : K) : outcome (om * nat) :=
  '(h, r') ← splay cmp nil (dat s) (lk s) r k; Ok (set_root (set_lk s h) r', r').

(** 522-526 empty. *)
Definition empty (s : om) : bool := (sz s =? 0)%Z || (root s =? 0) || (root s =? nil).

(** 609-619 find. *)
Definition find (s : om) (k : K) : outcome (om * nat) :=
  if root s =? nil then Ok (s, 0)
  else
    '(s1, r) ← splay_s s (root s) k;
    c ← cmpk cmp (dat s1) k r;
    Ok (s1, if is_eq c then r else 0).

(** 97-105 ccc_om_contains and 621-626 contains. *)
Definition om_contains (s : om) (k : K) : outcome (om * bool) :=
  '(s1, r) ← splay_s s (root s) k;
  c ← cmpk cmp (dat s1) k r;
  Ok (s1, is_eq c).

(** 685-697 connect_new_root. *)
Definition connect_new_root (s : om) (new_root : nat) (c : comparison) : outcome (om * nat) :=
  let link := is_gt c in
  b ← rd (br (lk s) link) (root s);
  h1 ← link_trees (lk s) new_root link b;
  h2 ← link_trees h1 new_root (negb link) (root s);
  h3 ← wbr h2 link (root s) nil;
  h4 ← link_trees h3 nil false new_root;
  Ok (set_root (set_lk s h4) new_root, new_root).

(** 628-662 alloc_insert. *)
Definition alloc_insert (s : om) (e ans : nat) : outcome (om * nat) :=
  h ← set_links (lk s) e nil;
  let s := set_lk s h in
  kv ← value (dat s) e;
  '(s1, c) ←
    (if empty s then Ok (s, None)
     else
       '(s1, r) ← splay_s s (root s) (fst kv);
       c ← cmpk cmp (dat s1) (fst kv) r;
       Ok (s1, Some c));
  match c with
  | Some Eq => Ok (s1, 0)
  | _ =>
    '(s2, out) ←
      (if alloc then
         if ans =? 0 then Ok (s1, 0)
         else
           l ← rd (lf (lk s1)) e; r ← rd (rt (lk s1)) e; p ← rd (pa (lk s1)) e;
           Ok (take s1 ans kv l r p, ans)
       else Ok (s1, e));
    if out =? 0 then Ok (s2, 0)
    else if empty s2 then Ok (set_sz (set_root s2 out) 1, out)
    else
      match c with
      | None => UB  (* the assertion in 659 *)
      | Some c => connect_new_root (set_sz s2 (sz s2 + 1)) out c
      end
  end.

(** 664-683 insert, used by the macros. *)
Definition insert (s : om) (n : nat) : outcome (om * nat) :=
  h ← set_links (lk s) n nil;
  let s := set_lk s h in
  if empty s then Ok (set_sz (set_root s n) 1, n)
  else
    kv ← value (dat s) n;
    '(s1, r) ← splay_s s (root s) (fst kv);
    c ← cmpk cmp (dat s1) (fst kv) r;
    if is_eq c then Ok (s1, 0)
    else connect_new_root (set_sz s1 (sz s1 + 1)) n c.

(** 718-732 remove_from_tree. *)
Definition remove_from_tree (s : om) (ret : nat) : outcome om :=
  l ← rd (lf (lk s)) ret;
  if l =? nil then
    r ← rd (rt (lk s)) ret;
    h ← link_trees (lk s) nil false r;
    Ok (set_root (set_lk s h) r)
  else
    kv ← value (dat s) ret;
    '(s1, x) ← splay_s s l (fst kv);
    r ← rd (rt (lk s1)) ret;
    h ← link_trees (lk s1) x true r;
    Ok (set_lk s1 h).

(** 699-716 erase. *)
Definition erase (s : om) (k : K) : outcome (om * nat) :=
  if empty s then Ok (s, 0)
  else
    '(s1, ret) ← splay_s s (root s) k;
    c ← cmpk cmp (dat s1) k ret;
    if is_eq c then
      s2 ← remove_from_tree s1 ret;
      h ← set_links (lk s2) ret 0;
      Ok (set_sz (set_lk s2 h) (sz s2 - 1), ret)
    else Ok (s1, 0).

(** 173-204 ccc_om_insert. The swap of 801-811 is three copies unless the
    addresses are equal. *)
Definition om_insert (s : om) (e tmp ans : nat) : outcome (om * ent) :=
  kv ← value (dat s) e;
  '(s1, found) ← find s (fst kv);
  if negb (found =? 0) then
    _ ← oassert (negb (root s1 =? nil));
    h ← copy_links (lk s1) e (root s1);
    let s2 := set_lk s1 h in
    s3 ← (if root s2 =? e then Ok s2
          else
            a ← copy_struct s2 tmp (root s2);
            b ← copy_struct a (root s2) e;
            copy_struct b e tmp);
    h1 ← set_links (lk s3) e 0;
    h2 ← set_links h1 tmp 0;
    Ok (set_lk s3 h2, occupied_ent tmp)
  else
    '(s2, ins) ← alloc_insert s1 e ans;
    Ok (s2, if ins =? 0 then error_ent 0 else vacant_ent 0).

(** 206-228 ccc_om_try_insert. *)
Definition om_try_insert (s : om) (e ans : nat) : outcome (om * ent) :=
  kv ← value (dat s) e;
  '(s1, found) ← find s (fst kv);
  if negb (found =? 0) then
    _ ← oassert (negb (root s1 =? nil));
    Ok (s1, occupied_ent (root s1))
  else
    '(s2, ins) ← alloc_insert s1 e ans;
    Ok (s2, if ins =? 0 then error_ent 0 else vacant_ent ins).

(** [elem->impl_ = *elem_in_slot(found); memcpy(found, elem, elem_sz)], in 122-130
    and 240-247. *)
Definition overwrite (s : om) (found e : nat) : outcome om :=
  h ← copy_links (lk s) e found;
  copy_struct (set_lk s h) found e.

(** 230-254 ccc_om_insert_or_assign. *)
Definition om_insert_or_assign (s : om) (e ans : nat) : outcome (om * ent) :=
  kv ← value (dat s) e;
  '(s1, found) ← find s (fst kv);
  if negb (found =? 0) then
    _ ← oassert (negb (root s1 =? nil));
    s2 ← overwrite s1 found e;
    Ok (s2, occupied_ent found)
  else
    '(s2, ins) ← alloc_insert s1 e ans;
    Ok (s2, if ins =? 0 then error_ent 0 else vacant_ent ins).

(** 256-277 ccc_om_remove. *)
Definition om_remove (s : om) (e : nat) : outcome (om * ent) :=
  kv ← value (dat s) e;
  '(s1, n) ← erase s (fst kv);
  if n =? 0 then Ok (s1, vacant_ent 0)
  else if alloc then
    s2 ← copy_struct s1 e n;
    s3 ← give_back s2 n;
    Ok (s3, occupied_ent e)
  else Ok (s1, occupied_ent n).

(** 107-115 ccc_om_entry and 479-491 container_entry. *)
Definition om_entry (s : om) (k : K) : outcome (om * ent) :=
  '(s1, found) ← find s k;
  Ok (s1, if negb (found =? 0) then occupied_ent found else vacant_ent found).

(** 134-146 ccc_om_or_insert. *)
Definition om_or_insert (s : om) (en : ent) (e ans : nat) : outcome (om * nat) :=
  if occupied en then Ok (s, e_ en) else alloc_insert s e ans.

(** 117-132 ccc_om_insert_entry. *)
Definition om_insert_entry (s : om) (en : ent) (e ans : nat) : outcome (om * nat) :=
  if occupied en then s1 ← overwrite s (e_ en) e; Ok (s1, e_ en)
  else alloc_insert s e ans.

(** 148-171 ccc_om_and_modify and its _aux form, followed by 311-320 unwrap. The
    callback changes the value, not the key. *)
Definition om_and_modify (s : om) (en : ent) (f : V -> V) : outcome (om * nat) :=
  if occupied en then
    kv ← value (dat s) (e_ en);
    Ok (set_dat s (e_ en) (fst kv, f (snd kv)), e_ en)
  else Ok (s, 0).

(** 279-299 ccc_om_remove_entry. *)
Definition om_remove_entry (s : om) (en : ent) : outcome (om * ent) :=
  if occupied en then
    kv ← value (dat s) (e_ en);
    '(s1, n) ← erase s (fst kv);
    _ ← oassert (negb (n =? 0));
    if alloc then s2 ← give_back s1 n; Ok (s2, occupied_ent 0)
    else Ok (s1, occupied_ent n)
  else Ok (s, vacant_ent 0).

(** 301-309 ccc_om_get_key_val. *)
Definition om_get (s : om) (k : K) : outcome (om * nat) := find s k.

(** impl_ordered_map.h:45-68 ccc_impl_om_new and ccc_impl_om_insert_key_val: a
    struct literal sets the links to NULL, the rest is insert. *)
Definition new_and_insert (s : om) (kv : K * V) (ans : nat) : outcome (om * nat) :=
  if alloc && negb (ans =? 0) then insert (take s ans kv 0 0 0) ans else Ok (s, 0).

(** impl_ordered_map.h:117-137 ccc_impl_om_or_insert_w. *)
Definition om_or_insert_w (s : om) (en : ent) (kv : K * V) (ans : nat) : outcome (om * nat) :=
  if occupied en then Ok (s, e_ en) else new_and_insert s kv ans.

(** impl_ordered_map.h:139-167 ccc_impl_om_insert_entry_w. The links are saved and
    restored around the assignment. *)
Definition om_insert_entry_w (s : om) (en : ent) (kv : K * V) (ans : nat) : outcome (om * nat) :=
  if negb (occupied en) then new_and_insert s kv ans
  else _ ← value (dat s) (e_ en); Ok (set_dat s (e_ en) kv, e_ en).

(** impl_ordered_map.h:70-92 ccc_impl_om_insert_and_copy_key: the status stays
    CCC_ENTRY_INSERT_ERROR and the result of the insertion is ignored. *)
Definition insert_and_copy_key (s : om) (kv : K * V) (ans : nat) : outcome (om * ent) :=
  let p := if alloc then ans else 0 in
  '(s1, _) ← new_and_insert s kv ans; Ok (s1, error_ent p).

(** impl_ordered_map.h:169-192 ccc_impl_om_try_insert_w. *)
Definition om_try_insert_w (s : om) (k : K) (v : V) (ans : nat) : outcome (om * ent) :=
  '(s1, en) ← om_entry s k;
  if negb (occupied en) then insert_and_copy_key s1 (k, v) ans else Ok (s1, en).

(** impl_ordered_map.h:194-229 ccc_impl_om_insert_or_assign_w. *)
Definition om_insert_or_assign_w (s : om) (k : K) (v : V) (ans : nat) : outcome (om * ent) :=
  '(s1, en) ← om_entry s k;
  if negb (occupied en) then insert_and_copy_key s1 (k, v) ans
  else _ ← value (dat s1) (e_ en); Ok (set_dat s1 (e_ en) (k, v), en).

(** 340-350 begin and rbegin with 528-552 min and max. *)
Definition om_begin (s : om) (d : bool) : outcome nat :=
  if (sz s =? 0)%Z then Ok 0 else edge nil (lk s) (negb d) (root s).

(** 364-385 next ([d] = true) and rnext. *)
Definition om_next (s : om) (d : bool) (e : nat) : outcome nat :=
  if e =? 0 then Ok 0
  else n ← tree_next nil (lk s) (root s) d e; Ok (if n =? nil then 0 else n).

Definition cmp_is (a b : comparison) : bool :=
  match a, b with Eq, Eq | Lt, Lt | Gt, Gt => true | _, _ => false end.

(** 387-411 equal_range ([d] = true) and equal_rrange, 579-607 equal_range. *)
Definition om_range (s : om) (d : bool) (a b : K) : outcome (om * (nat * nat)) :=
  if (sz s =? 0)%Z then Ok (s, (0, 0))
  else
    let les_or_grt (d : bool) := if d then Gt else Lt in
    '(s1, x) ← splay_s s (root s) a;
    c ← cmpk cmp (dat s1) a x;
    x' ← (if cmp_is c (les_or_grt d) then tree_next nil (lk s1) (root s1) d x else Ok x);
    '(s2, y) ← splay_s s1 (root s1) b;
    c' ← cmpk cmp (dat s2) b y;
    y' ← (if cmp_is c' (les_or_grt (negb d)) then Ok y else tree_next nil (lk s2) (root s2) d y);
    Ok (s2, (if x' =? nil then 0 else x', if y' =? nil then 0 else y')).

(** 84-88 ccc_om_is_empty, 90-94 ccc_om_size. *)
Definition om_is_empty (s : om) : bool := empty s.
Definition om_size (s : om) : outcome Z := Ok (sz s).

(** 412-434 ccc_om_clear, with the list of elements given to the destructor. *)
Fixpoint clear_loop (fuel : nat) (s : om) (fn : bool) : outcome (om * list (nat * (K * V))) :=
  match fuel with
  | 0 => Fuel
  | S f =>
    if om_is_empty s then Ok (s, [])
    else
      kv ← value (dat s) (root s);
      '(s1, n) ← erase s (fst kv);
      d ← (if fn then v ← value (dat s1) n; Ok [(n, v)] else Ok []);
      s2 ← (if alloc then give_back s1 n else Ok s1);
      '(s3, l) ← clear_loop f s2 fn;
      Ok (s3, d ++ l)
  end.
Definition om_clear (s : om) (fn : bool) : outcome (om * list (nat * (K * V))) :=
  clear_loop (S (Z.to_nat (sz s))) s fn.

(** 436-444 ccc_om_validate, 919-946 ccc_tree_validate. *)
Definition om_validate (s : om) : outcome bool :=
  let fuel := S (S (size (lf (lk s)))) in
  a ← subtrees_valid cmp nil fuel (fun r => r =? 0) (dat s) (lk s) nil (root s) nil;
  if negb a then Ok false
  else
    b ← storing_parent nil true fuel (lk s) nil (root s);
    if negb b then Ok false
    else
      n ← recursive_size nil fuel (lk s) (root s);
      Ok (n =? sz s)%Z.

(** A whole walk: for (e = begin; e != end; e = next(e)), with the user data. *)
Fixpoint walk (fuel : nat) (s : om) (d : bool) (e : nat) : outcome (list (nat * (K * V))) :=
  match fuel with
  | 0 => Fuel
  | S f =>
    if e =? 0 then Ok []
    else
      kv ← value (dat s) e;
      e' ← om_next s d e;
      l ← walk f s d e';
      Ok ((e, kv) :: l)
  end.
Definition om_iter (s : om) (d : bool) : outcome (list (nat * (K * V))) :=
  e ← om_begin s d; walk (S (S (size (lf (lk s))))) s d e.

Definition om_step (s : om) (o : map_op K V) : outcome (om * map_res K V) :=
  match o with
  | MNew e k v l r p _ => Ok (om_new s e k v l r p, RPtr e)
  | MContains k => '(s', b) ← om_contains s k; Ok (s', RBool b)
  | MGet k => '(s', p) ← om_get s k; Ok (s', RPtr p)
  | MInsert e tmp ans => '(s', en) ← om_insert s e tmp ans; Ok (s', observe en)
  | MTryInsert e ans => '(s', en) ← om_try_insert s e ans; Ok (s', observe en)
  | MAssign e ans => '(s', en) ← om_insert_or_assign s e ans; Ok (s', observe en)
  | MRemove e => '(s', en) ← om_remove s e; Ok (s', observe en)
  | MEntry k => '(s', en) ← om_entry s k; Ok (s', observe en)
  | MOrInsert k e ans =>
    '(s1, en) ← om_entry s k; '(s', p) ← om_or_insert s1 en e ans; Ok (s', RPtr p)
  | MInsertEntry k e ans =>
    '(s1, en) ← om_entry s k; '(s', p) ← om_insert_entry s1 en e ans; Ok (s', RPtr p)
  | MAndModify k f =>
    '(s1, en) ← om_entry s k; '(s', p) ← om_and_modify s1 en f; Ok (s', RPtr p)
  | MRemoveEntry k =>
    '(s1, en) ← om_entry s k; '(s', en') ← om_remove_entry s1 en; Ok (s', observe en')
  | MOrInsertW k k' v ans =>
    '(s1, en) ← om_entry s k; '(s', p) ← om_or_insert_w s1 en (k', v) ans; Ok (s', RPtr p)
  | MInsertEntryW k k' v ans =>
    '(s1, en) ← om_entry s k; '(s', p) ← om_insert_entry_w s1 en (k', v) ans; Ok (s', RPtr p)
  | MTryInsertW k v ans => '(s', en) ← om_try_insert_w s k v ans; Ok (s', observe en)
  | MAssignW k v ans => '(s', en) ← om_insert_or_assign_w s k v ans; Ok (s', observe en)
  | MBegin => p ← om_begin s true; Ok (s, RPtr p)
  | MRBegin => p ← om_begin s false; Ok (s, RPtr p)
  | MNext e => p ← om_next s true e; Ok (s, RPtr p)
  | MRNext e => p ← om_next s false e; Ok (s, RPtr p)
  | MRange a b => '(s', (x, y)) ← om_range s true a b; Ok (s', RRange x y)
  | MRRange a b => '(s', (x, y)) ← om_range s false a b; Ok (s', RRange x y)
  | MClear fn => '(s', l) ← om_clear s fn; Ok (s', RDestroyed OK l)
  | MSize => n ← om_size s; Ok (s, RNum n)
  | MIsEmpty => Ok (s, RBool (om_is_empty s))
  | MValidate => b ← om_validate s; Ok (s, RBool b)
  end.

Fixpoint om_run (s : om) (os : list (map_op K V)) : outcome (om * list (map_res K V)) :=
  match os with
  | [] => Ok (s, [])
  | o :: os =>
    '(s1, r) ← om_step s o;
    '(s2, rs) ← om_run s1 os;
    Ok (s2, r :: rs)
  end.
End model.
Arguments om K V : clear implicits.
