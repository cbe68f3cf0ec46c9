(** Model of src/ordered_multimap.c and ccc/impl/impl_ordered_multimap.h: a splay
    tree in which a node may carry a ring of younger elements with the same key.
    The map is the struct ccc_tree_ of the ordered map, with the same
    initialiser, and so is its model [om]. A ring uses the branches of its
    elements as links: link_[P] is branch_[L], link_[N] is branch_[R]; the tree
    node's parent_ is dup_head_ and points to the ring, whose head keeps the
    tree node's parent. *)
From stdpp Require Import base numbers option gmap fin_maps list.
From Verif Require Import Common LinkHeap TreeModel SplayModel MapOps OmModel OmmOps.

Section model.
Context {K V : Type} (cmp : K -> K -> comparison).

(** Whether the map was initialised with an allocator. *)
Context (alloc : bool).

(** t->node_elem_offset_. Elements are named by the address of the user struct;
    where the node lies in it only matters in pop_min. *)
Context (off : nat).

(** 1182-1187 has_dups. *)
Definition has_dups (h : links) (n : nat) : outcome bool :=
  if n =? nil then Ok false
  else
    d ← rd (pa h) n;
    if d =? nil then Ok false
    else
      p ← rd (lf h) d;
      if p =? nil then Ok false
      else q ← rd (rt h) p; Ok (q =? d).

(** 1140-1151 link_trees. *)
Definition mlink (h : links) (parent : nat) (dir : bool) (subtree : nat) : outcome links :=
  h1 ← wbr h dir parent subtree;
  b ← has_dups h1 subtree;
  if (b : bool) then d ← rd (pa h1) subtree; wpa h1 d parent
  else wpa h1 subtree parent.

(** 1189-1193 parent_r. *)
Definition parent_r (h : links) (n : nat) : outcome nat :=
  b ← has_dups h n;
  if (b : bool) then d ← rd (pa h) n; rd (pa h) d else rd (pa h) n.

(** 1087-1131 splay, storing t->root_. *)
Definition msplay (s : om K V) (r : nat) (probe : nat -> outcome comparison) : outcome (om K V * nat) :=
  '(h, r') ← splay_by nil mlink probe (lk s) r; Ok (set_root (set_lk s h) r', r').
Definition splay_key (s : om K V) (r : nat) (k : K) : outcome (om K V * nat) :=
  msplay s r (cmpk cmp (dat s) k).

(** 661-665 empty. *)
Definition mempty (s : om K V) : bool := (sz s =? 0)%Z.

(** 642-652 find. *)
Definition mfind (s : om K V) (k : K) : outcome (om K V * nat) :=
  if root s =? nil then Ok (s, 0)
  else
    '(s1, r) ← splay_key s (root s) k;
    c ← cmpk cmp (dat s1) k r;
    Ok (s1, if is_eq c then r else 0).

(** 475-483 ccc_omm_contains, 826-831 contains. *)
Definition omm_contains (s : om K V) (k : K) : outcome (om K V * bool) :=
  '(s1, r) ← splay_key s (root s) k;
  c ← cmpk cmp (dat s1) k r;
  Ok (s1, is_eq c).

(** 873-898 add_duplicate. *)
Definition add_duplicate (h : links) (tree_node add parent : nat) : outcome links :=
  b ← has_dups h tree_node;
  if negb b then
    h1 ← wpa h add parent;
    h2 ← wpa h1 tree_node add;
    h3 ← wbr h2 true add add;
    wbr h3 false add add
  else
    h1 ← wpa h add 0;
    list_head ← rd (pa h1) tree_node;
    tail ← rd (lf h1) list_head;
    h2 ← wbr h1 true tail add;
    h3 ← wbr h2 false list_head add;
    h4 ← wbr h3 true add list_head;
    wbr h4 false add tail.

(** 833-857 multimap_insert, with 653-659 init_node and 859-871
    connect_new_root. *)
Definition multimap_insert (s : om K V) (e : nat) : outcome (om K V * ent) :=
  h ← set_links (lk s) e nil;
  let s := set_lk s h in
  if mempty s then Ok (set_sz (set_root s e) 1, vacant_ent e)
  else
    let s := set_sz s (sz s + 1) in
    kv ← value (dat s) e;
    '(s1, r) ← splay_key s (root s) (fst kv);
    c ← cmpk cmp (dat s1) (fst kv) r;
    if is_eq c then
      h1 ← add_duplicate (lk s1) (root s1) e nil;
      Ok (set_lk s1 h1, occupied_ent e)
    else
      h1 ← graft_by nil mlink (lk s1) (root s1) e c;
      Ok (set_root (set_lk s1 h1) e, vacant_ent e).

(** 1034-1069 pop_front_dup. old->dup_head_ does not change before it is read
    for the last time. *)
Definition pop_front_dup (s : om K V) (old : nat) (old_key : K) : outcome (om K V) :=
  head ← rd (pa (lk s)) old;
  parent ← rd (pa (lk s)) head;
  s1 ← (if old =? root s then Ok (set_root s head)
        else
          c ← cmpk cmp (dat s) old_key parent;
          h ← wbr (lk s) (is_gt c) parent head;
          Ok (set_lk s h));
  let h := lk s1 in
  new ← rd (rt h) head;
  tail ← rd (lf h) head;
  next ← rd (rt h) new;
  let circular_list_empty := next =? new in
  h1 ← wbr h false new tail;
  h2 ← wpa h1 new parent;
  h3 ← wbr h2 true tail new;
  l ← rd (lf h3) old;
  h4 ← wbr h3 false head l;
  r ← rd (rt h4) old;
  h5 ← wbr h4 true head r;
  h6 ← wpa h5 head new;
  l' ← rd (lf h6) head;
  h7 ← mlink h6 head false l';
  r' ← rd (rt h7) head;
  h8 ← mlink h7 head true r';
  h9 ← (if circular_list_empty then wpa h8 head parent else Ok h8);
  Ok (set_lk s1 h9).

(** 1010-1032 pop_dup_node. *)
Definition pop_dup_node (s : om K V) (dup splayed : nat) : outcome (om K V * nat) :=
  if dup =? splayed then
    kv ← value (dat s) splayed;
    s1 ← pop_front_dup s splayed (fst kv);
    Ok (s1, splayed)
  else
    let h := lk s in
    n ← rd (rt h) dup;
    if n =? dup then h1 ← wpa h splayed nil; Ok (set_lk s h1, dup)
    else
      p ← rd (lf h) dup;
      h1 ← wbr h true p n;
      n1 ← rd (rt h1) dup;
      p1 ← rd (lf h1) dup;
      h2 ← wbr h1 false n1 p1;
      n2 ← rd (rt h2) dup;
      q ← rd (pa h2) dup;
      h3 ← wpa h2 n2 q;
      h4 ← wpa h3 splayed n2;
      Ok (set_lk s h4, dup).

(** 1071-1085 remove_from_tree. *)
Definition mremove_from_tree (s : om K V) (ret : nat) : outcome (om K V) :=
  '(h, r) ← detach_by cmp nil mlink (dat s) (lk s) ret; Ok (set_root (set_lk s h) r).

(** The end of 900-927 multimap_erase and of 935-959 multimap_erase_max_or_min:
    the oldest element at the root leaves. *)
Definition take_front (s : om K V) (ret : nat) : outcome (om K V * nat) :=
  b ← has_dups (lk s) ret;
  s1 ← (if (b : bool) then kv ← value (dat s) ret; pop_front_dup s ret (fst kv)
        else mremove_from_tree s ret);
  h ← set_links (lk s1) ret 0;
  Ok (set_lk s1 h, ret).

(** 900-927 multimap_erase. *)
Definition multimap_erase (s : om K V) (k : K) : outcome (om K V * nat) :=
  if mempty s then Ok (s, 0)
  else
    '(s1, ret) ← splay_key s (root s) k;
    c ← cmpk cmp (dat s1) k ret;
    if negb (is_eq c) then Ok (s1, 0)
    else take_front (set_sz s1 (sz s1 - 1)) ret.

(** 1242-1256 force_find_grt ([d] = true) and force_find_les. *)
Definition force (d : bool) : nat -> outcome comparison := fun _ => Ok (if d then Gt else Lt).

(** 935-959 multimap_erase_max_or_min, as called by 693-704 pop_max ([d] = true)
    and pop_min. *)
Definition erase_end (s : om K V) (d : bool) : outcome (om K V * nat) :=
  if mempty s then Ok (s, 0)
  else
    let s := set_sz s (sz s - 1) in
    '(s1, ret) ← msplay s (root s) (force d);
    take_front s1 ret.

(** 966-1007 multimap_erase_node. *)
Definition erase_node (s : om K V) (node : nat) : outcome (om K V * nat) :=
  nr ← rd (rt (lk s)) node;
  nl ← rd (lf (lk s)) node;
  if (nr =? 0) || (nl =? 0) then Ok (s, 0)
  else if mempty s then Ok (s, 0)
  else
    let s := set_sz s (sz s - 1) in
    p ← rd (pa (lk s)) node;
    if p =? 0 then
      a ← rd (lf (lk s)) nr;
      b ← rd (rt (lk s)) nl;
      _ ← oassert ((a =? node) && (b =? node));
      h1 ← wbr (lk s) true nl nr;
      n1 ← rd (rt h1) node;
      p1 ← rd (lf h1) node;
      h2 ← wbr h1 false n1 p1;
      Ok (set_lk s h2, node)
    else
      kv ← value (dat s) node;
      '(s1, ret) ← splay_key s (root s) (fst kv);
      c ← cmpk cmp (dat s1) (fst kv) ret;
      if negb (is_eq c) then Ok (s1, 0)
      else
        b ← has_dups (lk s1) ret;
        '(s2, ret1) ← (if (b : bool) then pop_dup_node s1 node ret
                       else s2 ← mremove_from_tree s1 ret; Ok (s2, ret));
        h ← set_links (lk s2) ret1 0;
        Ok (set_lk s2 h, ret1).

(** 205-227 ccc_omm_insert. *)
Definition omm_insert (s : om K V) (e ans : nat) : outcome (om K V * ent) :=
  if alloc then
    if ans =? 0 then Ok (s, error_ent 0)
    else
      kv ← value (dat s) e;
      l ← rd (lf (lk s)) e; r ← rd (rt (lk s)) e; p ← rd (pa (lk s)) e;
      multimap_insert (take s ans kv l r p) ans
  else multimap_insert s e.

(** 229-244 ccc_omm_try_insert: the allocator is not used. *)
Definition omm_try_insert (s : om K V) (e : nat) : outcome (om K V * ent) :=
  kv ← value (dat s) e;
  '(s1, found) ← mfind s (fst kv);
  if negb (found =? 0) then Ok (s1, occupied_ent found) else multimap_insert s1 e.

(** 246-265 ccc_omm_insert_or_assign: the allocator is not used. *)
Definition omm_insert_or_assign (s : om K V) (e : nat) : outcome (om K V * ent) :=
  kv ← value (dat s) e;
  '(s1, found) ← mfind s (fst kv);
  if negb (found =? 0) then
    h ← copy_links (lk s1) e found;
    _ ← oassert (negb (root s1 =? nil));
    s2 ← copy_struct (set_lk s1 h) found e;
    Ok (s2, occupied_ent found)
  else multimap_insert s1 e.

(** 267-289 ccc_omm_remove. *)
Definition omm_remove (s : om K V) (e : nat) : outcome (om K V * ent) :=
  kv ← value (dat s) e;
  '(s1, n) ← multimap_erase s (fst kv);
  if n =? 0 then Ok (s1, vacant_ent 0)
  else if alloc then
    s2 ← copy_struct s1 e n;
    s3 ← give_back s2 n;
    Ok (s3, occupied_ent e)
  else Ok (s1, occupied_ent n).

(** 138-148 ccc_omm_entry, 629-640 container_entry. *)
Definition omm_entry (s : om K V) (k : K) : outcome (om K V * ent) :=
  '(s1, found) ← mfind s k;
  Ok (s1, if negb (found =? 0) then occupied_ent found else vacant_ent 0).

(** 162-174 ccc_omm_or_insert: the allocator is not used. *)
Definition omm_or_insert (s : om K V) (en : ent) (e : nat) : outcome (om K V * nat) :=
  if occupied en then Ok (s, e_ en) else '(s1, en1) ← multimap_insert s e; Ok (s1, e_ en1).

(** 151-160 ccc_omm_insert_entry: the allocator is not used, and whether the entry
    is occupied does not matter. *)
Definition omm_insert_entry (s : om K V) (en : ent) (e : nat) : outcome (om K V * nat) :=
  '(s1, en1) ← multimap_insert s e; Ok (s1, e_ en1).

(** 176-203 ccc_omm_and_modify and its _aux form, followed by 528-532 unwrap. The
    callback changes the value, not the key. *)
Definition omm_and_modify (s : om K V) (en : ent) (f : V -> V) : outcome (om K V * nat) :=
  if occupied en then
    kv ← value (dat s) (e_ en);
    Ok (set_dat s (e_ en) (fst kv, f (snd kv)), e_ en)
  else Ok (s, 0).

(** 291-311 ccc_omm_remove_entry. *)
Definition omm_remove_entry (s : om K V) (en : ent) : outcome (om K V * ent) :=
  if occupied en then
    kv ← value (dat s) (e_ en);
    '(s1, n) ← multimap_erase s (fst kv);
    _ ← oassert (negb (n =? 0));
    if alloc then s2 ← give_back s1 n; Ok (s2, occupied_ent 0)
    else Ok (s1, occupied_ent n)
  else Ok (s, vacant_ent 0).

(** 119-127 ccc_omm_get_key_val. *)
Definition omm_get (s : om K V) (k : K) : outcome (om K V * nat) := mfind s k.

(** impl_ordered_multimap.h:43-68 ccc_impl_omm_new and
    ccc_impl_omm_insert_key_val: a struct literal sets the links to NULL. *)
Definition mnew_and_insert (s : om K V) (kv : K * V) (ans : nat) : outcome (om K V * nat) :=
  if alloc && negb (ans =? 0)
  then '(s1, en) ← multimap_insert (take s ans kv 0 0 0) ans; Ok (s1, e_ en)
  else Ok (s, 0).

(** impl_ordered_multimap.h:117-137 ccc_impl_omm_or_insert_w. *)
Definition omm_or_insert_w (s : om K V) (en : ent) (kv : K * V) (ans : nat) : outcome (om K V * nat) :=
  if occupied en then Ok (s, e_ en) else mnew_and_insert s kv ans.

(** impl_ordered_multimap.h:139-151 ccc_impl_omm_insert_entry_w. *)
Definition omm_insert_entry_w (s : om K V) (en : ent) (kv : K * V) (ans : nat) : outcome (om K V * nat) :=
  mnew_and_insert s kv ans.

(** impl_ordered_multimap.h:70-92 ccc_impl_omm_insert_and_copy_key: the status
    stays CCC_ENTRY_INSERT_ERROR. *)
Definition minsert_and_copy_key (s : om K V) (kv : K * V) (ans : nat) : outcome (om K V * ent) :=
  '(s1, _) ← mnew_and_insert s kv ans; Ok (s1, error_ent (if alloc then ans else 0)).

(** impl_ordered_multimap.h:153-177 ccc_impl_omm_try_insert_w. *)
Definition omm_try_insert_w (s : om K V) (k : K) (v : V) (ans : nat) : outcome (om K V * ent) :=
  '(s1, en) ← omm_entry s k;
  if negb (occupied en) then minsert_and_copy_key s1 (k, v) ans else Ok (s1, en).

(** impl_ordered_multimap.h:179-217 ccc_impl_omm_insert_or_assign_w. *)
Definition omm_insert_or_assign_w (s : om K V) (k : K) (v : V) (ans : nat) : outcome (om K V * ent) :=
  '(s1, en) ← omm_entry s k;
  if negb (occupied en) then minsert_and_copy_key s1 (k, v) ans
  else _ ← value (dat s1) (e_ en); Ok (set_dat s1 (e_ en) (k, v), en).

(** 313-342 ccc_omm_max ([d] = true) and ccc_omm_min. *)
Definition omm_end (s : om K V) (d : bool) : outcome (om K V * nat) := msplay s (root s) (force d).

(** 485-501 ccc_omm_pop_max. *)
Definition omm_pop_max (s : om K V) : outcome (om K V * result) :=
  '(s1, n) ← erase_end s true;
  if n =? 0 then Ok (s1, INPUT_ERR)
  else s2 ← (if alloc then give_back s1 n else Ok s1); Ok (s2, OK).

(** 503-520 ccc_omm_pop_min: struct_base is applied to what already is the user
    struct. *)
Definition omm_pop_min (s : om K V) : outcome (om K V * result) :=
  '(s1, n) ← erase_end s false;
  if n =? 0 then Ok (s1, INPUT_ERR)
  else s2 ← (if alloc then give_back s1 (n - off) else Ok s1); Ok (s2, OK).

(** 427-436 ccc_omm_extract. *)
Definition omm_extract (s : om K V) (e : nat) : outcome (om K V * nat) := erase_node s e.

(** 438-473 ccc_omm_update, ccc_omm_increase, ccc_omm_decrease. *)
Definition omm_update (s : om K V) (e : nat) (f : K * V -> K * V) : outcome (om K V * bool) :=
  l ← rd (lf (lk s)) e;
  r ← rd (rt (lk s)) e;
  if (l =? 0) || (r =? 0) then Ok (s, false)
  else
    '(s1, x) ← erase_node s e;
    if x =? 0 then Ok (s1, false)
    else
      kv ← value (dat s1) x;
      '(s2, _) ← multimap_insert (set_dat s1 x (f kv)) e;
      Ok (s2, true).

(** 344-362 begin and rbegin with 667-691 max and min: [d] is the direction of
    the walk, R for rbegin. *)
Definition omm_begin (s : om K V) (d : bool) : outcome nat :=
  if (sz s =? 0)%Z then Ok 0 else edge nil (lk s) (negb d) (root s).

(** The second loop of 770-794 next. *)
Fixpoint mclimb (fuel : nat) (h : links) (d : bool) (n p : nat) : outcome nat :=
  match fuel with
  | 0 => Fuel
  | S f =>
    if p =? nil then Ok p
    else
      c ← rd (br h (negb d)) p;
      if c =? n then Ok p
      else p' ← parent_r h p; mclimb f h d p p'
  end.

(** 770-794 next. *)
Definition mtree_next (h : links) (root : nat) (d : bool) (n : nat) : outcome nat :=
  if (n =? 0) || (n =? nil) then Ok 0
  else
    rp ← parent_r h root;
    _ ← oassert (rp =? nil);
    c ← rd (br h d) n;
    if negb (c =? nil) then edge nil h (negb d) c
    else p ← parent_r h n; mclimb (S (size (lf h))) h d n p.

(** 749-768 next_tree_node. *)
Definition next_tree_node (h : links) (root : nat) (d : bool) (head : nat) : outcome nat :=
  parent ← rd (pa h) head;
  if parent =? nil then mtree_next h root d root
  else
    let child (b : bool) : outcome (option nat) :=
      c ← rd (br h b) parent;
      if c =? nil then Ok None
      else x ← rd (pa h) c; Ok (if x =? head then Some c else None) in
    l ← child false;
    match l with
    | Some c => mtree_next h root d c
    | None =>
      r ← child true;
      match r with
      | Some c => mtree_next h root d c
      | None => Ok nil
      end
    end.

(** 706-710 is_dup_head_next. *)
Definition is_dup_head_next (h : links) (i : nat) : outcome bool :=
  n ← rd (rt h) i; p ← rd (pa h) n; Ok (negb (p =? 0)).

(** 712-716 is_dup_head. *)
Definition is_dup_head (h : links) (i : nat) : outcome bool :=
  if i =? nil then Ok false
  else
    p ← rd (lf h) i;
    if p =? nil then Ok false
    else n ← rd (rt h) p; Ok (n =? i).

(** 718-747 multimap_next. *)
Definition multimap_next (h : links) (root : nat) (d : bool) (i : nat) : outcome nat :=
  p ← rd (pa h) i;
  if p =? 0 then
    b ← is_dup_head_next h i;
    n ← rd (rt h) i;
    if (b : bool) then next_tree_node h root d n else Ok n
  else
    b ← is_dup_head h i;
    if (b : bool) then
      b' ← is_dup_head_next h i;
      if (b' : bool) then next_tree_node h root d i else rd (rt h) i
    else
      b' ← has_dups h i;
      if (b' : bool) then Ok p else mtree_next h root d i.

(** 364-390 next ([d] = false: descending) and rnext. *)
Definition omm_next (s : om K V) (d : bool) (e : nat) : outcome nat :=
  if e =? 0 then Ok 0
  else n ← multimap_next (lk s) (root s) d e; Ok (if n =? nil then 0 else n).

(** 403-425 equal_range ([d] = false) and equal_rrange, 796-824 equal_range. *)
Definition omm_range (s : om K V) (d : bool) (a b : K) : outcome (om K V * (nat * nat)) :=
  if (sz s =? 0)%Z then Ok (s, (0, 0))
  else
    let les_or_grt (d : bool) := if d then Gt else Lt in
    '(s1, x) ← splay_key s (root s) a;
    c ← cmpk cmp (dat s1) a x;
    x' ← (if cmp_is c (les_or_grt d) then mtree_next (lk s1) (root s1) d x else Ok x);
    '(s2, y) ← splay_key s1 (root s1) b;
    c' ← cmpk cmp (dat s2) b y;
    y' ← (if cmp_is c' (les_or_grt (negb d)) then Ok y else mtree_next (lk s2) (root s2) d y);
    Ok (s2, (if x' =? nil then 0 else x', if y' =? nil then 0 else y')).

(** 129-136 ccc_omm_is_empty, 522-526 ccc_omm_size. *)
Definition omm_is_empty (s : om K V) : bool := mempty s.
Definition omm_size (s : om K V) : outcome Z := Ok (sz s).

(** 568-590 ccc_omm_clear, with the list of elements given to the destructor. *)
Fixpoint mclear_loop (fuel : nat) (s : om K V) (fn : bool) : outcome (om K V * list (nat * (K * V))) :=
  match fuel with
  | 0 => Fuel
  | S f =>
    if omm_is_empty s then Ok (s, [])
    else
      '(s1, n) ← erase_end s false;
      d ← (if fn then v ← value (dat s1) n; Ok [(n, v)] else Ok []);
      s2 ← (if alloc then give_back s1 n else Ok s1);
      '(s3, l) ← mclear_loop f s2 fn;
      Ok (s3, d ++ l)
  end.
Definition omm_clear (s : om K V) (fn : bool) : outcome (om K V * list (nat * (K * V))) :=
  mclear_loop (S (Z.to_nat (sz s))) s fn.

(** The loop of 1281-1296 count_dups. *)
Fixpoint count_loop (fuel : nat) (h : links) (head cur : nat) : outcome Z :=
  match fuel with
  | 0 => Fuel
  | S f =>
    if cur =? head then Ok 0%Z
    else n ← rd (rt h) cur; z ← count_loop f h head n; Ok (1 + z)%Z
  end.
(** 1281-1296 count_dups. *)
Definition count_dups (h : links) (n : nat) : outcome Z :=
  b ← has_dups h n;
  if negb b then Ok 0%Z
  else
    d ← rd (pa h) n;
    c ← rd (rt h) d;
    z ← count_loop (S (size (lf h))) h d c;
    Ok (1 + z)%Z.

(** 1298-1308 recursive_size. *)
Fixpoint mrecursive_size (fuel : nat) (h : links) (r : nat) : outcome Z :=
  match fuel with
  | 0 => Fuel
  | S f =>
    if r =? nil then Ok 0%Z
    else
      n ← count_dups h r;
      rc ← rd (rt h) r; lc ← rd (lf h) r;
      a ← mrecursive_size f h rc;
      b ← mrecursive_size f h lc;
      Ok (n + 1 + a + b)%Z
  end.

(** 1348-1386 child_tracks_parent and is_duplicate_storing_parent. The former
    reads the parent of a wrong parent before giving up. *)
Fixpoint mstoring_parent (fuel : nat) (h : links) (parent root : nat) : outcome bool :=
  match fuel with
  | 0 => Fuel
  | S f =>
    if root =? nil then Ok true
    else
      b ← has_dups h root;
      p ← parent_r h root;
      if negb (p =? parent) then
        if (b : bool) then Ok false else _ ← rd (pa h) p; Ok false
      else
        lc ← rd (lf h) root;
        x ← mstoring_parent f h root lc;
        if negb x then Ok false
        else rc ← rd (rt h) root; mstoring_parent f h root rc
  end.

(** 559-567 ccc_omm_validate, 1388-1404 ccc_tree_validate. *)
Definition omm_validate (s : om K V) : outcome bool :=
  let fuel := S (S (size (lf (lk s)))) in
  a ← subtrees_valid cmp nil fuel (fun r => r =? 0) (dat s) (lk s) nil (root s) nil;
  if negb a then Ok false
  else
    b ← mstoring_parent fuel (lk s) nil (root s);
    if negb b then Ok false
    else
      n ← mrecursive_size fuel (lk s) (root s);
      Ok (n =? sz s)%Z.

(** A whole walk: for (e = begin; e != end; e = next(e)), with the user data. *)
Fixpoint mwalk (fuel : nat) (s : om K V) (d : bool) (e : nat) : outcome (list (nat * (K * V))) :=
  match fuel with
  | 0 => Fuel
  | S f =>
    if e =? 0 then Ok []
    else
      kv ← value (dat s) e;
      e' ← omm_next s d e;
      l ← mwalk f s d e';
      Ok ((e, kv) :: l)
  end.
Definition omm_iter (s : om K V) (d : bool) : outcome (list (nat * (K * V))) :=
  e ← omm_begin s d; mwalk (S (S (size (lf (lk s))))) s d e.

(** The multimap as a priority queue: look at the greatest ([d] = true) or least
    element, pop it, until there is none. *)
Fixpoint drain_loop (fuel : nat) (s : om K V) (d : bool) : outcome (om K V * list (nat * (K * V))) :=
  match fuel with
  | 0 => Fuel
  | S f =>
    if omm_is_empty s then Ok (s, [])
    else
      '(s1, p) ← omm_end s d;
      kv ← value (dat s1) p;
      '(s2, r) ← (if d then omm_pop_max s1 else omm_pop_min s1);
      '(s3, l) ← drain_loop f s2 d;
      Ok (s3, (p, kv) :: l)
  end.
Definition omm_drain (s : om K V) (d : bool) : outcome (om K V * list (nat * (K * V))) :=
  drain_loop (S (Z.to_nat (sz s))) s d.

Definition omm_new (s : om K V) (e : nat) (k : K) (v : V) (l r p : nat) (b : bool) : om K V :=
  if b then take s e (k, v) l r p else om_new s e k v l r p.

Definition mobserve (e : ent) : mm_res K V := OEnt (occupied e) (ins_err e) (e_ e).

Definition omm_step (s : om K V) (o : mm_op K V) : outcome (om K V * mm_res K V) :=
  match o with
  | ONew e k v l r p b => Ok (omm_new s e k v l r p b, OPtr e)
  | OContains k => '(s', b) ← omm_contains s k; Ok (s', OBool b)
  | OGet k => '(s', p) ← omm_get s k; Ok (s', OPtr p)
  | OInsert e ans => '(s', en) ← omm_insert s e ans; Ok (s', mobserve en)
  | OTryInsert e _ => '(s', en) ← omm_try_insert s e; Ok (s', mobserve en)
  | OAssign e _ => '(s', en) ← omm_insert_or_assign s e; Ok (s', mobserve en)
  | ORemove e => '(s', en) ← omm_remove s e; Ok (s', mobserve en)
  | OEntry k => '(s', en) ← omm_entry s k; Ok (s', mobserve en)
  | OOrInsert k e _ =>
    '(s1, en) ← omm_entry s k; '(s', p) ← omm_or_insert s1 en e; Ok (s', OPtr p)
  | OInsertEntry k e _ =>
    '(s1, en) ← omm_entry s k; '(s', p) ← omm_insert_entry s1 en e; Ok (s', OPtr p)
  | OAndModify k f =>
    '(s1, en) ← omm_entry s k; '(s', p) ← omm_and_modify s1 en f; Ok (s', OPtr p)
  | ORemoveEntry k =>
    '(s1, en) ← omm_entry s k; '(s', en') ← omm_remove_entry s1 en; Ok (s', mobserve en')
  | OOrInsertW k k' v ans =>
    '(s1, en) ← omm_entry s k; '(s', p) ← omm_or_insert_w s1 en (k', v) ans; Ok (s', OPtr p)
  | OInsertEntryW k k' v ans =>
    '(s1, en) ← omm_entry s k; '(s', p) ← omm_insert_entry_w s1 en (k', v) ans; Ok (s', OPtr p)
  | OTryInsertW k v ans => '(s', en) ← omm_try_insert_w s k v ans; Ok (s', mobserve en)
  | OAssignW k v ans => '(s', en) ← omm_insert_or_assign_w s k v ans; Ok (s', mobserve en)
  | OMax => '(s', p) ← omm_end s true; Ok (s', OPtr p)
  | OMin => '(s', p) ← omm_end s false; Ok (s', OPtr p)
  | OPopMax => '(s', r) ← omm_pop_max s; Ok (s', OResult r)
  | OPopMin => '(s', r) ← omm_pop_min s; Ok (s', OResult r)
  | OExtract e => '(s', p) ← omm_extract s e; Ok (s', OPtr p)
  | OUpdate e f => '(s', b) ← omm_update s e f; Ok (s', OBool b)
  | OBegin => p ← omm_begin s false; Ok (s, OPtr p)
  | ORBegin => p ← omm_begin s true; Ok (s, OPtr p)
  | ONext e => p ← omm_next s false e; Ok (s, OPtr p)
  | ORNext e => p ← omm_next s true e; Ok (s, OPtr p)
  | ORange a b => '(s', (x, y)) ← omm_range s false a b; Ok (s', OPair x y)
  | ORRange a b => '(s', (x, y)) ← omm_range s true a b; Ok (s', OPair x y)
  | OClear fn => '(s', l) ← omm_clear s fn; Ok (s', ODestroyed OK l)
  | OSize => n ← omm_size s; Ok (s, ONum n)
  | OIsEmpty => Ok (s, OBool (omm_is_empty s))
  | OValidate => b ← omm_validate s; Ok (s, OBool b)
  end.

Fixpoint omm_run (s : om K V) (os : list (mm_op K V)) : outcome (om K V * list (mm_res K V)) :=
  match os with
  | [] => Ok (s, [])
  | o :: os =>
    '(s1, r) ← omm_step s o;
    '(s2, rs) ← omm_run s1 os;
    Ok (s2, r :: rs)
  end.
End model.
