(** The functions of OmmModel.v with a count of the iterations their loops run:
    each is the function of the same name there with nothing but the count
    added, see [omm_step_erase] in OmmCostErase.v. validate is left at no cost. *)
From stdpp Require Import base numbers option gmap fin_maps list.
From Verif Require Import Common LinkHeap TreeModel SplayModel MapOps OmModel OmmOps OmmModel CostModel SplayCostModel.

Section model.
Context {K V : Type} (cmp : K -> K -> comparison) (alloc : bool) (off : nat).
Local Notation om := (om K V).

Definition msplay_c (s : om) (r : nat) (probe : nat -> outcome comparison) : counted (om * nat) :=
  '(h, r', n) ← splay_by_c nil mlink probe (lk s) r; Ok ((set_root (set_lk s h) r', r'), Work n 0).
Definition splay_key_c (s : om) (r : nat) (k : K) : counted (om * nat) :=
  msplay_c s r (cmpk cmp (dat s) k).

Definition mfind_c (s : om) (k : K) : counted (om * nat) :=
  if root s =? nil then still (s, 0)
  else
    '(s1, r) ⇐ splay_key_c s (root s) k;
    c ← cmpk cmp (dat s1) k r;
    still (s1, if is_eq c then r else 0).

Definition omm_contains_c (s : om) (k : K) : counted (om * bool) :=
  '(s1, r) ⇐ splay_key_c s (root s) k;
  c ← cmpk cmp (dat s1) k r;
  still (s1, is_eq c).

Definition multimap_insert_c (s : om) (e : nat) : counted (om * ent) :=
  h ← set_links (lk s) e nil;
  let s := set_lk s h in
  if mempty s then still (set_sz (set_root s e) 1, vacant_ent e)
  else
    let s := set_sz s (sz s + 1) in
    kv ← value (dat s) e;
    '(s1, r) ⇐ splay_key_c s (root s) (fst kv);
    c ← cmpk cmp (dat s1) (fst kv) r;
    if is_eq c then
      h1 ← add_duplicate (lk s1) (root s1) e nil;
      still (set_lk s1 h1, occupied_ent e)
    else
      h1 ← graft_by nil mlink (lk s1) (root s1) e c;
      still (set_root (set_lk s1 h1) e, vacant_ent e).

Definition mremove_from_tree_c (s : om) (ret : nat) : counted om :=
  '(h, r, n) ← detach_by_c cmp nil mlink (dat s) (lk s) ret; Ok (set_root (set_lk s h) r, Work n 0).

Definition take_front_c (s : om) (ret : nat) : counted (om * nat) :=
  b ← has_dups (lk s) ret;
  s1 ⇐ (if (b : bool) then kv ← value (dat s) ret; gratis (pop_front_dup cmp s ret (fst kv))
        else mremove_from_tree_c s ret);
  h ← set_links (lk s1) ret 0;
  still (set_lk s1 h, ret).

Definition multimap_erase_c (s : om) (k : K) : counted (om * nat) :=
  if mempty s then still (s, 0)
  else
    '(s1, ret) ⇐ splay_key_c s (root s) k;
    c ← cmpk cmp (dat s1) k ret;
    if negb (is_eq c) then still (s1, 0)
    else take_front_c (set_sz s1 (sz s1 - 1)) ret.

Definition erase_end_c (s : om) (d : bool) : counted (om * nat) :=
  if mempty s then still (s, 0)
  else
    let s := set_sz s (sz s - 1) in
    '(s1, ret) ⇐ msplay_c s (root s) (force d);
    take_front_c s1 ret.

Definition erase_node_c (s : om) (node : nat) : counted (om * nat) :=
  nr ← rd (rt (lk s)) node;
  nl ← rd (lf (lk s)) node;
  if (nr =? 0) || (nl =? 0) then still (s, 0)
  else if mempty s then still (s, 0)
  else
    let s := set_sz s (sz s - 1) in
    p ← rd (pa (lk s)) node;
    if p =? 0 then
      a ← rd (lf (lk s)) nr;
      b ← rd (rt (lk s)) nl;
      _ ← oassert ((a =? node) && (b =? node));
      h1 ← wbr (lk s) true nl nr;
      n1 ← rd (rt h1) node;
      p1 ← rd (lf h1) node;
      h2 ← wbr h1 false n1 p1;
      still (set_lk s h2, node)
    else
      kv ← value (dat s) node;
      '(s1, ret) ⇐ splay_key_c s (root s) (fst kv);
      c ← cmpk cmp (dat s1) (fst kv) ret;
      if negb (is_eq c) then still (s1, 0)
      else
        b ← has_dups (lk s1) ret;
        '(s2, ret1) ⇐ (if (b : bool) then gratis (pop_dup_node cmp s1 node ret)
                       else s2 ⇐ mremove_from_tree_c s1 ret; still (s2, ret));
        h ← set_links (lk s2) ret1 0;
        still (set_lk s2 h, ret1).

Definition omm_insert_c (s : om) (e ans : nat) : counted (om * ent) :=
  if alloc then
    if ans =? 0 then still (s, error_ent 0)
    else
      kv ← value (dat s) e;
      l ← rd (lf (lk s)) e; r ← rd (rt (lk s)) e; p ← rd (pa (lk s)) e;
      multimap_insert_c (take s ans kv l r p) ans
  else multimap_insert_c s e.

Definition omm_try_insert_c (s : om) (e : nat) : counted (om * ent) :=
  kv ← value (dat s) e;
  '(s1, found) ⇐ mfind_c s (fst kv);
  if negb (found =? 0) then still (s1, occupied_ent found) else multimap_insert_c s1 e.

Definition omm_insert_or_assign_c (s : om) (e : nat) : counted (om * ent) :=
  kv ← value (dat s) e;
  '(s1, found) ⇐ mfind_c s (fst kv);
  if negb (found =? 0) then
    h ← copy_links (lk s1) e found;
    _ ← oassert (negb (root s1 =? nil));
    s2 ← copy_struct (set_lk s1 h) found e;
    still (s2, occupied_ent found)
  else multimap_insert_c s1 e.

Definition omm_remove_c (s : om) (e : nat) : counted (om * ent) :=
  kv ← value (dat s) e;
  '(s1, n) ⇐ multimap_erase_c s (fst kv);
  if n =? 0 then still (s1, vacant_ent 0)
  else if alloc then
    s2 ← copy_struct s1 e n;
    s3 ← give_back s2 n;
    still (s3, occupied_ent e)
  else still (s1, occupied_ent n).

Definition omm_entry_c (s : om) (k : K) : counted (om * ent) :=
  '(s1, found) ⇐ mfind_c s k;
  still (s1, if negb (found =? 0) then occupied_ent found else vacant_ent 0).

Definition omm_or_insert_c (s : om) (en : ent) (e : nat) : counted (om * nat) :=
  if occupied en then still (s, e_ en) else '(s1, en1) ⇐ multimap_insert_c s e; still (s1, e_ en1).

Definition omm_insert_entry_c (s : om) (en : ent) (e : nat) : counted (om * nat) :=
  '(s1, en1) ⇐ multimap_insert_c s e; still (s1, e_ en1).

Definition omm_remove_entry_c (s : om) (en : ent) : counted (om * ent) :=
  if occupied en then
    kv ← value (dat s) (e_ en);
    '(s1, n) ⇐ multimap_erase_c s (fst kv);
    _ ← oassert (negb (n =? 0));
    if alloc then s2 ← give_back s1 n; still (s2, occupied_ent 0)
    else still (s1, occupied_ent n)
  else still (s, vacant_ent 0).

Definition mnew_and_insert_c (s : om) (kv : K * V) (ans : nat) : counted (om * nat) :=
  if alloc && negb (ans =? 0)
  then '(s1, en) ⇐ multimap_insert_c (take s ans kv 0 0 0) ans; still (s1, e_ en)
  else still (s, 0).

Definition omm_or_insert_w_c (s : om) (en : ent) (kv : K * V) (ans : nat) : counted (om * nat) :=
  if occupied en then still (s, e_ en) else mnew_and_insert_c s kv ans.

Definition omm_insert_entry_w_c (s : om) (en : ent) (kv : K * V) (ans : nat) : counted (om * nat) :=
  mnew_and_insert_c s kv ans.

Definition minsert_and_copy_key_c (s : om) (kv : K * V) (ans : nat) : counted (om * ent) :=
  '(s1, _) ⇐ mnew_and_insert_c s kv ans; still (s1, error_ent (if alloc then ans else 0)).

Definition omm_try_insert_w_c (s : om) (k : K) (v : V) (ans : nat) : counted (om * ent) :=
  '(s1, en) ⇐ omm_entry_c s k;
  if negb (occupied en) then minsert_and_copy_key_c s1 (k, v) ans else still (s1, en).

Definition omm_insert_or_assign_w_c (s : om) (k : K) (v : V) (ans : nat) : counted (om * ent) :=
  '(s1, en) ⇐ omm_entry_c s k;
  if negb (occupied en) then minsert_and_copy_key_c s1 (k, v) ans
  else _ ← value (dat s1) (e_ en); still (set_dat s1 (e_ en) (k, v), en).

Definition omm_end_c (s : om) (d : bool) : counted (om * nat) := msplay_c s (root s) (force d).

Definition omm_pop_max_c (s : om) : counted (om * result) :=
  '(s1, n) ⇐ erase_end_c s true;
  if n =? 0 then still (s1, INPUT_ERR)
  else s2 ← (if alloc then give_back s1 n else Ok s1); still (s2, OK).

Definition omm_pop_min_c (s : om) : counted (om * result) :=
  '(s1, n) ⇐ erase_end_c s false;
  if n =? 0 then still (s1, INPUT_ERR)
  else s2 ← (if alloc then give_back s1 (n - off) else Ok s1); still (s2, OK).

Definition omm_extract_c (s : om) (e : nat) : counted (om * nat) := erase_node_c s e.

Definition omm_update_c (s : om) (e : nat) (f : K * V -> K * V) : counted (om * bool) :=
  l ← rd (lf (lk s)) e;
  r ← rd (rt (lk s)) e;
  if (l =? 0) || (r =? 0) then still (s, false)
  else
    '(s1, x) ⇐ erase_node_c s e;
    if x =? 0 then still (s1, false)
    else
      kv ← value (dat s1) x;
      '(s2, _) ⇐ multimap_insert_c (set_dat s1 x (f kv)) e;
      still (s2, true).

Definition omm_begin_c (s : om) (d : bool) : counted nat :=
  if (sz s =? 0)%Z then still 0 else hopping (edge_c nil (lk s) (negb d) (root s)).

Fixpoint mclimb_c (fuel : nat) (h : links) (d : bool) (n p : nat) : outcome (nat * nat) :=
  match fuel with
  | 0 => Fuel
  | S f =>
    if p =? nil then Ok (p, 1)
    else
      c ← rd (br h (negb d)) p;
      if c =? n then Ok (p, 1)
      else p' ← parent_r h p; '(r, i) ← mclimb_c f h d p p'; Ok (r, S i)
  end.

Definition mtree_next_c (h : links) (root : nat) (d : bool) (n : nat) : outcome (nat * nat) :=
  if (n =? 0) || (n =? nil) then Ok (0, 0)
  else
    rp ← parent_r h root;
    _ ← oassert (rp =? nil);
    c ← rd (br h d) n;
    if negb (c =? nil) then edge_c nil h (negb d) c
    else p ← parent_r h n; mclimb_c (S (size (lf h))) h d n p.

Definition next_tree_node_c (h : links) (root : nat) (d : bool) (head : nat) : outcome (nat * nat) :=
  parent ← rd (pa h) head;
  if parent =? nil then mtree_next_c h root d root
  else
    let child (b : bool) : outcome (option nat) :=
      c ← rd (br h b) parent;
      if c =? nil then Ok None
      else x ← rd (pa h) c; Ok (if x =? head then Some c else None) in
    l ← child false;
    match l with
    | Some c => mtree_next_c h root d c
    | None =>
      r ← child true;
      match r with
      | Some c => mtree_next_c h root d c
      | None => Ok (nil, 0)
      end
    end.

Definition multimap_next_c (h : links) (root : nat) (d : bool) (i : nat) : outcome (nat * nat) :=
  p ← rd (pa h) i;
  if p =? 0 then
    b ← is_dup_head_next h i;
    n ← rd (rt h) i;
    if (b : bool) then next_tree_node_c h root d n else Ok (n, 0)
  else
    b ← is_dup_head h i;
    if (b : bool) then
      b' ← is_dup_head_next h i;
      if (b' : bool) then next_tree_node_c h root d i else n ← rd (rt h) i; Ok (n, 0)
    else
      b' ← has_dups h i;
      if (b' : bool) then Ok (p, 0) else mtree_next_c h root d i.

Definition omm_next_c (s : om) (d : bool) (e : nat) : counted nat :=
  if e =? 0 then still 0
  else n ⇐ hopping (multimap_next_c (lk s) (root s) d e); still (if n =? nil then 0 else n).

Definition omm_range_c (s : om) (d : bool) (a b : K) : counted (om * (nat * nat)) :=
  if (sz s =? 0)%Z then still (s, (0, 0))
  else
    let les_or_grt (d : bool) := if d then Gt else Lt in
    '(s1, x) ⇐ splay_key_c s (root s) a;
    c ← cmpk cmp (dat s1) a x;
    x' ⇐ (if cmp_is c (les_or_grt d) then hopping (mtree_next_c (lk s1) (root s1) d x) else still x);
    '(s2, y) ⇐ splay_key_c s1 (root s1) b;
    c' ← cmpk cmp (dat s2) b y;
    y' ⇐ (if cmp_is c' (les_or_grt (negb d)) then still y else hopping (mtree_next_c (lk s2) (root s2) d y));
    still (s2, (if x' =? nil then 0 else x', if y' =? nil then 0 else y')).

Fixpoint mclear_loop_c (fuel : nat) (s : om) (fn : bool) : counted (om * list (nat * (K * V))) :=
  match fuel with
  | 0 => Fuel
  | S f =>
    if omm_is_empty s then still (s, [])
    else
      '(s1, n) ⇐ erase_end_c s false;
      d ← (if fn then v ← value (dat s1) n; Ok [(n, v)] else Ok []);
      s2 ← (if alloc then give_back s1 n else Ok s1);
      '(s3, l) ⇐ mclear_loop_c f s2 fn;
      still (s3, d ++ l)
  end.
Definition omm_clear_c (s : om) (fn : bool) : counted (om * list (nat * (K * V))) :=
  mclear_loop_c (S (Z.to_nat (sz s))) s fn.

Fixpoint mwalk_c (fuel : nat) (s : om) (d : bool) (e : nat) : counted (list (nat * (K * V))) :=
  match fuel with
  | 0 => Fuel
  | S f =>
    if e =? 0 then still []
    else
      kv ← value (dat s) e;
      e' ⇐ omm_next_c s d e;
      l ⇐ mwalk_c f s d e';
      still ((e, kv) :: l)
  end.
Definition omm_iter_c (s : om) (d : bool) : counted (list (nat * (K * V))) :=
  e ⇐ omm_begin_c s d; mwalk_c (S (S (size (lf (lk s))))) s d e.

Definition omm_step_c (s : om) (o : mm_op K V) : counted (om * mm_res K V) :=
  match o with
  | ONew e k v l r p b => still (omm_new s e k v l r p b, OPtr e)
  | OContains k => '(s', b) ⇐ omm_contains_c s k; still (s', OBool b)
  | OGet k => '(s', p) ⇐ mfind_c s k; still (s', OPtr p)
  | OInsert e ans => '(s', en) ⇐ omm_insert_c s e ans; still (s', mobserve en)
  | OTryInsert e _ => '(s', en) ⇐ omm_try_insert_c s e; still (s', mobserve en)
  | OAssign e _ => '(s', en) ⇐ omm_insert_or_assign_c s e; still (s', mobserve en)
  | ORemove e => '(s', en) ⇐ omm_remove_c s e; still (s', mobserve en)
  | OEntry k => '(s', en) ⇐ omm_entry_c s k; still (s', mobserve en)
  | OOrInsert k e _ =>
    '(s1, en) ⇐ omm_entry_c s k; '(s', p) ⇐ omm_or_insert_c s1 en e; still (s', OPtr p)
  | OInsertEntry k e _ =>
    '(s1, en) ⇐ omm_entry_c s k; '(s', p) ⇐ omm_insert_entry_c s1 en e; still (s', OPtr p)
  | OAndModify k f =>
    '(s1, en) ⇐ omm_entry_c s k; '(s', p) ← omm_and_modify s1 en f; still (s', OPtr p)
  | ORemoveEntry k =>
    '(s1, en) ⇐ omm_entry_c s k; '(s', en') ⇐ omm_remove_entry_c s1 en; still (s', mobserve en')
  | OOrInsertW k k' v ans =>
    '(s1, en) ⇐ omm_entry_c s k; '(s', p) ⇐ omm_or_insert_w_c s1 en (k', v) ans; still (s', OPtr p)
  | OInsertEntryW k k' v ans =>
    '(s1, en) ⇐ omm_entry_c s k; '(s', p) ⇐ omm_insert_entry_w_c s1 en (k', v) ans; still (s', OPtr p)
  | OTryInsertW k v ans => '(s', en) ⇐ omm_try_insert_w_c s k v ans; still (s', mobserve en)
  | OAssignW k v ans => '(s', en) ⇐ omm_insert_or_assign_w_c s k v ans; still (s', mobserve en)
  | OMax => '(s', p) ⇐ omm_end_c s true; still (s', OPtr p)
  | OMin => '(s', p) ⇐ omm_end_c s false; still (s', OPtr p)
  | OPopMax => '(s', r) ⇐ omm_pop_max_c s; still (s', OResult r)
  | OPopMin => '(s', r) ⇐ omm_pop_min_c s; still (s', OResult r)
  | OExtract e => '(s', p) ⇐ omm_extract_c s e; still (s', OPtr p)
  | OUpdate e f => '(s', b) ⇐ omm_update_c s e f; still (s', OBool b)
  | OBegin => p ⇐ omm_begin_c s false; still (s, OPtr p)
  | ORBegin => p ⇐ omm_begin_c s true; still (s, OPtr p)
  | ONext e => p ⇐ omm_next_c s false e; still (s, OPtr p)
  | ORNext e => p ⇐ omm_next_c s true e; still (s, OPtr p)
  | ORange a b => '(s', (x, y)) ⇐ omm_range_c s false a b; still (s', OPair x y)
  | ORRange a b => '(s', (x, y)) ⇐ omm_range_c s true a b; still (s', OPair x y)
  | OClear fn => '(s', l) ⇐ omm_clear_c s fn; still (s', ODestroyed OK l)
  | OSize => n ← omm_size s; still (s, ONum n)
  | OIsEmpty => still (s, OBool (omm_is_empty s))
  | OValidate => b ← omm_validate cmp s; still (s, OBool b)
  end.

Fixpoint omm_run_c (s : om) (os : list (mm_op K V)) : counted (om * list (mm_res K V)) :=
  match os with
  | [] => still (s, [])
  | o :: os =>
    '(s1, r) ⇐ omm_step_c s o;
    '(s2, rs) ⇐ omm_run_c s1 os;
    still (s2, r :: rs)
  end.
End model.
