(** The functions of OmModel.v with a count of the iterations their loops run:
    each is the function of the same name there with nothing but the count
    added, see [om_step_erase]. validate is left at no cost. *)
From stdpp Require Import base numbers option gmap fin_maps list.
From Verif Require Import Common LinkHeap TreeModel MapOps OmModel CostModel CostErase.

Local Ltac bind := cbn [mbind outcome_bind obind].

Section model.
Context {K V : Type} (cmp : K -> K -> comparison) (alloc : bool).
Local Notation om := (om K V).
Local Notation overwrite := (@overwrite K V).

Definition splay_s_c (s : om) (r : nat) (k : K) : counted (om * nat) :=
  '(h, r', n) ← splay_by_c nil link_trees (cmpk cmp (dat s) k) (lk s) r;
  Ok ((set_root (set_lk s h) r', r'), Work n 0).

Definition find_c (s : om) (k : K) : counted (om * nat) :=
  if root s =? nil then still (s, 0)
  else
    '(s1, r) ⇐ splay_s_c s (root s) k;
    c ← cmpk cmp (dat s1) k r;
    still (s1, if is_eq c then r else 0).

Definition om_contains_c (s : om) (k : K) : counted (om * bool) :=
  '(s1, r) ⇐ splay_s_c s (root s) k;
  c ← cmpk cmp (dat s1) k r;
  still (s1, is_eq c).

Definition alloc_insert_c (s : om) (e ans : nat) : counted (om * nat) :=
  h ← set_links (lk s) e nil;
  let s := set_lk s h in
  kv ← value (dat s) e;
  '(s1, c) ⇐
    (if empty s then still (s, None)
     else
       '(s1, r) ⇐ splay_s_c s (root s) (fst kv);
       c ← cmpk cmp (dat s1) (fst kv) r;
       still (s1, Some c));
  match c with
  | Some Eq => still (s1, 0)
  | _ =>
    '(s2, out) ←
      (if alloc then
         if ans =? 0 then Ok (s1, 0)
         else
           l ← rd (lf (lk s1)) e; r ← rd (rt (lk s1)) e; p ← rd (pa (lk s1)) e;
           Ok (take s1 ans kv l r p, ans)
       else Ok (s1, e));
    if out =? 0 then still (s2, 0)
    else if empty s2 then still (set_sz (set_root s2 out) 1, out)
    else
      match c with
      | None => UB  (* the assertion in 659 *)
      | Some c => gratis (connect_new_root (set_sz s2 (sz s2 + 1)) out c)
      end
  end.

Definition insert_c (s : om) (n : nat) : counted (om * nat) :=
  h ← set_links (lk s) n nil;
  let s := set_lk s h in
  if empty s then still (set_sz (set_root s n) 1, n)
  else
    kv ← value (dat s) n;
    '(s1, r) ⇐ splay_s_c s (root s) (fst kv);
    c ← cmpk cmp (dat s1) (fst kv) r;
    if is_eq c then still (s1, 0)
    else gratis (connect_new_root (set_sz s1 (sz s1 + 1)) n c).

Definition remove_from_tree_c (s : om) (ret : nat) : counted om :=
  l ← rd (lf (lk s)) ret;
  if l =? nil then
    r ← rd (rt (lk s)) ret;
    h ← link_trees (lk s) nil false r;
    still (set_root (set_lk s h) r)
  else
    kv ← value (dat s) ret;
    '(s1, x) ⇐ splay_s_c s l (fst kv);
    r ← rd (rt (lk s1)) ret;
    h ← link_trees (lk s1) x true r;
    still (set_lk s1 h).

Definition erase_c (s : om) (k : K) : counted (om * nat) :=
  if empty s then still (s, 0)
  else
    '(s1, ret) ⇐ splay_s_c s (root s) k;
    c ← cmpk cmp (dat s1) k ret;
    if is_eq c then
      s2 ⇐ remove_from_tree_c s1 ret;
      h ← set_links (lk s2) ret 0;
      still (set_sz (set_lk s2 h) (sz s2 - 1), ret)
    else still (s1, 0).

Definition om_insert_c (s : om) (e tmp ans : nat) : counted (om * ent) :=
  kv ← value (dat s) e;
  '(s1, found) ⇐ find_c s (fst kv);
  if negb (found =? 0) then
    _ ← oassert (negb (root s1 =? nil));
    h ← copy_links (lk s1) e (root s1);
    let s2 := set_lk s1 h in
    s3 ← (if root s2 =? e then Ok s2
          else
            a ← copy_struct s2 tmp (root s2);
            b ← copy_struct a (root s2) e;
            copy_struct b e tmp);
    h1 ← set_links (lk s3) e 0;
    h2 ← set_links h1 tmp 0;
    still (set_lk s3 h2, occupied_ent tmp)
  else
    '(s2, ins) ⇐ alloc_insert_c s1 e ans;
    still (s2, if ins =? 0 then error_ent 0 else vacant_ent 0).

Definition om_try_insert_c (s : om) (e ans : nat) : counted (om * ent) :=
  kv ← value (dat s) e;
  '(s1, found) ⇐ find_c s (fst kv);
  if negb (found =? 0) then
    _ ← oassert (negb (root s1 =? nil));
    still (s1, occupied_ent (root s1))
  else
    '(s2, ins) ⇐ alloc_insert_c s1 e ans;
    still (s2, if ins =? 0 then error_ent 0 else vacant_ent ins).

Definition om_insert_or_assign_c (s : om) (e ans : nat) : counted (om * ent) :=
  kv ← value (dat s) e;
  '(s1, found) ⇐ find_c s (fst kv);
  if negb (found =? 0) then
    _ ← oassert (negb (root s1 =? nil));
    s2 ← overwrite s1 found e;
    still (s2, occupied_ent found)
  else
    '(s2, ins) ⇐ alloc_insert_c s1 e ans;
    still (s2, if ins =? 0 then error_ent 0 else vacant_ent ins).

Definition om_remove_c (s : om) (e : nat) : counted (om * ent) :=
  kv ← value (dat s) e;
  '(s1, n) ⇐ erase_c s (fst kv);
  if n =? 0 then still (s1, vacant_ent 0)
  else if alloc then
    s2 ← copy_struct s1 e n;
    s3 ← give_back s2 n;
    still (s3, occupied_ent e)
  else still (s1, occupied_ent n).

Definition om_entry_c (s : om) (k : K) : counted (om * ent) :=
  '(s1, found) ⇐ find_c s k;
  still (s1, if negb (found =? 0) then occupied_ent found else vacant_ent found).

Definition om_or_insert_c (s : om) (en : ent) (e ans : nat) : counted (om * nat) :=
  if occupied en then still (s, e_ en) else alloc_insert_c s e ans.

Definition om_insert_entry_c (s : om) (en : ent) (e ans : nat) : counted (om * nat) :=
  if occupied en then s1 ← overwrite s (e_ en) e; still (s1, e_ en)
  else alloc_insert_c s e ans.

Definition om_remove_entry_c (s : om) (en : ent) : counted (om * ent) :=
  if occupied en then
    kv ← value (dat s) (e_ en);
    '(s1, n) ⇐ erase_c s (fst kv);
    _ ← oassert (negb (n =? 0));
    if alloc then s2 ← give_back s1 n; still (s2, occupied_ent 0)
    else still (s1, occupied_ent n)
  else still (s, vacant_ent 0).

Definition om_get_c (s : om) (k : K) : counted (om * nat) := find_c s k.

Definition new_and_insert_c (s : om) (kv : K * V) (ans : nat) : counted (om * nat) :=
  if alloc && negb (ans =? 0) then insert_c (take s ans kv 0 0 0) ans else still (s, 0).

Definition om_or_insert_w_c (s : om) (en : ent) (kv : K * V) (ans : nat) : counted (om * nat) :=
  if occupied en then still (s, e_ en) else new_and_insert_c s kv ans.

Definition om_insert_entry_w_c (s : om) (en : ent) (kv : K * V) (ans : nat) : counted (om * nat) :=
  if negb (occupied en) then new_and_insert_c s kv ans
  else _ ← value (dat s) (e_ en); still (set_dat s (e_ en) kv, e_ en).

Definition insert_and_copy_key_c (s : om) (kv : K * V) (ans : nat) : counted (om * ent) :=
  let p := if alloc then ans else 0 in
  '(s1, _) ⇐ new_and_insert_c s kv ans; still (s1, error_ent p).

Definition om_try_insert_w_c (s : om) (k : K) (v : V) (ans : nat) : counted (om * ent) :=
  '(s1, en) ⇐ om_entry_c s k;
  if negb (occupied en) then insert_and_copy_key_c s1 (k, v) ans else still (s1, en).

Definition om_insert_or_assign_w_c (s : om) (k : K) (v : V) (ans : nat) : counted (om * ent) :=
  '(s1, en) ⇐ om_entry_c s k;
  if negb (occupied en) then insert_and_copy_key_c s1 (k, v) ans
  else _ ← value (dat s1) (e_ en); still (set_dat s1 (e_ en) (k, v), en).

Definition om_begin_c (s : om) (d : bool) : counted nat :=
  if (sz s =? 0)%Z then still 0 else hopping (edge_c nil (lk s) (negb d) (root s)).

Definition om_next_c (s : om) (d : bool) (e : nat) : counted nat :=
  if e =? 0 then still 0
  else n ⇐ hopping (tree_next_c nil (lk s) (root s) d e); still (if n =? nil then 0 else n).

Definition om_range_c (s : om) (d : bool) (a b : K) : counted (om * (nat * nat)) :=
  if (sz s =? 0)%Z then still (s, (0, 0))
  else
    let les_or_grt (d : bool) := if d then Gt else Lt in
    '(s1, x) ⇐ splay_s_c s (root s) a;
    c ← cmpk cmp (dat s1) a x;
    x' ⇐ (if cmp_is c (les_or_grt d) then hopping (tree_next_c nil (lk s1) (root s1) d x) else still x);
    '(s2, y) ⇐ splay_s_c s1 (root s1) b;
    c' ← cmpk cmp (dat s2) b y;
    y' ⇐ (if cmp_is c' (les_or_grt (negb d)) then still y else hopping (tree_next_c nil (lk s2) (root s2) d y));
    still (s2, (if x' =? nil then 0 else x', if y' =? nil then 0 else y')).

Fixpoint clear_loop_c (fuel : nat) (s : om) (fn : bool) : counted (om * list (nat * (K * V))) :=
  match fuel with
  | 0 => Fuel
  | S f =>
    if om_is_empty s then still (s, [])
    else
      kv ← value (dat s) (root s);
      '(s1, n) ⇐ erase_c s (fst kv);
      d ← (if fn then v ← value (dat s1) n; Ok [(n, v)] else Ok []);
      s2 ← (if alloc then give_back s1 n else Ok s1);
      '(s3, l) ⇐ clear_loop_c f s2 fn;
      still (s3, d ++ l)
  end.

Definition om_clear_c (s : om) (fn : bool) : counted (om * list (nat * (K * V))) :=
  clear_loop_c (S (Z.to_nat (sz s))) s fn.

Fixpoint walk_c (fuel : nat) (s : om) (d : bool) (e : nat) : counted (list (nat * (K * V))) :=
  match fuel with
  | 0 => Fuel
  | S f =>
    if e =? 0 then still []
    else
      kv ← value (dat s) e;
      e' ⇐ om_next_c s d e;
      l ⇐ walk_c f s d e';
      still ((e, kv) :: l)
  end.
Definition om_iter_c (s : om) (d : bool) : counted (list (nat * (K * V))) :=
  e ⇐ om_begin_c s d; walk_c (S (S (size (lf (lk s))))) s d e.

Definition om_step_c (s : om) (o : map_op K V) : counted (om * map_res K V) :=
  match o with
  | MNew e k v l r p _ => still (om_new s e k v l r p, RPtr e)
  | MContains k => '(s', b) ⇐ om_contains_c s k; still (s', RBool b)
  | MGet k => '(s', p) ⇐ om_get_c s k; still (s', RPtr p)
  | MInsert e tmp ans => '(s', en) ⇐ om_insert_c s e tmp ans; still (s', observe en)
  | MTryInsert e ans => '(s', en) ⇐ om_try_insert_c s e ans; still (s', observe en)
  | MAssign e ans => '(s', en) ⇐ om_insert_or_assign_c s e ans; still (s', observe en)
  | MRemove e => '(s', en) ⇐ om_remove_c s e; still (s', observe en)
  | MEntry k => '(s', en) ⇐ om_entry_c s k; still (s', observe en)
  | MOrInsert k e ans =>
    '(s1, en) ⇐ om_entry_c s k; '(s', p) ⇐ om_or_insert_c s1 en e ans; still (s', RPtr p)
  | MInsertEntry k e ans =>
    '(s1, en) ⇐ om_entry_c s k; '(s', p) ⇐ om_insert_entry_c s1 en e ans; still (s', RPtr p)
  | MAndModify k f =>
    '(s1, en) ⇐ om_entry_c s k; '(s', p) ← om_and_modify s1 en f; still (s', RPtr p)
  | MRemoveEntry k =>
    '(s1, en) ⇐ om_entry_c s k; '(s', en') ⇐ om_remove_entry_c s1 en; still (s', observe en')
  | MOrInsertW k k' v ans =>
    '(s1, en) ⇐ om_entry_c s k; '(s', p) ⇐ om_or_insert_w_c s1 en (k', v) ans; still (s', RPtr p)
  | MInsertEntryW k k' v ans =>
    '(s1, en) ⇐ om_entry_c s k; '(s', p) ⇐ om_insert_entry_w_c s1 en (k', v) ans; still (s', RPtr p)
  | MTryInsertW k v ans => '(s', en) ⇐ om_try_insert_w_c s k v ans; still (s', observe en)
  | MAssignW k v ans => '(s', en) ⇐ om_insert_or_assign_w_c s k v ans; still (s', observe en)
  | MBegin => p ⇐ om_begin_c s true; still (s, RPtr p)
  | MRBegin => p ⇐ om_begin_c s false; still (s, RPtr p)
  | MNext e => p ⇐ om_next_c s true e; still (s, RPtr p)
  | MRNext e => p ⇐ om_next_c s false e; still (s, RPtr p)
  | MRange a b => '(s', (x, y)) ⇐ om_range_c s true a b; still (s', RRange x y)
  | MRRange a b => '(s', (x, y)) ⇐ om_range_c s false a b; still (s', RRange x y)
  | MClear fn => '(s', l) ⇐ om_clear_c s fn; still (s', RDestroyed OK l)
  | MSize => n ← om_size s; still (s, RNum n)
  | MIsEmpty => still (s, RBool (om_is_empty s))
  | MValidate => b ← om_validate cmp s; still (s, RBool b)
  end.

Fixpoint om_run_c (s : om) (os : list (map_op K V)) : counted (om * list (map_res K V)) :=
  match os with
  | [] => still (s, [])
  | o :: os =>
    '(s1, r) ⇐ om_step_c s o;
    '(s2, rs) ⇐ om_run_c s1 os;
    still (s2, r :: rs)
  end.
End model.
