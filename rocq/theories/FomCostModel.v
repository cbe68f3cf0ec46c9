(** The functions of FlatModel.v and FomModel.v that splay or follow links, with a
    count of the iterations of their loops. Nothing but the count is added;
    FomCostErase.v proves so. *)
From stdpp Require Import base numbers option gmap fin_maps list.
From Verif Require Import Common LinkHeap TreeModel CostModel SplayModel SplayCostModel WavlModel WavlNode FlatOps FlatModel
  WavlCostModel FomModel.

Section model.
Context {K V : Type} (cmp : K -> K -> comparison) (alloc : bool).
Notation flat := (flat K V).
Notation cell := (cell K V).
Implicit Types (s : flat).
Notation alloc_back := (alloc_back alloc fom_seal).

Definition splay_f_c s (root : nat) (k : K) : counted (flat * nat) :=
  '(h, r, n) ← splay_by_c 0 link_trees (cmpk cmp (dat s) k) (wl (tr s)) root; Ok ((set_links_root s h r, r), Work n 0).

Definition fom_find_c s (k : K) : counted (flat * option nat * unit) :=
  if wroot (tr s) =? 0 then still (s, None, tt)
  else
    '(s1, r) ⇐ splay_f_c s (wroot (tr s)) k;
    c ⇐ gratis (cmpk cmp (dat s1) k r);
    still (s1, if is_eq c then Some r else None, tt).

Definition fom_link_c s (_ : unit) (n : nat) : counted (flat * option nat) :=
  h ⇐ gratis (set_links (wl (tr s)) n 0);
  if sz s =? 2 then still (set_links_root s h n, Some n)
  else
    kv ⇐ gratis (value (dat s) n);
    '(s1, r) ⇐ splay_f_c (set_tr s (with_links (tr s) h)) (wroot (tr s)) (fst kv);
    c ⇐ gratis (cmpk cmp (dat s1) (fst kv) r);
    if is_eq c then still (s1, None)
    else
      h1 ⇐ gratis (graft 0 (wl (tr s1)) r n c);
      still (set_links_root s1 h1 n, Some n).

Definition detach_f_c s (x : nat) : counted flat :=
  '(h, r, n) ← detach_by_c cmp 0 link_trees (dat s) (wl (tr s)) x; Ok (set_links_root s h r, Work n 0).

Definition fom_erase_c s (k : K) : counted (flat * option nat) :=
  if flat_is_empty s then still (s, None)
  else
    '(s1, x) ⇐ splay_f_c s (wroot (tr s)) k;
    c ⇐ gratis (cmpk cmp (dat s1) k x);
    if negb (is_eq c) then still (s1, None)
    else
      s' ⇐ detach_f_c s1 x;
      s2 ⇐ gratis (fom_swap_and_pop s' x);
      still (s2, Some (sz s2)).

Definition fom_contains_c s (k : K) : counted (flat * bool) :=
  '(s1, r) ⇐ splay_f_c s (wroot (tr s)) k;
  c ⇐ gratis (cmpk cmp (dat s1) k r);
  still (s1, is_eq c).

Definition fom_remove_c s (u : user K V) : counted (flat * fent * cell) :=
  '(s1, o) ⇐ fom_erase_c s (fst (snd u));
  still (s1, match o with Some n => FEnt (Some (Slot n)) true false | None => FEnt None false false end, cell_of u).

Definition fom_remove_at_c s (x : nat) : counted (flat * nat) :=
  kv ⇐ gratis (value (dat s) x);
  '(s1, o) ⇐ fom_erase_c s (fst kv);
  match o with Some n => still (s1, n) | None => UB end.

Definition fom_range_c s (d : bool) (a b : K) : counted (flat * option nat * option nat) :=
  if flat_is_empty s then still (s, None, None)
  else
    let les_or_grt (d : bool) := if d then Gt else Lt in
    '(s1, x) ⇐ splay_f_c s (wroot (tr s)) a;
    c ⇐ gratis (cmpk cmp (dat s1) a x);
    x' ⇐ (if cmp_is c (les_or_grt d) then fnext_c s1 d x else still x);
    '(s2, y) ⇐ splay_f_c s1 (wroot (tr s1)) b;
    c' ⇐ gratis (cmpk cmp (dat s2) b y);
    y' ⇐ (if cmp_is c' (les_or_grt (negb d)) then still y else fnext_c s2 d y);
    still (s2, Some x', Some y').

Definition maybe_alloc_insert_c s (h : unit) (u : cell) (ans : grant) : counted (flat * option nat) :=
  '(s1, o) ⇐ gratis (alloc_back s ans);
  match o with
  | None => still (s1, None)
  | Some _ =>
    let n := sz s1 - 1 in
    s2 ⇐ gratis (write s1 n u);
    fom_link_c s2 h n
  end.

Definition literal_insert_c s (h : unit) (u : cell) (ans : grant) : counted (flat * option nat) :=
  '(s1, o) ⇐ gratis (alloc_back s ans);
  match o with
  | None => still (s1, None)
  | Some i => s2 ⇐ gratis (write s1 i u); '(s3, _) ⇐ fom_link_c s2 h (sz s1 - 1); still (s3, Some i)
  end.

Definition fom_get_c s (k : K) : counted (flat * option nat) :=
  '(s1, o, _) ⇐ fom_find_c s k; still (s1, o).

Definition fom_insert_c s (u : user K V) (ans : grant) : counted (flat * fent * cell) :=
  '(s1, o, h) ⇐ fom_find_c s (fst (snd u));
  match o with
  | Some x =>
    gratis (
      c ← read s1 x;
      let u1 : cell := (fst c, Some (snd u)) in
      s2 ← write s1 0 u1;
      u2 ← read s2 x;
      c0 ← read s2 0;
      s3 ← write s2 x c0;
      s4 ← fom_seal s3;
      Ok (s4, FEnt (Some (Slot x)) true false, u2))
  | None =>
    '(s2, p) ⇐ maybe_alloc_insert_c s1 h (cell_of u) ans;
    still (s2, match p with Some _ => FEnt None false false | None => FEnt None false true end, cell_of u)
  end.

Definition fom_try_insert_c s (u : user K V) (ans : grant) : counted (flat * fent * cell) :=
  '(s1, o, h) ⇐ fom_find_c s (fst (snd u));
  match o with
  | Some x => still (s1, FEnt (Some (Slot x)) true false, cell_of u)
  | None => '(s2, p) ⇐ maybe_alloc_insert_c s1 h (cell_of u) ans; still (s2, inserted_ent p, cell_of u)
  end.

Definition fom_insert_or_assign_c s (u : user K V) (ans : grant) : counted (flat * fent * cell) :=
  '(s1, o, h) ⇐ fom_find_c s (fst (snd u));
  match o with
  | Some x => '(s2, u1) ⇐ gratis (overwrite s1 x u); still (s2, FEnt (Some (Slot x)) true false, u1)
  | None => '(s2, p) ⇐ maybe_alloc_insert_c s1 h (cell_of u) ans; still (s2, inserted_ent p, cell_of u)
  end.

Definition fom_entry_c s (k : K) : counted (flat * tent) :=
  '(s1, o, h) ⇐ fom_find_c s k; still (s1, TEnt o h).

Definition fom_or_insert_c s (en : tent) (u : user K V) (ans : grant) : counted (flat * option nat) :=
  match te en with Some x => still (s, Some x) | None => maybe_alloc_insert_c s (hint en) (cell_of u) ans end.

Definition fom_insert_entry_c s (en : tent) (u : user K V) (ans : grant) : counted (flat * option nat) :=
  match te en with
  | Some x => '(s1, _) ⇐ gratis (overwrite s x u); still (s1, Some x)
  | None => maybe_alloc_insert_c s (hint en) (cell_of u) ans
  end.

Definition fom_or_insert_w_c s (en : tent) (u : user K V) (ans : grant) : counted (flat * option nat) :=
  match te en with Some x => still (s, Some x) | None => literal_insert_c s (hint en) (cell_of u) ans end.
Definition fom_insert_entry_w_c s (en : tent) (u : user K V) (ans : grant) : counted (flat * option nat) :=
  match te en with
  | None => literal_insert_c s (hint en) (cell_of u) ans
  | Some x => s1 ⇐ gratis (literal_overwrite s x (cell_of u)); still (s1, Some x)
  end.

Definition fom_try_insert_w_c s (k : K) (u : user K V) (ans : grant) : counted (flat * fent) :=
  '(s1, en) ⇐ fom_entry_c s k;
  match te en with
  | None => '(s2, p) ⇐ literal_insert_c s1 (hint en) (keyed_cell k u) ans; still (s2, inserted_ent p)
  | Some x => still (s1, FEnt (Some (Slot x)) true false)
  end.
Definition fom_insert_or_assign_w_c s (k : K) (u : user K V) (ans : grant) : counted (flat * fent) :=
  '(s1, en) ⇐ fom_entry_c s k;
  match te en with
  | None => '(s2, p) ⇐ literal_insert_c s1 (hint en) (keyed_cell k u) ans; still (s2, inserted_ent p)
  | Some x => s2 ⇐ gratis (literal_overwrite s1 x (keyed_cell k u)); still (s2, FEnt (Some (Slot x)) true false)
  end.

Definition fom_remove_entry_c s (en : tent (H := unit)) : counted (flat * fent) :=
  match te en with
  | Some x => '(s1, n) ⇐ fom_remove_at_c s x; still (s1, FEnt (Some (Slot n)) true false)
  | None => still (s, FEnt None false false)
  end.

Definition fom_step_c s (o : flat_op K V) : counted (flat * flat_res K V) :=
  match o with
  | FContains k => '(s', b) ⇐ fom_contains_c s k; still (s', XBool b)
  | FGet k => '(s', p) ⇐ fom_get_c s k; r ⇐ gratis (see s' p); still (s', r)
  | FInsert u ans => '(s', e, h) ⇐ fom_insert_c s u ans; r ⇐ gratis (look s' e (Some h)); still (s', r)
  | FTryInsert u ans => '(s', e, h) ⇐ fom_try_insert_c s u ans; r ⇐ gratis (look s' e (Some h)); still (s', r)
  | FAssign u ans => '(s', e, h) ⇐ fom_insert_or_assign_c s u ans; r ⇐ gratis (look s' e (Some h)); still (s', r)
  | FRemove u => '(s', e, h) ⇐ fom_remove_c s u; r ⇐ gratis (look s' e (Some h)); still (s', r)
  | FEntry k => '(s', en) ⇐ fom_entry_c s k; r ⇐ gratis (tlook s' en); still (s', r)
  | FOrInsert k u ans =>
    '(s1, en) ⇐ fom_entry_c s k; '(s', p) ⇐ fom_or_insert_c s1 en u ans; r ⇐ gratis (see s' p); still (s', r)
  | FInsertEntry k u ans =>
    '(s1, en) ⇐ fom_entry_c s k; '(s', p) ⇐ fom_insert_entry_c s1 en u ans; r ⇐ gratis (see s' p); still (s', r)
  | FAndModify k f =>
    '(s1, en) ⇐ fom_entry_c s k; '(s', p) ⇐ gratis (flat_and_modify s1 en f); r ⇐ gratis (see s' p); still (s', r)
  | FRemoveEntry k =>
    '(s1, en) ⇐ fom_entry_c s k; '(s', e) ⇐ fom_remove_entry_c s1 en; r ⇐ gratis (look s' e None); still (s', r)
  | FOrInsertW k u ans =>
    '(s1, en) ⇐ fom_entry_c s k; '(s', p) ⇐ fom_or_insert_w_c s1 en u ans; r ⇐ gratis (see s' p); still (s', r)
  | FInsertEntryW k u ans =>
    '(s1, en) ⇐ fom_entry_c s k; '(s', p) ⇐ fom_insert_entry_w_c s1 en u ans; r ⇐ gratis (see s' p); still (s', r)
  | FTryInsertW k u ans => '(s', e) ⇐ fom_try_insert_w_c s k u ans; r ⇐ gratis (look s' e None); still (s', r)
  | FAssignW k u ans => '(s', e) ⇐ fom_insert_or_assign_w_c s k u ans; r ⇐ gratis (look s' e None); still (s', r)
  | FBegin => i ⇐ flat_begin_c s true; still (s, XIter i)
  | FRBegin => i ⇐ flat_begin_c s false; still (s, XIter i)
  | FNext i => j ⇐ flat_next_c s true i; still (s, XIter j)
  | FRNext i => j ⇐ flat_next_c s false i; still (s, XIter j)
  | FRange a b => '(s', x, y) ⇐ fom_range_c s true a b; still (s', XRange x y)
  | FRRange a b => '(s', x, y) ⇐ fom_range_c s false a b; still (s', XRange x y)
  | FClear fn => '(s', r, l) ⇐ gratis (fom_clear s fn); still (s', XDestroyed r l)
  | FSize => still (s, XNum (flat_size s))
  | FCapacity => still (s, XNum (flat_capacity s))
  | FIsEmpty => still (s, XBool (flat_is_empty s))
  | FValidate => b ⇐ gratis (fom_validate cmp s); still (s, XBool b)
  end.
Fixpoint fom_run_c s (os : list (flat_op K V)) : counted (flat * list (flat_res K V)) :=
  match os with
  | [] => still (s, [])
  | o :: os' =>
    '(s1, r) ⇐ fom_step_c s o;
    '(s2, rs) ⇐ fom_run_c s1 os';
    still (s2, r :: rs)
  end.
End model.
