(** Binary search trees with parent links and a sentinel: what the ordered maps
    have in common. The pointer maps (src/ordered_map.c,
    src/realtime_ordered_map.c) and the flat maps (src/flat_ordered_map.c,
    src/flat_realtime_ordered_map.c) contain the same code for these functions,
    over pointers in the former and indices of buffer slots in the latter, so
    both are numbers here. *)
From stdpp Require Import base numbers option gmap fin_maps list.
From Verif Require Import Common LinkHeap.

(** Fields branch_[L], branch_[R] and parent_ of all live nodes, the sentinel
    included. *)
Record links : Type := Links { lf : fld; rt : fld; pa : fld }.

(** A direction: L is [false], R is [true]. *)
Definition br (h : links) (d : bool) : fld := if d then rt h else lf h.

Definition wbr (h : links) (d : bool) (p q : nat) : outcome links :=
  m ← wr (br h d) p q;
  Ok (if d then Links (lf h) m (pa h) else Links m (rt h) (pa h)).
Definition wpa (h : links) (p q : nat) : outcome links :=
  m ← wr (pa h) p q; Ok (Links (lf h) (rt h) m).

(** A node with the given fields comes to life, or is overwritten; a node dies. *)
Definition put_links (h : links) (p l r a : nat) : links :=
  Links (<[p := l]> (lf h)) (<[p := r]> (rt h)) (<[p := a]> (pa h)).
Definition del_links (h : links) (p : nat) : links :=
  Links (delete p (lf h)) (delete p (rt h)) (delete p (pa h)).

(** Copy of the links of [e] to [p], part of memcpy of a user struct. *)
Definition copy_links (h : links) (p e : nat) : outcome links :=
  l ← rd (lf h) e; r ← rd (rt h) e; a ← rd (pa h) e; Ok (put_links h p l r a).

(** All three links of [e] set to [q]: src/ordered_map.c:515-520 init_node with
    the sentinel, and ret->branch_[L] = ret->branch_[R] = ret->parent_ = NULL
    (713 and elsewhere). *)
Definition set_links (h : links) (e q : nat) : outcome links :=
  h1 ← wbr h false e q; h2 ← wbr h1 true e q; wpa h2 e q.

Section model.
Context {K V : Type} (cmp : K -> K -> comparison).

(** Address of the sentinel: &t->end_, or slot 0 of a flat map. *)
Context (nil : nat).

(** The user data of a node. *)
Definition value (dat : gmap nat (K * V)) (e : nat) : outcome (K * V) :=
  match dat !! e with Some kv => Ok kv | None => UB end.

(** src/ordered_map.c:790-799 cmp, src/flat_ordered_map.c:855-862 cmp_elems. *)
Definition cmpk (dat : gmap nat (K * V)) (k : K) (n : nat) : outcome comparison :=
  kv ← value dat n; Ok (cmp k (fst kv)).

Definition is_gt (c : comparison) : bool := match c with Gt => true | _ => false end.
Definition is_eq (c : comparison) : bool := match c with Eq => true | _ => false end.

(** src/ordered_map.c:813-818, src/flat_ordered_map.c:809-815 link_trees. *)
Definition link_trees (h : links) (parent : nat) (dir : bool) (subtree : nat) : outcome links :=
  h1 ← wbr h dir parent subtree; wpa h1 subtree parent.

(** The loop of src/ordered_map.c:735-778 and src/flat_ordered_map.c:762-807
    splay, lines 744-770 and 772-799. [sl] and [sr] are l_r_subtrees. The multimap
    (src/ordered_multimap.c:1088-1131) has the same code, but its link_trees
    differs and not every search compares keys: [link] is the link_trees
    in use and [probe] compares what is looked for with a node. *)
Fixpoint splay_loop (link : links -> nat -> bool -> nat -> outcome links) (probe : nat -> outcome comparison)
    (fuel : nat) (h : links) (sl sr root : nat) : outcome (links * nat * nat * nat) :=
  match fuel with
  | 0 => Fuel
  | S f =>
    root_cmp ← probe root;
    let dir := is_gt root_cmp in
    if is_eq root_cmp then Ok (h, sl, sr, root)
    else
      c ← rd (br h dir) root;
      if c =? nil then Ok (h, sl, sr, root)
      else
        child_cmp ← probe c;
        '(h1, root1, stop) ←
          (if negb (is_eq child_cmp) && Bool.eqb dir (is_gt child_cmp) then
             g ← rd (br h (negb dir)) c;
             h1 ← link h root dir g;
             h2 ← link h1 c (negb dir) root;
             g' ← rd (br h2 dir) c;
             Ok (h2, c, g' =? nil)
           else Ok (h, root, false));
        if (stop : bool) then Ok (h1, sl, sr, root1)
        else
          h2 ← link h1 (if dir then sl else sr) dir root1;
          next ← rd (br h2 dir) root1;
          splay_loop link probe f h2 (if dir then root1 else sl) (if dir then sr else root1) next
  end.

(** src/ordered_map.c:735-778, src/flat_ordered_map.c:762-807,
    src/ordered_multimap.c:1088-1131 splay. The assignment to t->root_ is made by
    the callers here: they all store the result. *)
Definition splay_by (link : links -> nat -> bool -> nat -> outcome links) (probe : nat -> outcome comparison)
    (h : links) (root : nat) : outcome (links * nat) :=
  h0 ← set_links h nil nil;
  '(h1, sl, sr, r) ← splay_loop link probe (S (size (lf h0))) h0 nil nil root;
  a ← rd (lf h1) r;
  h2 ← link h1 sl true a;
  b ← rd (rt h2) r;
  h3 ← link h2 sr false b;
  a' ← rd (rt h3) nil;
  h4 ← link h3 r false a';
  b' ← rd (lf h4) nil;
  h5 ← link h4 r true b';
  h6 ← link h5 nil false r;
  Ok (h6, r).
Definition splay (dat : gmap nat (K * V)) (h : links) (root : nat) (k : K) : outcome (links * nat) :=
  splay_by link_trees (cmpk dat k) h root.

(** The loops of src/ordered_map.c:529-552 min and max, and
    src/realtime_ordered_map.c:575-585 min_max_from after its first test. *)
Fixpoint edge_loop (fuel : nat) (h : links) (d : bool) (n : nat) : outcome nat :=
  match fuel with
  | 0 => Fuel
  | S f =>
    c ← rd (br h d) n;
    if c =? nil then Ok n else edge_loop f h d c
  end.
Definition edge (h : links) (d : bool) (n : nat) : outcome nat :=
  edge_loop (S (size (lf h))) h d n.

(** The second loop of next, src/ordered_map.c:573-575. *)
Fixpoint climb (fuel : nat) (h : links) (d : bool) (n p : nat) : outcome nat :=
  match fuel with
  | 0 => Fuel
  | S f =>
    if p =? nil then Ok p
    else
      c ← rd (br h (negb d)) p;
      if c =? n then Ok p
      else p' ← rd (pa h) p; climb f h d p p'
  end.

(** src/ordered_map.c:555-577 next, src/flat_ordered_map.c:830-853,
    src/realtime_ordered_map.c:677-698 (which reads n->parent_ again where the
    others keep p). The tests for NULL and the sentinel are left out: the callers
    modelled here pass elements of the map. *)
Definition tree_next (h : links) (root : nat) (d : bool) (n : nat) : outcome nat :=
  rp ← rd (pa h) root;
  _ ← oassert (rp =? nil);
  c ← rd (br h d) n;
  if negb (c =? nil) then edge h (negb d) c
  else p ← rd (pa h) n; climb (S (size (lf h))) h d n p.

(** src/ordered_map.c:842-851 recursive_size, src/realtime_ordered_map.c:1219-1229. *)
Fixpoint recursive_size (fuel : nat) (h : links) (r : nat) : outcome Z :=
  match fuel with
  | 0 => Fuel
  | S f =>
    if r =? nil then Ok 0%Z
    else
      rc ← rd (rt h) r; lc ← rd (lf h) r;
      a ← recursive_size f h rc;
      b ← recursive_size f h lc;
      Ok (1 + a + b)%Z
  end.

(** src/ordered_map.c:853-887, src/realtime_ordered_map.c:1231-1267
    are_subtrees_valid; a NULL root is invalid in the pointer maps ([isnull]). *)
Fixpoint subtrees_valid (fuel : nat) (isnull : nat -> bool) (dat : gmap nat (K * V)) (h : links)
    (low root high : nat) : outcome bool :=
  match fuel with
  | 0 => Fuel
  | S f =>
    if isnull root then Ok false
    else if root =? nil then Ok true
    else
      a ← (if low =? nil then Ok true
           else kv ← value dat low; c ← cmpk dat (fst kv) root; Ok (match c with Lt => true | _ => false end));
      if negb a then Ok false
      else
        b ← (if high =? nil then Ok true
             else kv ← value dat high; c ← cmpk dat (fst kv) root; Ok (is_gt c));
        if negb b then Ok false
        else
          lc ← rd (lf h) root;
          x ← subtrees_valid f isnull dat h low lc root;
          if negb x then Ok false
          else rc ← rd (rt h) root; subtrees_valid f isnull dat h root rc high
  end.

(** src/ordered_map.c:901-917 is_duplicate_storing_parent,
    src/realtime_ordered_map.c:1269-1285 is_storing_parent. In the former
    child_tracks_parent (889-899) reads the parent of a wrong parent before
    giving up ([deref]). *)
Fixpoint storing_parent (deref : bool) (fuel : nat) (h : links) (parent root : nat) : outcome bool :=
  match fuel with
  | 0 => Fuel
  | S f =>
    if root =? nil then Ok true
    else
      p ← rd (pa h) root;
      if negb (p =? parent) then
        if deref then _ ← rd (pa h) p; Ok false else Ok false
      else
        lc ← rd (lf h) root;
        x ← storing_parent deref f h root lc;
        if negb x then Ok false
        else rc ← rd (rt h) root; storing_parent deref f h root rc
  end.
End model.
