(** What the splay tree maps do besides splaying: src/ordered_map.c,
    src/flat_ordered_map.c, src/ordered_multimap.c. Line numbers are those of
    flat_ordered_map.c unless stated otherwise; the assignments to t->root_ are
    made by the callers. *)
From stdpp Require Import base numbers option gmap fin_maps list.
From Verif Require Import Common LinkHeap TreeModel.

Section model.
Context {K V : Type} (cmp : K -> K -> comparison) (nil : nat).

(** 735-747 connect_new_root. The multimap (src/ordered_multimap.c:859-871) has
    the same code over its own link_trees: [link] is the one in use. *)
Definition graft_by (link : links -> nat -> bool -> nat -> outcome links)
    (h : links) (root new_root : nat) (c : comparison) : outcome links :=
  let d := is_gt c in
  b ← rd (br h d) root;
  h1 ← link h new_root d b;
  h2 ← link h1 new_root (negb d) root;
  h3 ← wbr h2 d root nil;
  link h3 nil false new_root.
Definition graft : links -> nat -> nat -> comparison -> outcome links := graft_by link_trees.

(** 718-733 remove_from_tree, src/ordered_multimap.c:1071-1085: the new root is
    returned. *)
Definition detach_by (link : links -> nat -> bool -> nat -> outcome links)
    (dat : gmap nat (K * V)) (h : links) (ret : nat) : outcome (links * nat) :=
  l ← rd (lf h) ret;
  if l =? nil then
    r ← rd (rt h) ret;
    h1 ← link h nil false r;
    Ok (h1, r)
  else
    kv ← value dat ret;
    '(h1, x) ← splay_by nil link (cmpk cmp dat (fst kv)) h l;
    r ← rd (rt h1) ret;
    h2 ← link h1 x true r;
    Ok (h2, x).
Definition detach : gmap nat (K * V) -> links -> nat -> outcome (links * nat) := detach_by link_trees.
End model.
