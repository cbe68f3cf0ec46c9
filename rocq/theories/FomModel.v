(** Model of src/flat_ordered_map.c: a splay tree in the slots of a buffer
    (FlatModel.v). Line numbers are those of flat_ordered_map.c. The parity of
    the nodes is not used. *)
From stdpp Require Import base numbers option gmap fin_maps list.
From Verif Require Import Common LinkHeap TreeModel SplayModel WavlModel WavlNode FlatOps FlatModel.

Section model.
Context {K V : Type} (cmp : K -> K -> comparison) (alloc : bool).
Implicit Types (s : flat K V).

(** Slot 0 needs no preparation. *)
Definition fom_seal s : outcome (flat K V) := Ok s.

Definition set_links_root s (h : links) (r : nat) : flat K V := set_tr s (Wavl h (wp (tr s)) r).

(** 762-807 splay, storing t->root_. *)
Definition splay_f s (root : nat) (k : K) : outcome (flat K V * nat) :=
  '(h, r) ← splay cmp 0 (dat s) (wl (tr s)) root k; Ok (set_links_root s h r, r).

(** 749-760 find. An entry remembers nothing but the slot. *)
Definition fom_find s (k : K) : outcome (flat K V * option nat * unit) :=
  if wroot (tr s) =? 0 then Ok (s, None, tt)
  else
    '(s1, r) ← splay_f s (wroot (tr s)) k;
    c ← cmpk cmp (dat s1) k r;
    Ok (s1, if is_eq c then Some r else None, tt).

(** 649-667 insert: a size of 2 says that slot [n] is the only element. *)
Definition fom_link s (_ : unit) (n : nat) : outcome (flat K V * option nat) :=
  h ← set_links (wl (tr s)) n 0;
  if sz s =? 2 then Ok (set_links_root s h n, Some n)
  else
    kv ← value (dat s) n;
    '(s1, r) ← splay_f (set_tr s (with_links (tr s) h)) (wroot (tr s)) (fst kv);
    c ← cmpk cmp (dat s1) (fst kv) r;
    if is_eq c then Ok (s1, None)
    else
      h1 ← graft 0 (wl (tr s1)) r n c;
      Ok (set_links_root s1 h1 n, Some n).

(** 687-716 swap_and_pop. ccc_buf_size_minus (src/buffer.c:324-337) stops at 0. *)
Definition fom_swap_and_pop s (v : nat) : outcome (flat K V) :=
  let s1 := set_sz s (sz s - 1) in
  if v =? sz s1 then Ok s1
  else
    s2 ← relocate s1 v;
    h ← set_links (wl (tr s2)) (sz s1) 0;
    Ok (set_tr s2 (with_links (tr s2) h)).

(** 669-685 erase: the answer is base_at(buf_.sz_) or NULL. *)
Definition fom_erase s (k : K) : outcome (flat K V * option nat) :=
  if flat_is_empty s then Ok (s, None)
  else
    '(s1, x) ← splay_f s (wroot (tr s)) k;
    c ← cmpk cmp (dat s1) k x;
    if negb (is_eq c) then Ok (s1, None)
    else
      '(h, r) ← detach cmp 0 (dat s1) (wl (tr s1)) x;
      s2 ← fom_swap_and_pop (set_links_root s1 h r) x;
      Ok (s2, Some (sz s2)).

(** 99-108 contains: the map is not tested for emptiness. *)
Definition fom_contains s (k : K) : outcome (flat K V * bool) :=
  '(s1, r) ← splay_f s (wroot (tr s)) k;
  c ← cmpk cmp (dat s1) k r;
  Ok (s1, is_eq c).

(** 271-285 remove: the user's struct is not written. *)
Definition fom_remove s (u : user K V) : outcome (flat K V * fent * cell K V) :=
  '(s1, o) ← fom_erase s (fst (snd u));
  Ok (s1, match o with Some n => FEnt (Some (Slot n)) true false | None => FEnt None false false end, cell_of u).

(** 287-302 remove_entry of an occupied entry, with its assertion. *)
Definition fom_remove_at s (x : nat) : outcome (flat K V * nat) :=
  kv ← value (dat s) x;
  '(s1, o) ← fom_erase s (fst kv);
  match o with Some n => Ok (s1, n) | None => UB end.

Definition cmp_is (a b : comparison) : bool :=
  match a, b with Eq, Eq | Lt, Lt | Gt, Gt => true | _, _ => false end.

(** 433-455 equal_range ([d] = true) and equal_rrange, 585-613 equal_range. *)
Definition fom_range s (d : bool) (a b : K) : outcome (flat K V * option nat * option nat) :=
  if flat_is_empty s then Ok (s, None, None)
  else
    let les_or_grt (d : bool) := if d then Gt else Lt in
    '(s1, x) ← splay_f s (wroot (tr s)) a;
    c ← cmpk cmp (dat s1) a x;
    x' ← (if cmp_is c (les_or_grt d) then fnext s1 d x else Ok x);
    '(s2, y) ← splay_f s1 (wroot (tr s1)) b;
    c' ← cmpk cmp (dat s2) b y;
    y' ← (if cmp_is c' (les_or_grt (negb d)) then Ok y else fnext s2 d y);
    Ok (s2, Some x', Some y').

(** 491-512 clear: the answer of ccc_buf_size_set is dropped. *)
Definition fom_clear s (fn : bool) : outcome (flat K V * result * list (nat * (K * V))) :=
  '(s1, _, l) ← flat_clear s fn; Ok (s1, OK, l).

(** 1030-1047 validate. *)
Definition fom_validate s : outcome bool :=
  let h := wl (tr s) in
  let fuel := S (S (sz s + size (lf h))) in
  a ← subtrees_valid cmp 0 fuel (fun _ => false) (dat s) h 0 (wroot (tr s)) 0;
  if negb a then Ok false
  else
    n ← recursive_size 0 fuel h (wroot (tr s));
    if negb (n =? 0)%Z && negb (n =? Z.of_nat (sz s) - 1)%Z then Ok false
    else storing_parent 0 false fuel h 0 (wroot (tr s)).

Definition fom_step : flat K V -> flat_op K V -> outcome (flat K V * flat_res K V) :=
  flat_step alloc fom_seal fom_find fom_link fom_contains fom_remove fom_remove_at fom_range fom_clear fom_validate.
Definition fom_run : flat K V -> list (flat_op K V) -> outcome (flat K V * list (flat_res K V)) :=
  flat_run alloc fom_seal fom_find fom_link fom_contains fom_remove fom_remove_at fom_range fom_clear fom_validate.
End model.
