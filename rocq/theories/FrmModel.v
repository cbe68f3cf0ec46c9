(** Model of src/flat_realtime_ordered_map.c: the WAVL tree of WavlModel.v in the
    slots of a buffer (FlatModel.v). Line numbers are those of
    flat_realtime_ordered_map.c. *)
From stdpp Require Import base numbers option gmap fin_maps list.
From Verif Require Import Common LinkHeap TreeModel WavlModel WavlNode FlatOps FlatModel.

Section model.
Context {K V : Type} (cmp : K -> K -> comparison) (alloc : bool).
Implicit Types (s : flat K V).

(** elem_in_slot(slot 0)->parity_ = 1: 194, 803, 1131. *)
Definition frm_seal s : outcome (flat K V) := t ← wparity (tr s) 0 true; Ok (set_tr s t).

(** struct frm_query_: last_cmp_ and found_, the parent if not found. *)
Definition query : Type := option comparison * nat.
(** CCC_EQL == q.last_cmp_ *)
Definition hit (q : query) : option nat := match q with (Some Eq, x) => Some x | _ => None end.

(** 700-717 find. The loop gets the steps that a balanced tree of the map's size
    needs. *)
Definition search s (k : K) : outcome query :=
  tree_find 0 (budget (Z.of_nat (sz s - 1))) cmp (dat s) (wl (tr s)) (wroot (tr s)) k.
Definition frm_find s (k : K) : outcome (flat K V * option nat * query) :=
  q ← search s k; Ok (s, hit q, q).

(** 656-677 insert: a size of 2 says that slot [n] is the only element. *)
Definition frm_link s (q : query) (n : nat) : outcome (flat K V * option nat) :=
  t ← attach 0 (budget (Z.of_nat (sz s - 2))) (tr s) (sz s =? 2) (snd q) (fst q) n;
  Ok (set_tr s t, Some n).

(** 1105-1135 swap_and_pop. ccc_buf_size_minus (src/buffer.c:324-337) stops at 0. *)
Definition frm_swap_and_pop s (v : nat) : outcome (flat K V) :=
  let s1 := set_sz s (sz s - 1) in
  if v =? sz s1 then Ok s1
  else
    s2 ← relocate s1 v;
    s3 ← frm_seal s2;
    t ← wparity (tr s3) (sz s1) false;
    h ← set_links (wl t) (sz s1) 0;
    Ok (set_tr s3 (with_links t h)).

(** 946-1007 remove_fixup: the answer is base_at(buf_.sz_). *)
Definition remove_fixup s (x : nat) : outcome (flat K V * nat) :=
  t ← unlink 0 (budget (Z.of_nat (sz s - 1))) (tr s) x;
  s1 ← frm_swap_and_pop (set_tr s t) x;
  Ok (s1, sz s1).

(** 155-164 contains. *)
Definition frm_contains s (k : K) : outcome (flat K V * bool) :=
  q ← search s k; Ok (s, match hit q with Some _ => true | None => false end).

(** 340-358 remove: the popped slot is copied to the user's struct. *)
Definition frm_remove s (u : user K V) : outcome (flat K V * fent * cell K V) :=
  q ← search s (fst (snd u));
  match hit q with
  | None => Ok (s, FEnt None false false, cell_of u)
  | Some x =>
    '(s1, n) ← remove_fixup s x;
    c ← read s1 n;
    Ok (s1, FEnt (Some Handle) true false, c)
  end.

Definition last_is (a : option comparison) (b : comparison) : bool :=
  match a, b with Some Eq, Eq | Some Lt, Lt | Some Gt, Gt => true | _, _ => false end.

(** 360-381 equal_range ([d] = true) and equal_rrange, 744-768 equal_range. The
    fields found_ and parent_ are one. *)
Definition frm_range s (d : bool) (a b : K) : outcome (flat K V * option nat * option nat) :=
  if flat_is_empty s then Ok (s, None, None)
  else
    let les_or_grt (d : bool) := if d then Gt else Lt in
    '(c, x) ← search s a;
    x' ← (if last_is c (les_or_grt d) then fnext s d x else Ok x);
    '(c', y) ← search s b;
    y' ← (if last_is c' (les_or_grt (negb d)) then Ok y else fnext s d y);
    Ok (s, Some x', Some y').

(** 1416-1437 validate. *)
Definition frm_validate s : outcome bool :=
  let h := wl (tr s) in
  let fuel := S (S (sz s + size (lf h))) in
  p ← (if sz s =? 0 then Ok true else parity (tr s) 0);
  if negb p then Ok false
  else
    a ← subtrees_valid cmp 0 fuel (fun _ => false) (dat s) h 0 (wroot (tr s)) 0;
    if negb a then Ok false
    else
      n ← recursive_size 0 fuel h (wroot (tr s));
      if negb (n =? 0)%Z && negb (n =? Z.of_nat (sz s) - 1)%Z then Ok false
      else storing_parent 0 false fuel h 0 (wroot (tr s)).

Definition frm_step : flat K V -> flat_op K V -> outcome (flat K V * flat_res K V) :=
  flat_step alloc frm_seal frm_find frm_link frm_contains frm_remove remove_fixup frm_range flat_clear frm_validate.
Definition frm_run : flat K V -> list (flat_op K V) -> outcome (flat K V * list (flat_res K V)) :=
  flat_run alloc frm_seal frm_find frm_link frm_contains frm_remove remove_fixup frm_range flat_clear frm_validate.
End model.
