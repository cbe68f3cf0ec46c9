(** The searches and walks of the two realtime ordered maps with a count of their
    work: each function is the one of the same name in WavlModel.v, RomModel.v,
    FlatModel.v or FrmModel.v with nothing but the count added, see WavlCostErase.v.
    [turns] counts calls of the user's comparison function, [hops] iterations of the
    loops that follow links from node to node. *)
From stdpp Require Import base numbers option gmap fin_maps list.
From Verif Require Import Common LinkHeap TreeModel WavlModel MapOps RomModel FlatModel FrmModel CostModel.

Section search.
Context (nil : nat) {K V : Type} (cmp : K -> K -> comparison).

Fixpoint find_loop_c (fuel : nat) (dat : gmap nat (K * V)) (h : links) (k : K)
    (parent found : nat) (last : option comparison) : counted (option comparison * nat) :=
  match fuel with
  | 0 => Fuel
  | S f =>
    if found =? nil then still (last, parent)
    else
      c ← cmpk cmp dat k found;
      if is_eq c then Ok ((Some c, found), Work 1 0)
      else
        n ← rd (br h (is_gt c)) found;
        '(r, w) ← find_loop_c f dat h k found n (Some c);
        Ok (r, add_work (Work 1 0) w)
  end.
End search.

Section rom.
Context {K V : Type} (cmp : K -> K -> comparison).
Local Notation rom := (rom K V).

Definition find_c (s : rom) (k : K) : counted (option comparison * nat) :=
  find_loop_c nil cmp (budget (RomModel.sz s)) (RomModel.dat s) (wl (RomModel.tr s)) k nil (wroot (RomModel.tr s)) None.

Definition rom_begin_c (s : rom) (d : bool) : counted nat :=
  let start := wroot (RomModel.tr s) in
  m ⇐ (if start =? nil then still start else hopping (edge_c nil (wl (RomModel.tr s)) (negb d) start));
  still (if m =? nil then 0 else m).

Definition rnext_c (s : rom) (d : bool) (n : nat) : counted nat :=
  if (n =? 0) || (n =? nil) then still nil
  else hopping (tree_next_c nil (wl (RomModel.tr s)) (wroot (RomModel.tr s)) d n).

Definition rom_next_c (s : rom) (d : bool) (e : nat) : counted nat :=
  if e =? 0 then still 0
  else n ⇐ rnext_c s d e; still (if n =? nil then 0 else n).

Definition rom_range_c (s : rom) (d : bool) (a b : K) : counted (nat * nat) :=
  if (RomModel.sz s =? 0)%Z then still (0, 0)
  else
    let les_or_grt (d : bool) := if d then Gt else Lt in
    '(c, x) ⇐ find_c s a;
    x' ⇐ (if RomModel.last_is c (les_or_grt d) then rnext_c s d x else still x);
    '(c', y) ⇐ find_c s b;
    y' ⇐ (if RomModel.last_is c' (les_or_grt (negb d)) then still y else rnext_c s d y);
    still (if x' =? nil then 0 else x', if y' =? nil then 0 else y').

Fixpoint rom_walk_c (fuel : nat) (s : rom) (d : bool) (e : nat) : counted (list (nat * (K * V))) :=
  match fuel with
  | 0 => Fuel
  | S f =>
    if e =? 0 then still []
    else
      kv ← value (RomModel.dat s) e;
      e' ⇐ rom_next_c s d e;
      l ⇐ rom_walk_c f s d e';
      still ((e, kv) :: l)
  end.
Definition rom_iter_c (s : rom) (d : bool) : counted (list (nat * (K * V))) :=
  e ⇐ rom_begin_c s d; rom_walk_c (S (S (size (lf (wl (RomModel.tr s)))))) s d e.
End rom.

Section frm.
Context {K V : Type} (cmp : K -> K -> comparison).
Local Notation flat := (flat K V).

Definition search_c (s : flat) (k : K) : counted (option comparison * nat) :=
  find_loop_c 0 cmp (budget (Z.of_nat (sz s - 1))) (dat s) (wl (tr s)) k 0 (wroot (tr s)) None.

Definition flat_begin_c (s : flat) (d : bool) : counted nat :=
  if sz s =? 0 then still 0
  else if wroot (tr s) =? 0 then still 0 else hopping (edge_c 0 (wl (tr s)) (negb d) (wroot (tr s))).

Definition fnext_c (s : flat) (d : bool) (n : nat) : counted nat :=
  if n =? 0 then still 0 else hopping (tree_next_c 0 (wl (tr s)) (wroot (tr s)) d n).

Definition flat_next_c (s : flat) (d : bool) (i : nat) : counted nat :=
  if sz s =? 0 then still 0 else fnext_c s d i.

Definition frm_range_c (s : flat) (d : bool) (a b : K) : counted (flat * option nat * option nat) :=
  if flat_is_empty s then still (s, None, None)
  else
    let les_or_grt (d : bool) := if d then Gt else Lt in
    '(c, x) ⇐ search_c s a;
    x' ⇐ (if FrmModel.last_is c (les_or_grt d) then fnext_c s d x else still x);
    '(c', y) ⇐ search_c s b;
    y' ⇐ (if FrmModel.last_is c' (les_or_grt (negb d)) then still y else fnext_c s d y);
    still (s, Some x', Some y').

Fixpoint flat_walk_c (fuel : nat) (s : flat) (d : bool) (e : nat) : counted (list (nat * (K * V))) :=
  match fuel with
  | 0 => Fuel
  | S f =>
    if e =? 0 then still []
    else
      kv ← value (dat s) e;
      e' ⇐ flat_next_c s d e;
      l ⇐ flat_walk_c f s d e';
      still ((e, kv) :: l)
  end.
Definition flat_iter_c (s : flat) (d : bool) : counted (list (nat * (K * V))) :=
  e ⇐ flat_begin_c s d; flat_walk_c (S (S (sz s))) s d e.
End frm.
