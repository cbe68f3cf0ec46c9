(** Model of the WAVL tree maintenance shared by src/realtime_ordered_map.c
    (pointers, sentinel &rom->end_) and src/flat_realtime_ordered_map.c (slots of a
    buffer, sentinel slot 0). The two files contain the same code; line numbers
    are those of realtime_ordered_map.c, then those of the flat map. *)
From stdpp Require Import base numbers option gmap fin_maps list.
From Verif Require Import Common LinkHeap TreeModel.

(** The links of all live nodes, their parity bits, and the root. The parity is a
    uint8_t in C that only ever holds 0 or 1. *)
Record wavl : Type := Wavl { wl : links; wp : gmap nat bool; wroot : nat }.

Definition with_links (s : wavl) (h : links) : wavl := Wavl h (wp s) (wroot s).
Definition with_root (s : wavl) (r : nat) : wavl := Wavl (wl s) (wp s) r.

Definition child (s : wavl) (d : bool) (x : nat) : outcome nat := rd (br (wl s) d) x.
Definition up (s : wavl) (x : nat) : outcome nat := rd (pa (wl s)) x.
Definition wchild (s : wavl) (d : bool) (x q : nat) : outcome wavl :=
  h ← wbr (wl s) d x q; Ok (with_links s h).
Definition wup (s : wavl) (x q : nat) : outcome wavl :=
  h ← wpa (wl s) x q; Ok (with_links s h).
Definition parity (s : wavl) (x : nat) : outcome bool :=
  match wp s !! x with Some b => Ok b | None => UB end.
Definition wparity (s : wavl) (x : nat) (b : bool) : outcome wavl :=
  _ ← parity s x; Ok (Wavl (wl s) (<[x := b]> (wp s)) (wroot s)).

Section model.
Context (nil : nat).

(** 1059-1106, 1211-1253: is_0_child and is_2_child are the same function, as are
    is_1_child and is_3_child. *)
Definition even_child (s : wavl) (p x : nat) : outcome bool :=
  if p =? nil then Ok false
  else a ← parity s p; b ← parity s x; Ok (Bool.eqb a b).
Definition odd_child (s : wavl) (p x : nat) : outcome bool :=
  if p =? nil then Ok false
  else a ← parity s p; b ← parity s x; Ok (negb (Bool.eqb a b)).

(** 1113-1121 is_01_parent, 1260-1267. *)
Definition is_01_parent (s : wavl) (x p y : nat) : outcome bool :=
  _ ← oassert (negb (p =? nil));
  a ← parity s x; b ← parity s p; c ← parity s y;
  Ok (negb a && negb b && c || a && b && negb c).

(** 1128-1136 is_11_parent, 1274-1281. *)
Definition is_11_parent (s : wavl) (x p y : nat) : outcome bool :=
  _ ← oassert (negb (p =? nil));
  a ← parity s x; b ← parity s p; c ← parity s y;
  Ok (negb a && b && negb c || a && negb b && c).

(** 1143-1170 is_02_parent and is_22_parent are the same function; 1288-1312. *)
Definition even_parent (s : wavl) (x p y : nat) : outcome bool :=
  _ ← oassert (negb (p =? nil));
  a ← parity s x; b ← parity s p; c ← parity s y;
  Ok (Bool.eqb a b && Bool.eqb b c).

(** 1172-1185 promote and demote, 1314-1327. The functions double_promote and
    double_demote do nothing. *)
Definition promote (s : wavl) (x : nat) : outcome wavl :=
  if x =? nil then Ok s else b ← parity s x; wparity s x (negb b).
Definition demote (s : wavl) (x : nat) : outcome wavl := promote s x.

(** 1195-1200 is_leaf, 1337-1341. *)
Definition is_leaf (s : wavl) (x : nat) : outcome bool :=
  l ← child s false x; r ← child s true x; Ok ((l =? nil) && (r =? nil)).

(** 1202-1209 sibling_of, 1343-1350. *)
Definition sibling_of (s : wavl) (x : nat) : outcome nat :=
  p ← up s x;
  _ ← oassert (negb (p =? nil));
  l ← child s false p;
  child s (l =? x) p.

(** The common part of rotate, double_rotate and transplant: [new] takes the place
    of [old] below [p]; 967-975, 999-1007, 1036-1044 and 1016-1024, 1154-1163,
    1189-1199. *)
Definition replace_child (s : wavl) (p old new : nat) : outcome wavl :=
  if p =? nil then Ok (with_root s new)
  else r ← child s true p; wchild s (r =? old) p new.

(** 992-1012 rotate, 1146-1168. *)
Definition rotate (s : wavl) (z x y : nat) (dir : bool) : outcome wavl :=
  _ ← oassert (negb (z =? nil));
  p ← up s z;
  s1 ← wup s x p;
  s2 ← replace_child s1 p z x;
  s3 ← wchild s2 dir x z;
  s4 ← wup s3 z x;
  s5 ← wchild s4 (negb dir) z y;
  wup s5 y z.

(** 1025-1053 double_rotate, 1181-1209. *)
Definition double_rotate (s : wavl) (z x y : nat) (dir : bool) : outcome wavl :=
  _ ← oassert (negb (z =? nil) && negb (x =? nil) && negb (y =? nil));
  p ← up s z;
  s1 ← wup s y p;
  s2 ← replace_child s1 p z y;
  b ← child s2 dir y;
  s3 ← wchild s2 (negb dir) x b;
  b' ← child s3 dir y;
  s4 ← wup s3 b' x;
  s5 ← wchild s4 dir y x;
  s6 ← wup s5 x y;
  c ← child s6 (negb dir) y;
  s7 ← wchild s6 dir z c;
  c' ← child s7 (negb dir) y;
  s8 ← wup s7 c' z;
  s9 ← wchild s8 (negb dir) y z;
  wup s9 z y.

(** The loop of 785-821 insert_fixup (790-801), 909-944 (913-923). The result is
    the nodes x and z at its end unless the loop returned from the function. *)
Fixpoint insert_climb (fuel : nat) (s : wavl) (z : nat) : outcome (wavl * option (nat * nat)) :=
  match fuel with
  | 0 => Fuel
  | S f =>
    s1 ← promote s z;
    let x := z in
    p ← up s1 x;
    if p =? nil then Ok (s1, None)
    else
      y ← sibling_of s1 x;
      b ← is_01_parent s1 x p y;
      if (b : bool) then insert_climb f s1 p else Ok (s1, Some (x, p))
  end.

(** The most iterations a loop is given. The maps give a number logarithmic in
    their size, so that a result other than Fuel is also a statement about time. *)
Context (steps : nat).

(** 785-821 insert_fixup, 909-944. The initial value of x is not used. *)
Definition insert_fixup (s : wavl) (z : nat) : outcome wavl :=
  '(s1, o) ← insert_climb steps s z;
  match o with
  | None => Ok s1
  | Some (x, z) =>
    sib ← sibling_of s1 x;
    b ← even_parent s1 x z sib;
    if negb b then Ok s1
    else
      _ ← oassert (negb (x =? nil));
      e ← even_child s1 z x;
      _ ← oassert e;
      r ← child s1 true z;
      let dir := r =? x in
      y ← child s1 (negb dir) x;
      two ← (if y =? nil then Ok true else even_child s1 z y);
      if (two : bool) then
        s2 ← rotate s1 z x y (negb dir);
        demote s2 z
      else
        one ← odd_child s1 z y;
        _ ← oassert one;
        s2 ← double_rotate s1 z x y dir;
        s3 ← promote s2 y;
        s4 ← demote s3 x;
        demote s4 z
  end.

(** 889-958 rebalance_3_child, 1034-1102: the part that rotates and returns,
    911-953. *)
Definition rotate_3_child (s : wavl) (z x y : nat) : outcome wavl :=
  o ← odd_child s z x;
  _ ← oassert o;
  r ← child s true z;
  let dir := r =? x in
  w ← child s (negb dir) y;
  one ← odd_child s y w;
  if (one : bool) then
    v ← child s dir y;
    s1 ← rotate s z y v dir;
    s2 ← promote s1 y;
    s3 ← demote s2 z;
    l ← is_leaf s3 z;
    if (l : bool) then demote s3 z else Ok s3
  else
    v ← child s dir y;
    e ← even_child s y w;
    _ ← oassert e;
    o ← odd_child s y v;
    _ ← oassert o;
    s1 ← double_rotate s z y v (negb dir);
    s2 ← demote s1 y;
    lz ← is_leaf s2 z;
    pz ← (if (lz : bool) then Ok false
          else a ← child s2 false z; b ← child s2 true z; is_11_parent s2 a z b);
    if (pz : bool) then promote s2 z
    else
      ly ← is_leaf s2 y;
      py ← (if (ly : bool) then Ok false
            else a ← child s2 false y; b ← child s2 true y; is_11_parent s2 a y b);
      if (py : bool) then promote s2 y else Ok s2.

Fixpoint rebalance_3_child (fuel : nat) (s : wavl) (z x : nat) : outcome wavl :=
  match fuel with
  | 0 => Fuel
  | S f =>
    _ ← oassert (negb (z =? nil));
    p ← up s z;
    l ← child s false z;
    y ← child s (l =? x) z;
    made_3_child ← even_child s p z;
    two ← even_child s z y;
    '(s1, stop) ←
      (if (two : bool) then s1 ← demote s z; Ok (s1, false)
       else
         yl ← child s false y;
         yr ← child s true y;
         b ← even_parent s yl y yr;
         if (b : bool) then s1 ← demote s z; s2 ← demote s1 y; Ok (s2, false)
         else s1 ← rotate_3_child s z x y; Ok (s1, true));
    if (stop : bool) then Ok s1
    else if negb (p =? nil) && made_3_child then rebalance_3_child f s1 p z
    else Ok s1
  end.
Definition rebalance (s : wavl) (z x : nat) : outcome wavl :=
  rebalance_3_child steps s z x.

(** 960-981 transplant, 1009-1032. *)
Definition transplant (s : wavl) (remove replacement : nat) : outcome wavl :=
  _ ← oassert (negb (remove =? nil));
  _ ← oassert (negb (replacement =? nil));
  p ← up s remove;
  s1 ← wup s replacement p;
  p ← up s1 remove;
  s2 ← replace_child s1 p remove replacement;
  r ← child s2 true remove;
  s3 ← wup s2 r replacement;
  l ← child s3 false remove;
  s4 ← wup s3 l replacement;
  r ← child s4 true remove;
  s5 ← wchild s4 true replacement r;
  l ← child s5 false remove;
  s6 ← wchild s5 false replacement l;
  b ← parity s6 remove;
  wparity s6 replacement b.

(** The part of remove_fixup common to its two cases, 834-841 and 847-855, and
    954-961 and 967-976: [y], which has at most one child, is taken out. The
    result is x, the parent of x and y, and two_child. *)
Definition splice (s : wavl) (y : nat) : outcome (wavl * nat * nat * bool) :=
  p ← up s y;
  l ← child s false y;
  x ← child s (l =? nil) y;
  s1 ← wup s x p;
  let s2 := if p =? nil then with_root s1 x else s1 in
  two ← even_child s2 p y;
  r ← child s2 true p;
  s3 ← wchild s2 (r =? y) p x;
  Ok (s3, x, p, two).

(** 863-882 of remove_fixup, 985-1004: the rebalancing. *)
Definition settle (s : wavl) (x p : nat) (two : bool) : outcome wavl :=
  if p =? nil then Ok s
  else
    s1 ← (if two then rebalance s p x
          else
            a ← child s false p; b ← child s true p;
            if (x =? nil) && (a =? b) then
              pp ← up s p;
              three ← even_child s pp p;
              s1 ← demote s p;
              if (three : bool) then q ← up s1 p; rebalance s1 q p else Ok s1
            else Ok s);
    leaf ← is_leaf s1 p;
    b ← parity s1 p;
    _ ← oassert (negb leaf || negb b);
    Ok s1.

(** 823-887 remove_fixup, 946-1007, without what follows the rebalancing. The
    second case asserts that the parent is not the sentinel in place of setting the
    root. *)
Definition unlink (s : wavl) (remove : nat) : outcome wavl :=
  l ← child s false remove;
  r ← child s true remove;
  '(s1, x, p, two) ←
    (if (l =? nil) || (r =? nil) then splice s remove
     else
       y ← edge nil (wl s) false r;
       p0 ← up s y;
       _ ← oassert (negb (p0 =? nil));
       '(s1, x, p, two) ← splice s y;
       s2 ← transplant s1 remove y;
       Ok (s2, x, if remove =? p then y else p, two));
  settle s1 x p two.

(** 612-635 insert, 656-677, with 725-732 init_node, 808-814; without the counting.
    [c] is the last comparison of the search that ended at [parent]; [first] says
    that the map was empty. *)
Definition attach (s : wavl) (first : bool) (parent : nat) (c : option comparison) (e : nat)
  : outcome wavl :=
  h ← set_links (wl s) e nil;
  s1 ← wparity (with_links s h) e false;
  if first then Ok (with_root s1 e)
  else
    d ← match c with Some Gt => Ok true | Some Lt => Ok false | _ => UB end;
    l ← child s1 false parent;
    r ← child s1 true parent;
    s2 ← wchild s1 d parent e;
    s3 ← wup s2 e parent;
    if (l =? nil) && (r =? nil) then insert_fixup s3 parent else Ok s3.

(** 656-674 find, 700-717. The last comparison is None for CCC_CMP_ERR. *)
Context {K V : Type} (cmp : K -> K -> comparison).
Fixpoint find_loop (fuel : nat) (dat : gmap nat (K * V)) (h : links) (k : K)
    (parent found : nat) (last : option comparison) : outcome (option comparison * nat) :=
  match fuel with
  | 0 => Fuel
  | S f =>
    if found =? nil then Ok (last, parent)
    else
      c ← cmpk cmp dat k found;
      if is_eq c then Ok (Some c, found)
      else n ← rd (br h (is_gt c)) found; find_loop f dat h k found n (Some c)
  end.
Definition tree_find (dat : gmap nat (K * V)) (h : links) (root : nat) (k : K)
  : outcome (option comparison * nat) :=
  find_loop steps dat h k nil root None.
End model.

(** The iterations that loops get in a map of [n] elements, about 2 log2 (n + 1). *)
Definition budget (n : Z) : nat := let m := S (Z.to_nat n) in S (Nat.log2 (m * m)).
