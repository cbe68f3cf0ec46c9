(** Model of the singly linked list, src/singly_linked_list.c. *)
From stdpp Require Import base numbers option gmap fin_maps list.
From Verif Require Import Common LinkHeap.

Section model.
Context {V : Type}.

(** Memory shared by any number of lists. A list is named by the address of its
    sentinel. [nx] is the field n_ of every live node and sentinel, [dat] the
    user data of every live node, [sz] and [al] the fields sz_ and alloc_
    (present or not) of the lists. Simplification: sizes are integers that do
    not wrap; struct_base and elem_in are the identity. *)
Record smem : Type := SMem { nx : fld; dat : gmap nat V; sz : gmap nat Z; al : gmap nat bool }.

Definition with_nx (s : smem) (m : fld) : smem := SMem m (dat s) (sz s) (al s).
Definition get_sz (s : smem) (l : nat) : outcome Z :=
  match sz s !! l with Some n => Ok n | None => UB end.
Definition add_sz (s : smem) (l : nat) (d : Z) : outcome smem :=
  n ← get_sz s l; Ok (SMem (nx s) (dat s) (<[l := (n + d)%Z]> (sz s)) (al s)).
Definition has_alloc (s : smem) (l : nat) : outcome bool :=
  match al s !! l with Some b => Ok b | None => UB end.

(** alloc_(ptr, 0, aux): the node is no longer live. Freeing what is not a live
    node is undefined. *)
Definition free (s : smem) (p : nat) : outcome smem :=
  match dat s !! p with
  | Some _ => Ok (SMem (delete p (nx s)) (delete p (dat s)) (sz s) (al s))
  | None => UB
  end.

(** alloc_(NULL, elem_sz_, aux) returned [p], then memcpy of the user's struct
    at [e], links included (lines 42-43). *)
Definition alloc_copy (s : smem) (p e : nat) : outcome smem :=
  match dat s !! e with
  | Some v => n ← rd (nx s) e; Ok (SMem (<[p := n]> (nx s)) (<[p := v]> (dat s)) (sz s) (al s))
  | None => UB
  end.

(** src/singly_linked_list.c:301-307 push_front. *)
Definition push_front (s : smem) (l e : nat) : outcome smem :=
  h ← rd (nx s) l;
  m1 ← wr (nx s) e h;
  m2 ← wr m1 l e;
  add_sz (with_nx s m2) l 1.

(** src/singly_linked_list.c:309-317 pop_front. *)
Definition pop_front (s : smem) (l : nat) : outcome (smem * nat) :=
  r ← rd (nx s) l;
  n ← rd (nx s) r;
  m1 ← wr (nx s) l n;
  m2 ← wr m1 r 0;
  s1 ← add_sz (with_nx s m2) l (-1);
  Ok (s1, r).

(** src/singly_linked_list.c:319-327 before. *)
Fixpoint before_loop (fuel : nat) (m : fld) (i to_find : nat) : outcome nat :=
  match fuel with
  | 0 => Fuel
  | S f => n ← rd m i; if n =? to_find then Ok i else before_loop f m n to_find
  end.
Definition before (s : smem) (l to_find : nat) : outcome nat :=
  before_loop (S (size (nx s))) (nx s) l to_find.

(** src/singly_linked_list.c:359-369 len; [sll] only serves the assertion. *)
Fixpoint len_loop (fuel : nat) (m : fld) (n : Z) (begin end_ : nat) (c : Z) : outcome Z :=
  if begin =? end_ then Ok c
  else match fuel with
  | 0 => Fuel
  | S f => _ ← oassert (c <=? n)%Z; nb ← rd m begin; len_loop f m n nb end_ (c + 1)
  end.
Definition len (s : smem) (l begin end_ : nat) : outcome Z :=
  n ← get_sz s l; len_loop (S (size (nx s))) (nx s) n begin end_ 1.

(** src/singly_linked_list.c:30-48 ccc_sll_push_front; [ans] is the allocator's
    answer, used only if there is an allocator. *)
Definition sll_push_front (s : smem) (l e ans : nat) : outcome (smem * nat) :=
  if (l =? 0) || (e =? 0) then Ok (s, 0)
  else
    a ← has_alloc s l;
    if (a : bool) then
      if ans =? 0 then Ok (s, 0)
      else
        s1 ← alloc_copy s ans e;
        s2 ← push_front s1 l ans;
        r ← rd (nx s2) l;
        Ok (s2, r)
    else
      s2 ← push_front s l e;
      r ← rd (nx s2) l;
      Ok (s2, r).

(** src/singly_linked_list.c:50-58 ccc_sll_front, 211-219 ccc_sll_begin. *)
Definition sll_front (s : smem) (l : nat) : outcome nat :=
  if l =? 0 then Ok 0 else n ← rd (nx s) l; Ok (if n =? l then 0 else n).

(** src/singly_linked_list.c:227-236 ccc_sll_next. *)
Definition sll_next (s : smem) (l e : nat) : outcome nat :=
  if (l =? 0) || (e =? 0) then Ok 0
  else n ← rd (nx s) e; Ok (if n =? l then 0 else n).

(** src/singly_linked_list.c:72-85 ccc_sll_pop_front. *)
Definition sll_pop_front (s : smem) (l : nat) : outcome (smem * result) :=
  if l =? 0 then Ok (s, INPUT_ERR)
  else
    n ← get_sz s l;
    if (n =? 0)%Z then Ok (s, INPUT_ERR)
    else
      '(s1, r) ← pop_front s l;
      a ← has_alloc s1 l;
      if (a : bool) then s2 ← free s1 r; Ok (s2, OK) else Ok (s1, OK).

(** src/singly_linked_list.c:87-110 ccc_sll_splice. *)
Definition sll_splice (s : smem) (pl pos cl e : nat) : outcome (smem * result) :=
  if (pl =? 0) || (pos =? 0) || (e =? 0) || (cl =? 0) then Ok (s, INPUT_ERR)
  else if e =? pos then Ok (s, OK)
  else
    pn ← rd (nx s) pos;
    if pn =? e then Ok (s, OK)
    else
      b ← before s cl e;
      en ← rd (nx s) e;
      m1 ← wr (nx s) b en;
      pn1 ← rd m1 pos;
      m2 ← wr m1 e pn1;
      m3 ← wr m2 pos e;
      let s1 := with_nx s m3 in
      if pl =? cl then Ok (s1, OK)
      else s2 ← add_sz s1 cl (-1); s3 ← add_sz s2 pl 1; Ok (s3, OK).

(** src/singly_linked_list.c:112-143 ccc_sll_splice_range. *)
Definition sll_splice_range (s : smem) (pl pos cl begin end_ : nat) : outcome (smem * result) :=
  if (pl =? 0) || (pos =? 0) || (begin =? 0) || (end_ =? 0) || (cl =? 0) then Ok (s, INPUT_ERR)
  else if (begin =? pos) || (end_ =? pos) then Ok (s, OK)
  else
    pn ← rd (nx s) pos;
    if pn =? begin then Ok (s, OK)
    else if begin =? end_ then '(s1, _) ← sll_splice s pl pos cl begin; Ok (s1, OK)
    else
      b ← before s cl begin;
      en ← rd (nx s) end_;
      m1 ← wr (nx s) b en;
      pn1 ← rd m1 pos;
      m2 ← wr m1 end_ pn1;
      m3 ← wr m2 pos begin;
      let s1 := with_nx s m3 in
      if pl =? cl then Ok (s1, OK)
      else
        n ← len s1 cl begin end_;
        s2 ← add_sz s1 cl (- n);
        s3 ← add_sz s2 pl n;
        Ok (s3, OK).

(** src/singly_linked_list.c:145-161 ccc_sll_erase, 180-192 ccc_sll_extract
    (the latter with [fr] false: no free). *)
Definition sll_remove (fr : bool) (s : smem) (l e : nat) : outcome (smem * nat) :=
  if (l =? 0) || (e =? 0) then Ok (s, 0)
  else
    n ← get_sz s l;
    if (n =? 0)%Z || (e =? l) then Ok (s, 0)
    else
      ret ← rd (nx s) e;
      b ← before s l e;
      m1 ← wr (nx s) b ret;
      m2 ← wr m1 e 0;
      let s1 := with_nx s m2 in
      a ← has_alloc s1 l;
      s2 ← (if fr && a then free s1 e else Ok s1);
      s3 ← add_sz s2 l (-1);
      Ok (s3, if ret =? l then 0 else ret).

(** src/singly_linked_list.c:338-357 erase_range, freeing half. *)
Fixpoint free_range (fuel : nat) (s : smem) (n : Z) (begin end_ : nat) (c : Z) : outcome (smem * Z) :=
  if begin =? end_ then s1 ← free s end_; Ok (s1, c)
  else match fuel with
  | 0 => Fuel
  | S f =>
    _ ← oassert (c <=? n)%Z;
    nb ← rd (nx s) begin;
    s1 ← free s begin;
    free_range f s1 n nb end_ (c + 1)
  end.

(** src/singly_linked_list.c:163-178 ccc_sll_erase_range with 338-357, and
    194-209 ccc_sll_extract_range with 329-336 ([fr] false). *)
Definition sll_remove_range (fr : bool) (s : smem) (l begin end_ : nat) : outcome (smem * nat) :=
  if (l =? 0) || (begin =? 0) || (end_ =? 0) then Ok (s, 0)
  else
    n ← get_sz s l;
    if (n =? 0)%Z || (begin =? l) || (end_ =? l) then Ok (s, 0)
    else
      ret ← rd (nx s) end_;
      b ← before s l begin;
      m1 ← wr (nx s) b ret;
      let s1 := with_nx s m1 in
      a ← has_alloc s1 l;
      '(s2, c) ←
        (if fr && a then free_range (S (size m1)) s1 n begin end_ 1
         else
           c ← len s1 l begin end_;
           m2 ← wr (nx s1) end_ 0;
           Ok (with_nx s1 m2, c));
      _ ← oassert (c <=? n)%Z;
      s3 ← add_sz s2 l (- c);
      Ok (s3, if ret =? l then 0 else ret).

(** src/singly_linked_list.c:238-258 ccc_sll_clear; the list returned is the
    sequence of destructor calls, each with the address and data handed over
    ([fn] false: no destructor). *)
Fixpoint clear_loop (fuel : nat) (s : smem) (l : nat) (fn : bool)
  : outcome (smem * list (nat * option V)) :=
  n ← get_sz s l;
  if (n =? 0)%Z then Ok (s, [])
  else match fuel with
  | 0 => Fuel
  | S f =>
    '(s1, r) ← pop_front s l;
    a ← has_alloc s1 l;
    s2 ← (if (a : bool) then free s1 r else Ok s1);
    '(s3, d) ← clear_loop f s2 l fn;
    Ok (s3, if fn then (r, dat s1 !! r) :: d else d)
  end.
Definition sll_clear (s : smem) (l : nat) (fn : bool)
  : outcome (smem * result * list (nat * option V)) :=
  if l =? 0 then Ok (s, INPUT_ERR, [])
  else '(s1, d) ← clear_loop (size (nx s)) s l fn; Ok (s1, OK, d).

(** src/singly_linked_list.c:260-278 ccc_sll_validate. *)
Fixpoint validate_loop (fuel : nat) (m : fld) (n : Z) (l e : nat) (c : Z) : outcome bool :=
  if e =? l then Ok (c =? n)%Z
  else match fuel with
  | 0 => Fuel
  | S f =>
    if (n <=? c)%Z then Ok false
    else if e =? 0 then Ok false
    else
      en ← rd m e;
      if (en =? 0) || (en =? e) then Ok false
      else validate_loop f m n l en (c + 1)
  end.
Definition sll_validate (s : smem) (l : nat) : outcome bool :=
  n ← get_sz s l;
  e ← rd (nx s) l;
  validate_loop (S (Z.to_nat n)) (nx s) n l e 0.

(** src/singly_linked_list.c:280-290 ccc_sll_size, ccc_sll_is_empty. *)
Definition sll_size (s : smem) (l : nat) : outcome Z := if l =? 0 then Ok 0%Z else get_sz s l.
Definition sll_is_empty (s : smem) (l : nat) : outcome bool :=
  if l =? 0 then Ok true else n ← get_sz s l; Ok (n =? 0)%Z.

(** The user's loop: for (e = begin; e != end; e = next(e)) use *e. *)
Fixpoint iterate (fuel : nat) (s : smem) (l e : nat) : outcome (list (nat * V)) :=
  if e =? 0 then Ok []
  else match fuel with
  | 0 => Fuel
  | S f =>
    match dat s !! e with
    | None => UB
    | Some v => n ← sll_next s l e; r ← iterate f s l n; Ok ((e, v) :: r)
    end
  end.
Definition sll_iter (s : smem) (l : nat) : outcome (list (nat * V)) :=
  e ← sll_front s l; iterate (size (nx s)) s l e.

(** Calls of a history. [SNew]: the user creates a struct holding [v] at a new
    address, its list field [g] arbitrary. *)
Inductive sll_op : Type :=
  | SNew (e : nat) (v : V) (g : nat)
  | SPushFront (l e ans : nat)
  | SPopFront (l : nat)
  | SFront (l : nat)
  | SErase (l e : nat)
  | SExtract (l e : nat)
  | SEraseRange (l b e : nat)
  | SExtractRange (l b e : nat)
  | SSplice (pl pos cl e : nat)
  | SSpliceRange (pl pos cl b e : nat)
  | SClear (l : nat) (fn : bool)
  | SIter (l : nat)
  | SSize (l : nat)
  | SIsEmpty (l : nat)
  | SValidate (l : nat).

Inductive sll_res : Type :=
  | RPtr (p : nat)
  | RResult (r : result)
  | RDestroyed (r : result) (d : list (nat * option V))
  | RElems (xs : list (nat * V))
  | RNum (n : Z)
  | RBool (b : bool).

Definition sll_step (s : smem) (o : sll_op) : outcome (smem * sll_res) :=
  match o with
  | SNew e v g => Ok (SMem (<[e := g]> (nx s)) (<[e := v]> (dat s)) (sz s) (al s), RPtr e)
  | SPushFront l e ans => '(s1, p) ← sll_push_front s l e ans; Ok (s1, RPtr p)
  | SPopFront l => '(s1, r) ← sll_pop_front s l; Ok (s1, RResult r)
  | SFront l => p ← sll_front s l; Ok (s, RPtr p)
  | SErase l e => '(s1, p) ← sll_remove true s l e; Ok (s1, RPtr p)
  | SExtract l e => '(s1, p) ← sll_remove false s l e; Ok (s1, RPtr p)
  | SEraseRange l b e => '(s1, p) ← sll_remove_range true s l b e; Ok (s1, RPtr p)
  | SExtractRange l b e => '(s1, p) ← sll_remove_range false s l b e; Ok (s1, RPtr p)
  | SSplice pl pos cl e => '(s1, r) ← sll_splice s pl pos cl e; Ok (s1, RResult r)
  | SSpliceRange pl pos cl b e => '(s1, r) ← sll_splice_range s pl pos cl b e; Ok (s1, RResult r)
  | SClear l fn => '(s1, r, d) ← sll_clear s l fn; Ok (s1, RDestroyed r d)
  | SIter l => xs ← sll_iter s l; Ok (s, RElems xs)
  | SSize l => n ← sll_size s l; Ok (s, RNum n)
  | SIsEmpty l => b ← sll_is_empty s l; Ok (s, RBool b)
  | SValidate l => b ← sll_validate s l; Ok (s, RBool b)
  end.

Fixpoint sll_run (s : smem) (os : list sll_op) : outcome (smem * list sll_res) :=
  match os with
  | [] => Ok (s, [])
  | o :: os => '(s1, r) ← sll_step s o; '(s2, rs) ← sll_run s1 os; Ok (s2, r :: rs)
  end.

(** ccc/impl/impl_singly_linked_list.h:31-41 ccc_impl_sll_init for each list. *)
Definition sll_init (ls : list (nat * bool)) : smem :=
  SMem (list_to_map (map (fun x => (fst x, fst x)) ls)) ∅
       (list_to_map (map (fun x => (fst x, 0%Z)) ls)) (list_to_map ls).

End model.
Arguments smem V : clear implicits.
Arguments sll_op V : clear implicits.
Arguments sll_res V : clear implicits.
