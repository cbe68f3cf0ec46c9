(** Model of the doubly linked list, src/doubly_linked_list.c. *)
From stdpp Require Import base numbers option gmap fin_maps list.
From Verif Require Import Common LinkHeap.

Section model.
Context {V : Type}.
(** Built with NDEBUG: assertions are not evaluated. *)
Context (ndebug : bool).

(** Memory shared by any number of lists. A list is named by the address of its
    sentinel. [nx], [pv]: fields n_ and p_ of every live node and sentinel;
    [dat]: user data of every live node; [sz], [al]: fields sz_ and alloc_
    (present or not) of the lists. Simplification: sizes are integers that do
    not wrap; struct_base and elem_in are the identity. *)
Record dmem : Type := DMem
  { nx : fld; pv : fld; dat : gmap nat V; sz : gmap nat Z; al : gmap nat bool }.

Definition with_links (s : dmem) (n p : fld) : dmem := DMem n p (dat s) (sz s) (al s).
Definition get_sz (s : dmem) (l : nat) : outcome Z :=
  match sz s !! l with Some n => Ok n | None => UB end.
Definition add_sz (s : dmem) (l : nat) (d : Z) : outcome dmem :=
  n ← get_sz s l; Ok (DMem (nx s) (pv s) (dat s) (<[l := (n + d)%Z]> (sz s)) (al s)).
Definition has_alloc (s : dmem) (l : nat) : outcome bool :=
  match al s !! l with Some b => Ok b | None => UB end.
Definition dassert (b : bool) : outcome unit := if ndebug then Ok tt else oassert b.

(** alloc_(ptr, 0, aux): the node is no longer live. *)
Definition free (s : dmem) (p : nat) : outcome dmem :=
  match dat s !! p with
  | Some _ => Ok (DMem (delete p (nx s)) (delete p (pv s)) (delete p (dat s)) (sz s) (al s))
  | None => UB
  end.

(** alloc_(NULL, elem_sz_, aux) returned [p], then memcpy of the user's struct
    at [e], links included. *)
Definition alloc_copy (s : dmem) (p e : nat) : outcome dmem :=
  match dat s !! e with
  | Some v =>
    n ← rd (nx s) e; q ← rd (pv s) e;
    Ok (DMem (<[p := n]> (nx s)) (<[p := q]> (pv s)) (<[p := v]> (dat s)) (sz s) (al s))
  | None => UB
  end.

(** src/doubly_linked_list.c:447-455 push_front. *)
Definition push_front (s : dmem) (l e : nat) : outcome dmem :=
  p1 ← wr (pv s) e l;
  h ← rd (nx s) l;
  n1 ← wr (nx s) e h;
  h1 ← rd n1 l;
  p2 ← wr p1 h1 e;
  n2 ← wr n1 l e;
  add_sz (with_links s n2 p2) l 1.

(** src/doubly_linked_list.c:457-465 push_back. *)
Definition push_back (s : dmem) (l e : nat) : outcome dmem :=
  n1 ← wr (nx s) e l;
  t ← rd (pv s) l;
  p1 ← wr (pv s) e t;
  t1 ← rd p1 l;
  n2 ← wr n1 t1 e;
  p2 ← wr p1 l e;
  add_sz (with_links s n2 p2) l 1.

(** src/doubly_linked_list.c:467-476 pop_front: line 471 writes p_ of the node
    being removed, before line 472 advances. *)
Definition pop_front (s : dmem) (l : nat) : outcome (dmem * nat) :=
  ret ← rd (nx s) l;
  p1 ← wr (pv s) ret l;
  n ← rd (nx s) ret;
  n1 ← wr (nx s) l n;
  p2 ← wr p1 ret 0;
  n2 ← wr n1 ret 0;
  s1 ← add_sz (with_links s n2 p2) l (-1);
  Ok (s1, ret).

(** The common shape of 28-47 ccc_dll_push_front and 49-68 ccc_dll_push_back;
    [back] selects the end, and the link of the sentinel that is returned. *)
Definition dll_push (back : bool) (s : dmem) (l e ans : nat) : outcome (dmem * nat) :=
  if (l =? 0) || (e =? 0) then Ok (s, 0)
  else
    a ← has_alloc s l;
    if (a : bool) && (ans =? 0) then Ok (s, 0)
    else
      s1 ← (if (a : bool) then alloc_copy s ans e else Ok s);
      let e1 := if (a : bool) then ans else e in
      if back then s2 ← push_back s1 l e1; r ← rd (pv s2) l; Ok (s2, r)
      else s2 ← push_front s1 l e1; r ← rd (nx s2) l; Ok (s2, r).

(** ccc/impl/impl_doubly_linked_list.h:50-90 emplace_back and emplace_front; the
    links of the initialiser are zero. *)
Definition dll_emplace (back : bool) (s : dmem) (l : nat) (v : V) (ans : nat) : outcome (dmem * nat) :=
  a ← has_alloc s l;
  if negb a || (ans =? 0) then Ok (s, 0)
  else
    let s1 := DMem (<[ans := 0]> (nx s)) (<[ans := 0]> (pv s)) (<[ans := v]> (dat s)) (sz s) (al s) in
    s2 ← (if back then push_back s1 l ans else push_front s1 l ans);
    Ok (s2, ans).

(** src/doubly_linked_list.c:70-78 ccc_dll_front. *)
Definition dll_front (s : dmem) (l : nat) : outcome nat :=
  if l =? 0 then Ok 0 else n ← get_sz s l; if (n =? 0)%Z then Ok 0 else rd (nx s) l.

(** src/doubly_linked_list.c:80-88 ccc_dll_back. *)
Definition dll_back (s : dmem) (l : nat) : outcome nat :=
  if l =? 0 then Ok 0 else n ← get_sz s l; if (n =? 0)%Z then Ok 0 else rd (pv s) l.

(** src/doubly_linked_list.c:90-103 ccc_dll_pop_front. *)
Definition dll_pop_front (s : dmem) (l : nat) : outcome (dmem * result) :=
  if l =? 0 then Ok (s, INPUT_ERR)
  else
    n ← get_sz s l;
    if (n =? 0)%Z then Ok (s, INPUT_ERR)
    else
      '(s1, r) ← pop_front s l;
      a ← has_alloc s1 l;
      if (a : bool) then s2 ← free s1 r; Ok (s2, OK) else Ok (s1, OK).

(** src/doubly_linked_list.c:105-122 ccc_dll_pop_back. *)
Definition dll_pop_back (s : dmem) (l : nat) : outcome (dmem * result) :=
  if l =? 0 then Ok (s, INPUT_ERR)
  else
    n ← get_sz s l;
    if (n =? 0)%Z then Ok (s, INPUT_ERR)
    else
      r ← rd (pv s) l;
      rp ← rd (pv s) r;
      n1 ← wr (nx s) rp l;
      p1 ← wr (pv s) l rp;
      p2 ← wr p1 r 0;
      n2 ← wr n1 r 0;
      let s1 := with_links s n2 p2 in
      a ← has_alloc s1 l;
      s2 ← (if (a : bool) then free s1 r else Ok s1);
      s3 ← add_sz s2 l (-1);
      Ok (s3, OK).

(** src/doubly_linked_list.c:124-149 ccc_dll_insert; [pos] is dereferenced
    before any test. *)
Definition dll_insert (s : dmem) (l pos e ans : nat) : outcome (dmem * nat) :=
  if l =? 0 then Ok (s, 0)
  else
    pn ← rd (nx s) pos;
    if pn =? 0 then Ok (s, 0)
    else
      pp ← rd (pv s) pos;
      if pp =? 0 then Ok (s, 0)
      else
        a ← has_alloc s l;
        if (a : bool) && (ans =? 0) then Ok (s, 0)
        else
          s1 ← (if (a : bool) then alloc_copy s ans e else Ok s);
          let e1 := if (a : bool) then ans else e in
          n1 ← wr (nx s1) e1 pos;
          q ← rd (pv s1) pos;
          p1 ← wr (pv s1) e1 q;
          q1 ← rd p1 pos;
          n2 ← wr n1 q1 e1;
          p2 ← wr p1 pos e1;
          s2 ← add_sz (with_links s1 n2 p2) l 1;
          Ok (s2, e1).

(** src/doubly_linked_list.c:151-167 ccc_dll_erase: line 160 returns the erased
    element itself. *)
Definition dll_erase (s : dmem) (l e : nat) : outcome (dmem * nat) :=
  if (l =? 0) || (e =? 0) then Ok (s, 0)
  else
    n ← get_sz s l;
    if (n =? 0)%Z then Ok (s, 0)
    else
      en ← rd (nx s) e;
      ep ← rd (pv s) e;
      p1 ← wr (pv s) en ep;
      ep1 ← rd p1 e;
      n1 ← wr (nx s) ep1 en;
      en1 ← rd n1 e;
      let ret := if en1 =? l then 0 else e in
      let s1 := with_links s n1 p1 in
      a ← has_alloc s1 l;
      s2 ← (if (a : bool) then free s1 e else Ok s1);
      s3 ← add_sz s2 l (-1);
      Ok (s3, ret).

(** src/doubly_linked_list.c:212-227 ccc_dll_extract. *)
Definition dll_extract (s : dmem) (l e : nat) : outcome (dmem * nat) :=
  if (l =? 0) || (e =? 0) then Ok (s, 0)
  else
    en ← rd (nx s) e;
    ep ← rd (pv s) e;
    n ← get_sz s l;
    if (en =? 0) || (ep =? 0) || (n =? 0)%Z then Ok (s, 0)
    else
      p1 ← wr (pv s) en ep;
      ep1 ← rd p1 e;
      n1 ← wr (nx s) ep1 en;
      p2 ← wr p1 e 0;
      n2 ← wr n1 e 0;
      s1 ← add_sz (with_links s n2 p2) l (-1);
      Ok (s1, if en =? l then 0 else en).

(** src/doubly_linked_list.c:520-530 len; [l] only serves the assertion. *)
Fixpoint len_loop (fuel : nat) (m : fld) (n : Z) (begin end_ : nat) (c : Z) : outcome Z :=
  if begin =? end_ then Ok c
  else match fuel with
  | 0 => Fuel
  | S f => _ ← dassert (c <=? n)%Z; nb ← rd m begin; len_loop f m n nb end_ (c + 1)
  end.
Definition len (s : dmem) (l begin end_ : nat) : outcome Z :=
  n ← get_sz s l; len_loop (S (size (nx s))) (nx s) n begin end_ 1.

(** src/doubly_linked_list.c:508-517, freeing half of erase_range. *)
Fixpoint free_range (fuel : nat) (s : dmem) (n : Z) (begin end_ : nat) (c : Z) : outcome (dmem * Z) :=
  if begin =? end_ then s1 ← free s end_; Ok (s1, c)
  else match fuel with
  | 0 => Fuel
  | S f =>
    _ ← dassert (c <=? n)%Z;
    nb ← rd (nx s) begin;
    s1 ← free s begin;
    free_range f s1 n nb end_ (c + 1)
  end.

(** src/doubly_linked_list.c:169-192 ccc_dll_erase_range with 496-518, and
    229-252 ccc_dll_extract_range with 485-494 ([fr] false). *)
Definition dll_remove_range (fr : bool) (s : dmem) (l b e0 : nat) : outcome (dmem * nat) :=
  if (l =? 0) || (b =? 0) || (e0 =? 0) then Ok (s, 0)
  else
    bn ← rd (nx s) b; bp ← rd (pv s) b; en ← rd (nx s) e0; ep ← rd (pv s) e0;
    n ← get_sz s l;
    if (bn =? 0) || (bp =? 0) || (en =? 0) || (ep =? 0) || (n =? 0)%Z then Ok (s, 0)
    else if b =? e0 then (if fr then dll_erase s l b else dll_extract s l b)
    else
      e ← rd (pv s) e0;
      x ← rd (nx s) e;
      p1 ← wr (pv s) x bp;
      bp1 ← rd p1 b;
      n1 ← wr (nx s) bp1 x;
      p2 ← wr p1 b 0;
      let s1 := with_links s n1 p2 in
      a ← has_alloc s1 l;
      '(s2, c) ←
        (if fr && a then free_range (S (size n1)) s1 n b e 1
         else
           c ← len s1 l b e;
           _ ← dassert (negb (e =? l));
           n2 ← wr (nx s1) e 0;
           Ok (with_links s1 n2 (pv s1), c));
      _ ← dassert (c <=? n)%Z;
      s3 ← add_sz s2 l (- c);
      Ok (s3, if e0 =? l then 0 else e0).

(** src/doubly_linked_list.c:254-280 ccc_dll_splice. *)
Definition dll_splice (s : dmem) (pl pos cl e : nat) : outcome (dmem * result) :=
  if (e =? 0) || (pos =? 0) || (pl =? 0) || (cl =? 0) then Ok (s, INPUT_ERR)
  else if pos =? e then Ok (s, OK)
  else
    en ← rd (nx s) e;
    if (en =? pos) || (e =? cl) then Ok (s, OK)
    else
      ep ← rd (pv s) e;
      p1 ← wr (pv s) en ep;
      ep1 ← rd p1 e;
      n1 ← wr (nx s) ep1 en;
      pp ← rd p1 pos;
      p2 ← wr p1 e pp;
      n2 ← wr n1 e pos;
      pp1 ← rd p2 pos;
      n3 ← wr n2 pp1 e;
      p3 ← wr p2 pos e;
      let s1 := with_links s n3 p3 in
      if pl =? cl then Ok (s1, OK)
      else s2 ← add_sz s1 pl 1; s3 ← add_sz s2 cl (-1); Ok (s3, OK).

(** src/doubly_linked_list.c:282-312 ccc_dll_splice_range; line 306 passes the
    destination to len. *)
Definition dll_splice_range (s : dmem) (pl pos cl b e0 : nat) : outcome (dmem * result) :=
  if (b =? 0) || (e0 =? 0) || (pos =? 0) || (pl =? 0) || (cl =? 0) then Ok (s, INPUT_ERR)
  else if (pos =? b) || (pos =? e0) || (b =? e0) || (b =? cl) then Ok (s, OK)
  else
    e ← rd (pv s) e0;
    if e =? cl then Ok (s, OK)
    else
      en ← rd (nx s) e;
      bp ← rd (pv s) b;
      p1 ← wr (pv s) en bp;
      bp1 ← rd p1 b;
      n1 ← wr (nx s) bp1 en;
      pp ← rd p1 pos;
      p2 ← wr p1 b pp;
      n2 ← wr n1 e pos;
      pp1 ← rd p2 pos;
      n3 ← wr n2 pp1 b;
      p3 ← wr p2 pos e;
      let s1 := with_links s n3 p3 in
      if pl =? cl then Ok (s1, OK)
      else
        c ← len s1 pl b e;
        n ← get_sz s1 cl;
        _ ← dassert (c <=? n)%Z;
        s2 ← add_sz s1 pl c;
        s3 ← add_sz s2 cl (- c);
        Ok (s3, OK).

(** src/doubly_linked_list.c:314-332 ccc_dll_begin, ccc_dll_rbegin; 346-364
    ccc_dll_next, ccc_dll_rnext: the same on the other link, so the link field
    is a parameter [m]. *)
Definition dll_first (m : fld) (l : nat) : outcome nat :=
  if l =? 0 then Ok 0 else n ← rd m l; Ok (if n =? l then 0 else n).
Definition dll_step_to (m : fld) (l e : nat) : outcome nat :=
  if (l =? 0) || (e =? 0) then Ok 0 else n ← rd m e; Ok (if n =? l then 0 else n).

(** The user's loop over begin/next (m = nx) or rbegin/rnext (m = pv). *)
Fixpoint iterate (fuel : nat) (m : fld) (d : gmap nat V) (l e : nat) : outcome (list (nat * V)) :=
  if e =? 0 then Ok []
  else match fuel with
  | 0 => Fuel
  | S f =>
    match d !! e with
    | None => UB
    | Some v => n ← dll_step_to m l e; r ← iterate f m d l n; Ok ((e, v) :: r)
    end
  end.
Definition dll_iter (s : dmem) (l : nat) : outcome (list (nat * V)) :=
  e ← dll_first (nx s) l; iterate (size (nx s)) (nx s) (dat s) l e.
Definition dll_riter (s : dmem) (l : nat) : outcome (list (nat * V)) :=
  e ← dll_first (pv s) l; iterate (size (pv s)) (pv s) (dat s) l e.

(** src/doubly_linked_list.c:366-376 ccc_dll_size, ccc_dll_is_empty. *)
Definition dll_size (s : dmem) (l : nat) : outcome Z := if l =? 0 then Ok 0%Z else get_sz s l.
Definition dll_is_empty (s : dmem) (l : nat) : outcome bool :=
  if l =? 0 then Ok true else n ← get_sz s l; Ok (n =? 0)%Z.

(** src/doubly_linked_list.c:378-398 ccc_dll_clear; the list returned is the
    sequence of destructor calls ([fn] false: no destructor). *)
Fixpoint clear_loop (fuel : nat) (s : dmem) (l : nat) (fn : bool)
  : outcome (dmem * list (nat * option V)) :=
  n ← get_sz s l;
  if (n =? 0)%Z then Ok (s, [])
  else match fuel with
  | 0 => Fuel
  | S f =>
    '(s1, r) ← pop_front s l;
    a ← has_alloc s1 l;
    s2 ← (if (a : bool) then free s1 r else Ok s1);
    '(s3, d) ← clear_loop f s2 l fn;
    Ok (s3, if fn then (r, dat s1 !! r) :: d else d)
  end.
Definition dll_clear (s : dmem) (l : nat) (fn : bool)
  : outcome (dmem * result * list (nat * option V)) :=
  if l =? 0 then Ok (s, INPUT_ERR, [])
  else '(s1, d) ← clear_loop (size (nx s)) s l fn; Ok (s1, OK, d).

(** src/doubly_linked_list.c:400-421 ccc_dll_validate. *)
Fixpoint validate_loop (fuel : nat) (n p : fld) (size_ : Z) (l e : nat) (c : Z) : outcome bool :=
  if e =? l then Ok (c =? size_)%Z
  else match fuel with
  | 0 => Fuel
  | S f =>
    if (size_ <=? c)%Z then Ok false
    else if e =? 0 then Ok false
    else
      en ← rd n e; ep ← rd p e;
      if (en =? 0) || (ep =? 0) || (en =? e) || (ep =? e) then Ok false
      else validate_loop f n p size_ l en (c + 1)
  end.
Definition dll_validate (s : dmem) (l : nat) : outcome bool :=
  if l =? 0 then Ok false
  else
    n ← get_sz s l;
    e ← rd (nx s) l;
    validate_loop (S (Z.to_nat n)) (nx s) (pv s) n l e 0.

(** Calls of a history. [DNew]: the user creates a struct holding [v] at a new
    address, its links [g], [g'] arbitrary. *)
Inductive dll_op : Type :=
  | DNew (e : nat) (v : V) (g g' : nat)
  | DPushFront (l e ans : nat)
  | DPushBack (l e ans : nat)
  | DEmplaceFront (l : nat) (v : V) (ans : nat)
  | DEmplaceBack (l : nat) (v : V) (ans : nat)
  | DInsert (l pos e ans : nat)
  | DPopFront (l : nat)
  | DPopBack (l : nat)
  | DFront (l : nat)
  | DBack (l : nat)
  | DErase (l e : nat)
  | DExtract (l e : nat)
  | DEraseRange (l b e : nat)
  | DExtractRange (l b e : nat)
  | DSplice (pl pos cl e : nat)
  | DSpliceRange (pl pos cl b e : nat)
  | DClear (l : nat) (fn : bool)
  | DIter (l : nat)
  | DRIter (l : nat)
  | DSize (l : nat)
  | DIsEmpty (l : nat)
  | DValidate (l : nat).

Inductive dll_res : Type :=
  | RPtr (p : nat)
  | RResult (r : result)
  | RDestroyed (r : result) (d : list (nat * option V))
  | RElems (xs : list (nat * V))
  | RNum (n : Z)
  | RBool (b : bool).

Definition dll_step (s : dmem) (o : dll_op) : outcome (dmem * dll_res) :=
  match o with
  | DNew e v g g' =>
    Ok (DMem (<[e := g]> (nx s)) (<[e := g']> (pv s)) (<[e := v]> (dat s)) (sz s) (al s), RPtr e)
  | DPushFront l e ans => '(s1, p) ← dll_push false s l e ans; Ok (s1, RPtr p)
  | DPushBack l e ans => '(s1, p) ← dll_push true s l e ans; Ok (s1, RPtr p)
  | DEmplaceFront l v ans => '(s1, p) ← dll_emplace false s l v ans; Ok (s1, RPtr p)
  | DEmplaceBack l v ans => '(s1, p) ← dll_emplace true s l v ans; Ok (s1, RPtr p)
  | DInsert l pos e ans => '(s1, p) ← dll_insert s l pos e ans; Ok (s1, RPtr p)
  | DPopFront l => '(s1, r) ← dll_pop_front s l; Ok (s1, RResult r)
  | DPopBack l => '(s1, r) ← dll_pop_back s l; Ok (s1, RResult r)
  | DFront l => p ← dll_front s l; Ok (s, RPtr p)
  | DBack l => p ← dll_back s l; Ok (s, RPtr p)
  | DErase l e => '(s1, p) ← dll_erase s l e; Ok (s1, RPtr p)
  | DExtract l e => '(s1, p) ← dll_extract s l e; Ok (s1, RPtr p)
  | DEraseRange l b e => '(s1, p) ← dll_remove_range true s l b e; Ok (s1, RPtr p)
  | DExtractRange l b e => '(s1, p) ← dll_remove_range false s l b e; Ok (s1, RPtr p)
  | DSplice pl pos cl e => '(s1, r) ← dll_splice s pl pos cl e; Ok (s1, RResult r)
  | DSpliceRange pl pos cl b e => '(s1, r) ← dll_splice_range s pl pos cl b e; Ok (s1, RResult r)
  | DClear l fn => '(s1, r, d) ← dll_clear s l fn; Ok (s1, RDestroyed r d)
  | DIter l => xs ← dll_iter s l; Ok (s, RElems xs)
  | DRIter l => xs ← dll_riter s l; Ok (s, RElems xs)
  | DSize l => n ← dll_size s l; Ok (s, RNum n)
  | DIsEmpty l => b ← dll_is_empty s l; Ok (s, RBool b)
  | DValidate l => b ← dll_validate s l; Ok (s, RBool b)
  end.

Fixpoint dll_run (s : dmem) (os : list dll_op) : outcome (dmem * list dll_res) :=
  match os with
  | [] => Ok (s, [])
  | o :: os => '(s1, r) ← dll_step s o; '(s2, rs) ← dll_run s1 os; Ok (s2, r :: rs)
  end.

(** ccc/impl/impl_doubly_linked_list.h:35-46 ccc_impl_dll_init for each list. *)
Definition dll_init (ls : list (nat * bool)) : dmem :=
  DMem (list_to_map (map (fun x => (fst x, fst x)) ls)) (list_to_map (map (fun x => (fst x, fst x)) ls)) ∅
       (list_to_map (map (fun x => (fst x, 0%Z)) ls)) (list_to_map ls).

End model.
Arguments dmem V : clear implicits.
Arguments dll_op V : clear implicits.
Arguments dll_res V : clear implicits.
