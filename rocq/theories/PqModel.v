(** Model of the pairing heap, src/priority_queue.c and
    ccc/impl/impl_priority_queue.h. *)
From stdpp Require Import base numbers option gmap fin_maps list.
From Verif Require Import Common LinkHeap.

Section model.
Context {V : Type}.

(** The fields of the queue that never change: comparison function, order_
    ([Lt] for CCC_LES, [Gt] for CCC_GRT), whether there is an allocator, and
    pq_elem_offset_. *)
Context (cmp : V -> V -> comparison) (order : comparison) (alloc : bool) (off : nat).

(** One queue and all live nodes, in the queue or not. [lc], [ns], [ps], [pa]
    are the fields left_child_, next_sibling_, prev_sibling_, parent_, [dat] the
    user data, [heap] the nodes obtained from the allocator, [root] and [sz] the
    fields of the queue. Simplifications: the size is an integer that does not
    wrap; a pointer to a user struct is represented by the address of the
    intrusive node in it, so struct_base (310-314) and the use of elem_in on a
    user struct are the identity. *)
Record pmem : Type := PMem {
  lc : fld; ns : fld; ps : fld; pa : fld;
  dat : gmap nat V; heap : gset nat; root : nat; sz : Z
}.

Definition set_lc (s : pmem) (m : fld) : pmem := PMem m (ns s) (ps s) (pa s) (dat s) (heap s) (root s) (sz s).
Definition set_ns (s : pmem) (m : fld) : pmem := PMem (lc s) m (ps s) (pa s) (dat s) (heap s) (root s) (sz s).
Definition set_ps (s : pmem) (m : fld) : pmem := PMem (lc s) (ns s) m (pa s) (dat s) (heap s) (root s) (sz s).
Definition set_pa (s : pmem) (m : fld) : pmem := PMem (lc s) (ns s) (ps s) m (dat s) (heap s) (root s) (sz s).
Definition set_root (s : pmem) (r : nat) : pmem := PMem (lc s) (ns s) (ps s) (pa s) (dat s) (heap s) r (sz s).
Definition set_sz (s : pmem) (n : Z) : pmem := PMem (lc s) (ns s) (ps s) (pa s) (dat s) (heap s) (root s) n.

(** Assignments to the four fields. *)
Definition wlc (s : pmem) (p q : nat) : outcome pmem := m ← wr (lc s) p q; Ok (set_lc s m).
Definition wns (s : pmem) (p q : nat) : outcome pmem := m ← wr (ns s) p q; Ok (set_ns s m).
Definition wps (s : pmem) (p q : nat) : outcome pmem := m ← wr (ps s) p q; Ok (set_ps s m).
Definition wpa (s : pmem) (p q : nat) : outcome pmem := m ← wr (pa s) p q; Ok (set_pa s m).

(** The user data of a node. *)
Definition value (s : pmem) (e : nat) : outcome V :=
  match dat s !! e with Some v => Ok v | None => UB end.

(** alloc_(ptr, 0, aux): only what came from the allocator can be freed. *)
Definition free (s : pmem) (p : nat) : outcome pmem :=
  if decide (p ∈ heap s) then
    Ok (PMem (delete p (lc s)) (delete p (ns s)) (delete p (ps s)) (delete p (pa s))
          (delete p (dat s)) (heap s ∖ {[p]}) (root s) (sz s))
  else UB.

(** A live node at [p] with the given fields. *)
Definition put (s : pmem) (p l n q a : nat) (v : V) : pmem :=
  PMem (<[p := l]> (lc s)) (<[p := n]> (ns s)) (<[p := q]> (ps s)) (<[p := a]> (pa s))
    (<[p := v]> (dat s)) (heap s) (root s) (sz s).
Definition own (s : pmem) (p : nat) : pmem :=
  PMem (lc s) (ns s) (ps s) (pa s) (dat s) ({[p]} ∪ heap s) (root s) (sz s).

(** alloc_(NULL, elem_sz_, aux) returned [p], then memcpy of the user's struct
    at [e], links included (56-61). *)
Definition alloc_copy (s : pmem) (p e : nat) : outcome pmem :=
  l ← rd (lc s) e; n ← rd (ns s) e; q ← rd (ps s) e; a ← rd (pa s) e; v ← value s e;
  Ok (own (put s p l n q a v) p).

(** cmp(pq, a, b) == pq->order_ with src/priority_queue.c:301-308 cmp. *)
Definition is_order (c : comparison) : bool :=
  match c, order with Lt, Lt | Eq, Eq | Gt, Gt => true | _, _ => false end.
Definition beats (s : pmem) (a b : nat) : outcome bool :=
  x ← value s a; y ← value s b; Ok (is_order (cmp x y)).

(** src/priority_queue.c:322-327 init_node. *)
Definition init_node (s : pmem) (e : nat) : outcome pmem :=
  s1 ← wpa s e 0; s2 ← wlc s1 e 0; s3 ← wps s2 e e; wns s3 e e.

(** src/priority_queue.c:329-333 clear_node. *)
Definition clear_node (s : pmem) (e : nat) : outcome pmem :=
  s1 ← wpa s e 0; s2 ← wps s1 e 0; s3 ← wns s2 e 0; wlc s3 e 0.

(** src/priority_queue.c:335-346 cut_child. *)
Definition cut_child (s : pmem) (child : nat) : outcome pmem :=
  n ← rd (ns s) child;
  p ← rd (ps s) child;
  s1 ← wps s n p;
  p' ← rd (ps s1) child;
  n' ← rd (ns s1) child;
  s2 ← wns s1 p' n';
  q ← rd (pa s2) child;
  s3 ← (if q =? 0 then Ok s2
        else
          l ← rd (lc s2) q;
          if child =? l then
            n2 ← rd (ns s2) child;
            wlc s2 q (if n2 =? child then 0 else n2)
          else Ok s2);
  wpa s3 child 0.

(** src/priority_queue.c:408-424 link_child. *)
Definition link_child (s : pmem) (parent child : nat) : outcome pmem :=
  l ← rd (lc s) parent;
  s1 ← (if l =? 0 then
          s1 ← wps s child child; wns s1 child child
        else
          n ← rd (ns s) l;
          s1 ← wns s child n;
          s2 ← wps s1 child l;
          n' ← rd (ns s2) l;
          s3 ← wps s2 n' child;
          wns s3 l child);
  s2 ← wlc s1 parent child;
  wpa s2 child parent.

(** src/priority_queue.c:386-401 merge. *)
Definition merge (s : pmem) (old new : nat) : outcome (pmem * nat) :=
  if (old =? 0) || (new =? 0) || (old =? new) then Ok (s, if old =? 0 then new else old)
  else
    b ← beats s new old;
    if (b : bool) then s1 ← link_child s new old; Ok (s1, new)
    else s1 ← link_child s old new; Ok (s1, old).

(** The loop of src/priority_queue.c:359-384 delete_min, lines 369-377. Returns
    the accumulator and the last value of [cur]. *)
Fixpoint pair_loop (fuel : nat) (s : pmem) (eldest acc cur : nat) : outcome (pmem * nat * nat) :=
  match fuel with
  | 0 => Fuel
  | S f =>
    if cur =? eldest then Ok (s, acc, cur)
    else
      next ← rd (ns s) cur;
      if next =? eldest then Ok (s, acc, cur)
      else
        next_cur ← rd (ns s) next;
        s1 ← wps s next 0;
        s2 ← wns s1 next 0;
        s3 ← wps s2 cur 0;
        s4 ← wns s3 cur 0;
        '(s5, m) ← merge s4 cur next;
        '(s6, acc') ← merge s5 acc m;
        pair_loop f s6 eldest acc' next_cur
  end.

(** src/priority_queue.c:359-384 delete_min. *)
Definition delete_min (s : pmem) (r : nat) : outcome (pmem * nat) :=
  l ← rd (lc s) r;
  if l =? 0 then Ok (s, 0)
  else
    eldest ← rd (ns s) l;
    cur ← rd (ns s) eldest;
    '(s1, acc, cur') ← pair_loop (S (size (ns s))) s eldest eldest cur;
    '(s2, r') ← (if cur' =? eldest then Ok (s1, acc) else merge s1 acc cur');
    s3 ← wps s2 r' r';
    s4 ← wns s3 r' r';
    s5 ← wpa s4 r' 0;
    Ok (s5, r').

(** src/priority_queue.c:348-357 delete_node. *)
Definition delete_node (s : pmem) (e : nat) : outcome (pmem * nat) :=
  if root s =? e then delete_min s e
  else
    s1 ← cut_child s e;
    '(s2, r) ← delete_min s1 e;
    merge s2 (root s2) r.

(** pq->root_ = merge(pq, pq->root_, e). *)
Definition merge_root (s : pmem) (e : nat) : outcome pmem :=
  '(s1, r) ← merge s (root s) e; Ok (set_root s1 r).

(** pq->root_ = delete_node(pq, e). *)
Definition delete_root (s : pmem) (e : nat) : outcome pmem :=
  '(s1, r) ← delete_node s e; Ok (set_root s1 r).

(** src/priority_queue.c:36-43 ccc_pq_front. *)
Definition pq_front (s : pmem) : nat := root s.

(** src/priority_queue.c:45-68 ccc_pq_push; [ans] is the allocator's answer.
    Line 63: the node linked in is [elem_in(pq, e)] of the user's own node, that
    is the address [off] bytes behind it, not the node in the allocation. *)
Definition pq_push (s : pmem) (e ans : nat) : outcome (pmem * nat) :=
  if e =? 0 then Ok (s, 0)
  else
    s1 ← init_node s e;
    if alloc then
      if ans =? 0 then Ok (s1, 0)
      else
        s2 ← alloc_copy s1 ans e;
        s3 ← merge_root s2 (e + off);
        Ok (set_sz s3 (sz s3 + 1), ans)
    else
      s3 ← merge_root s1 e;
      Ok (set_sz s3 (sz s3 + 1), e).

(** ccc/impl/impl_priority_queue.h:53-75 ccc_impl_pq_emplace: [ans] and [ans2]
    are the answers to the allocation of the macro and to the one of the push it
    calls. The links of the new struct are those of a compound literal without
    initialiser for them, NULL. *)
Definition pq_emplace (s : pmem) (v : V) (ans ans2 : nat) : outcome (pmem * nat) :=
  if negb alloc then Ok (s, 0)
  else if ans =? 0 then Ok (s, 0)
  else
    '(s1, _) ← pq_push (own (put s ans 0 0 0 0 v) ans) ans ans2;
    Ok (s1, ans).

(** src/priority_queue.c:70-86 ccc_pq_pop. *)
Definition pq_pop (s : pmem) : outcome (pmem * result) :=
  if root s =? 0 then Ok (s, INPUT_ERR)
  else
    let popped := root s in
    '(s1, r) ← delete_min s popped;
    s2 ← clear_node (set_sz (set_root s1 r) (sz s1 - 1)) popped;
    if alloc then s3 ← free s2 popped; Ok (s3, OK) else Ok (s2, OK).

(** The test of lines 91, 104, 156, 172, 187 on the siblings of [e]. *)
Definition unlinked (s : pmem) (e : nat) : outcome bool :=
  n ← rd (ns s) e; p ← rd (ps s) e; Ok ((n =? 0) || (p =? 0)).

(** src/priority_queue.c:88-99 ccc_pq_extract. *)
Definition pq_extract (s : pmem) (e : nat) : outcome (pmem * nat) :=
  if (e =? 0) || (root s =? 0) then Ok (s, 0)
  else
    u ← unlinked s e;
    if (u : bool) then Ok (s, 0)
    else
      s1 ← delete_root s e;
      s2 ← clear_node (set_sz s1 (sz s1 - 1)) e;
      Ok (s2, e).

(** src/priority_queue.c:101-115 ccc_pq_erase. *)
Definition pq_erase (s : pmem) (e : nat) : outcome (pmem * result) :=
  if (e =? 0) || (root s =? 0) then Ok (s, INPUT_ERR)
  else
    u ← unlinked s e;
    if (u : bool) then Ok (s, INPUT_ERR)
    else
      s1 ← delete_root s e;
      let s2 := set_sz s1 (sz s1 - 1) in
      if alloc then s3 ← free s2 e; Ok (s3, OK) else Ok (s2, OK).

(** src/priority_queue.c:117-133 ccc_pq_clear; the destructor's arguments are
    recorded with the data found there when it is called. *)
Fixpoint clear_loop (fuel : nat) (s : pmem) (fn : bool) : outcome (pmem * list (nat * option V)) :=
  if (sz s =? 0)%Z then Ok (s, [])
  else match fuel with
  | 0 => Fuel
  | S f =>
    let d := (pq_front s, dat s !! pq_front s) in
    '(s1, _) ← pq_pop s;
    '(s2, ds) ← clear_loop f s1 fn;
    Ok (s2, if fn then d :: ds else ds)
  end.
Definition pq_clear (s : pmem) (fn : bool) : outcome (pmem * result * list (nat * option V)) :=
  '(s1, ds) ← clear_loop (Z.to_nat (sz s)) s fn; Ok (s1, OK, ds).

(** src/priority_queue.c:135-145. *)
Definition pq_is_empty (s : pmem) : bool := (sz s =? 0)%Z.
Definition pq_size (s : pmem) : Z := sz s.

(** The user's function sets the data of [e] to [v]. *)
Definition set_value (s : pmem) (e : nat) (v : V) : outcome pmem :=
  match dat s !! e with
  | Some _ => Ok (PMem (lc s) (ns s) (ps s) (pa s) (<[e := v]> (dat s)) (heap s) (root s) (sz s))
  | None => UB
  end.

(** pq->root_ = delete_node(pq, e); init_node(e); pq->root_ = merge(...). *)
Definition reinsert (s : pmem) (e : nat) : outcome pmem :=
  s1 ← delete_root s e; s2 ← init_node s1 e; merge_root s2 e.

(** cut_child(e); pq->root_ = merge(pq, pq->root_, e). *)
Definition cut_merge (s : pmem) (e : nat) : outcome pmem :=
  s1 ← cut_child s e; merge_root s1 e.

(** src/priority_queue.c:257-269 update_fixup. *)
Definition update_fixup (s : pmem) (e : nat) : outcome pmem :=
  q ← rd (pa s) e;
  b ← (if q =? 0 then Ok false else beats s e q);
  if (b : bool) then cut_merge s e else reinsert s e.

(** src/priority_queue.c:271-284 increase_fixup, 286-299 decrease_fixup. *)
Definition increase_fixup (s : pmem) (e : nat) : outcome pmem :=
  match order with Gt => cut_merge s e | _ => reinsert s e end.
Definition decrease_fixup (s : pmem) (e : nat) : outcome pmem :=
  match order with Lt => cut_merge s e | _ => reinsert s e end.

(** src/priority_queue.c:153-194 ccc_pq_update, ccc_pq_increase,
    ccc_pq_decrease; also the macros of ccc/impl/impl_priority_queue.h:77-122,
    which test, update and repair in the same order. *)
Definition changing (fixup : pmem -> nat -> outcome pmem) (s : pmem) (e : nat) (v : V) : outcome (pmem * bool) :=
  if e =? 0 then Ok (s, false)
  else
    u ← unlinked s e;
    if (u : bool) then Ok (s, false)
    else s1 ← set_value s e v; s2 ← fixup s1 e; Ok (s2, true).
Definition pq_update := changing update_fixup.
Definition pq_increase := changing increase_fixup.
Definition pq_decrease := changing decrease_fixup.

(** src/priority_queue.c:430-444 traversal_size: the loop from [cur] around to
    [first], which is not NULL; every step descends into the children first. *)
Fixpoint ring_size (fuel : nat) (s : pmem) (first cur : nat) : outcome Z :=
  match fuel with
  | 0 => Fuel
  | S f =>
    l ← rd (lc s) cur;
    n ← (if l =? 0 then Ok 0%Z else ring_size f s l l);
    nx ← rd (ns s) cur;
    m ← (if nx =? first then Ok 0%Z else ring_size f s first nx);
    Ok (1 + n + m)%Z
  end.
Definition traversal_size (s : pmem) (r : nat) : outcome Z :=
  if r =? 0 then Ok 0%Z else ring_size (S (size (ns s))) s r r.

Definition wrong_order : comparison := match order with Lt => Gt | _ => Lt end.

(** src/priority_queue.c:446-489 has_valid_links: the loop from [cur] around to
    [child], which is not NULL. *)
Fixpoint ring_valid (fuel : nat) (s : pmem) (parent child cur : nat) : outcome bool :=
  match fuel with
  | 0 => Fuel
  | S f =>
    if cur =? 0 then Ok false
    else
      cp ← rd (pa s) child;
      if negb (parent =? 0) && negb (cp =? parent) then Ok false
      else
        ok1 ← (if parent =? 0 then Ok true
               else a ← rd (lc s) parent; b ← rd (lc s) cp; Ok (a =? b));
        if negb ok1 then Ok false
        else
          n ← rd (ns s) child; np ← rd (ps s) n;
          ok2 ← (if np =? child then p ← rd (ps s) child; pn ← rd (ns s) p; Ok (pn =? child)
                 else Ok false);
          if negb ok2 then Ok false
          else
            ok3 ← (if parent =? 0 then Ok true
                   else
                     x ← value s parent; y ← value s cur;
                     Ok (match cmp x y, wrong_order with Lt, Lt | Gt, Gt => false | _, _ => true end));
            if negb ok3 then Ok false
            else
              l ← rd (lc s) cur;
              ok4 ← (if l =? 0 then Ok true else ring_valid f s cur l l);
              if negb ok4 then Ok false
              else
                nx ← rd (ns s) cur;
                if nx =? child then Ok true else ring_valid f s parent child nx
  end.
Definition has_valid_links (s : pmem) (parent child : nat) : outcome bool :=
  if child =? 0 then Ok true else ring_valid (S (size (ns s))) s parent child child.

(** src/priority_queue.c:196-212 ccc_pq_validate. *)
Definition pq_validate (s : pmem) : outcome bool :=
  q ← (if root s =? 0 then Ok 0 else rd (pa s) (root s));
  if negb (q =? 0) then Ok false
  else
    b ← has_valid_links s 0 (root s);
    if negb b then Ok false
    else n ← traversal_size s (root s); Ok (n =? sz s)%Z.

(** Calls, their answers, and interactive programs: what a program does next may
    depend on the answers it got. *)
Inductive pq_op : Type :=
  | PNew (e : nat) (v : V) (l n p a : nat)
  | PFront
  | PPush (e ans : nat)
  | PEmplace (v : V) (ans ans2 : nat)
  | PPop
  | PExtract (e : nat)
  | PErase (e : nat)
  | PUpdate (e : nat) (v : V)
  | PIncrease (e : nat) (v : V)
  | PDecrease (e : nat) (v : V)
  | PClear (fn : bool)
  | PSize
  | PIsEmpty
  | PValidate.

Inductive pq_res : Type :=
  | RPtr (p : nat)
  | RResult (r : result)
  | RBool (b : bool)
  | RNum (n : Z)
  | RDestroyed (r : result) (d : list (nat * option V)).

(** [PNew]: the user creates an element at [e] whose link fields hold anything. *)
Definition step (s : pmem) (o : pq_op) : outcome (pmem * pq_res) :=
  match o with
  | PNew e v l n p a => Ok (put s e l n p a v, RPtr e)
  | PFront => Ok (s, RPtr (pq_front s))
  | PPush e ans => '(s1, r) ← pq_push s e ans; Ok (s1, RPtr r)
  | PEmplace v ans ans2 => '(s1, r) ← pq_emplace s v ans ans2; Ok (s1, RPtr r)
  | PPop => '(s1, r) ← pq_pop s; Ok (s1, RResult r)
  | PExtract e => '(s1, r) ← pq_extract s e; Ok (s1, RPtr r)
  | PErase e => '(s1, r) ← pq_erase s e; Ok (s1, RResult r)
  | PUpdate e v => '(s1, b) ← pq_update s e v; Ok (s1, RBool b)
  | PIncrease e v => '(s1, b) ← pq_increase s e v; Ok (s1, RBool b)
  | PDecrease e v => '(s1, b) ← pq_decrease s e v; Ok (s1, RBool b)
  | PClear fn => '(s1, r, d) ← pq_clear s fn; Ok (s1, RDestroyed r d)
  | PSize => Ok (s, RNum (pq_size s))
  | PIsEmpty => Ok (s, RBool (pq_is_empty s))
  | PValidate => b ← pq_validate s; Ok (s, RBool b)
  end.

Inductive program : Type :=
  | Done
  | Do (o : pq_op) (k : pq_res -> program).

Fixpoint play (s : pmem) (c : program) : outcome (pmem * list pq_res) :=
  match c with
  | Done => Ok (s, [])
  | Do o k =>
    '(s1, r) ← step s o;
    '(s2, rs) ← play s1 (k r);
    Ok (s2, r :: rs)
  end.

(** ccc_impl_pq_init: an empty queue, no nodes. *)
Definition pq_init : pmem := PMem ∅ ∅ ∅ ∅ ∅ ∅ 0 0.

End model.
Arguments pmem V : clear implicits.
Arguments pq_op V : clear implicits.
Arguments pq_res V : clear implicits.
Arguments program V : clear implicits.
