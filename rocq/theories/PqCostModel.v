(** The functions of PqModel.v with a count of the comparisons they make: each is
    the function of the same name there with nothing but the count added, see
    PqCostErase.v. validate is left at no cost. *)
From stdpp Require Import base numbers option gmap fin_maps list.
From Verif Require Import Common LinkHeap PqModel TickModel.

Section model.
Context {V : Type} (cmp : V -> V -> comparison) (order : comparison) (alloc : bool) (off : nat).
Local Notation pmem := (pmem V).
Local Notation beats := (beats cmp order).

Definition merge_c (s : pmem) (old new : nat) : ticked (pmem * nat) :=
  if (old =? 0) || (new =? 0) || (old =? new) then plain (Ok (s, if old =? 0 then new else old))
  else
    b ⇠ tick (beats s new old);
    if (b : bool) then s1 ⇠ plain (link_child s new old); plain (Ok (s1, new))
    else s1 ⇠ plain (link_child s old new); plain (Ok (s1, old)).

Fixpoint pair_loop_c (fuel : nat) (s : pmem) (eldest acc cur : nat) : ticked (pmem * nat * nat) :=
  match fuel with
  | 0 => Fuel
  | S f =>
    if cur =? eldest then plain (Ok (s, acc, cur))
    else
      next ← rd (ns s) cur;
      if next =? eldest then plain (Ok (s, acc, cur))
      else
        next_cur ← rd (ns s) next;
        s1 ← wps s next 0;
        s2 ← wns s1 next 0;
        s3 ← wps s2 cur 0;
        s4 ← wns s3 cur 0;
        '(s5, m) ⇠ merge_c s4 cur next;
        '(s6, acc') ⇠ merge_c s5 acc m;
        pair_loop_c f s6 eldest acc' next_cur
  end.

Definition delete_min_c (s : pmem) (r : nat) : ticked (pmem * nat) :=
  l ← rd (lc s) r;
  if l =? 0 then plain (Ok (s, 0))
  else
    eldest ← rd (ns s) l;
    cur ← rd (ns s) eldest;
    '(s1, acc, cur') ⇠ pair_loop_c (S (size (ns s))) s eldest eldest cur;
    '(s2, r') ⇠ (if cur' =? eldest then plain (Ok (s1, acc)) else merge_c s1 acc cur');
    s3 ← wps s2 r' r';
    s4 ← wns s3 r' r';
    s5 ← wpa s4 r' 0;
    plain (Ok (s5, r')).

Definition delete_node_c (s : pmem) (e : nat) : ticked (pmem * nat) :=
  if root s =? e then delete_min_c s e
  else
    s1 ← cut_child s e;
    '(s2, r) ⇠ delete_min_c s1 e;
    merge_c s2 (root s2) r.

Definition merge_root_c (s : pmem) (e : nat) : ticked pmem :=
  '(s1, r) ⇠ merge_c s (root s) e; plain (Ok (set_root s1 r)).

Definition delete_root_c (s : pmem) (e : nat) : ticked pmem :=
  '(s1, r) ⇠ delete_node_c s e; plain (Ok (set_root s1 r)).

Definition pq_push_c (s : pmem) (e ans : nat) : ticked (pmem * nat) :=
  if e =? 0 then plain (Ok (s, 0))
  else
    s1 ← init_node s e;
    if alloc then
      if ans =? 0 then plain (Ok (s1, 0))
      else
        s2 ← alloc_copy s1 ans e;
        s3 ⇠ merge_root_c s2 (e + off);
        plain (Ok (set_sz s3 (sz s3 + 1), ans))
    else
      s3 ⇠ merge_root_c s1 e;
      plain (Ok (set_sz s3 (sz s3 + 1), e)).

Definition pq_emplace_c (s : pmem) (v : V) (ans ans2 : nat) : ticked (pmem * nat) :=
  if negb alloc then plain (Ok (s, 0))
  else if ans =? 0 then plain (Ok (s, 0))
  else
    '(s1, _) ⇠ pq_push_c (own (put s ans 0 0 0 0 v) ans) ans ans2;
    plain (Ok (s1, ans)).

Definition pq_pop_c (s : pmem) : ticked (pmem * result) :=
  if root s =? 0 then plain (Ok (s, INPUT_ERR))
  else
    let popped := root s in
    '(s1, r) ⇠ delete_min_c s popped;
    s2 ← clear_node (set_sz (set_root s1 r) (sz s1 - 1)) popped;
    if alloc then s3 ← free s2 popped; plain (Ok (s3, OK)) else plain (Ok (s2, OK)).

Definition pq_extract_c (s : pmem) (e : nat) : ticked (pmem * nat) :=
  if (e =? 0) || (root s =? 0) then plain (Ok (s, 0))
  else
    u ← unlinked s e;
    if (u : bool) then plain (Ok (s, 0))
    else
      s1 ⇠ delete_root_c s e;
      s2 ← clear_node (set_sz s1 (sz s1 - 1)) e;
      plain (Ok (s2, e)).

Definition pq_erase_c (s : pmem) (e : nat) : ticked (pmem * result) :=
  if (e =? 0) || (root s =? 0) then plain (Ok (s, INPUT_ERR))
  else
    u ← unlinked s e;
    if (u : bool) then plain (Ok (s, INPUT_ERR))
    else
      s1 ⇠ delete_root_c s e;
      let s2 := set_sz s1 (sz s1 - 1) in
      if alloc then s3 ← free s2 e; plain (Ok (s3, OK)) else plain (Ok (s2, OK)).

Fixpoint clear_loop_c (fuel : nat) (s : pmem) (fn : bool) : ticked (pmem * list (nat * option V)) :=
  if (sz s =? 0)%Z then plain (Ok (s, []))
  else match fuel with
  | 0 => Fuel
  | S f =>
    let d := (pq_front s, dat s !! pq_front s) in
    '(s1, _) ⇠ pq_pop_c s;
    '(s2, ds) ⇠ clear_loop_c f s1 fn;
    plain (Ok (s2, if fn then d :: ds else ds))
  end.
Definition pq_clear_c (s : pmem) (fn : bool) : ticked (pmem * result * list (nat * option V)) :=
  '(s1, ds) ⇠ clear_loop_c (Z.to_nat (sz s)) s fn; plain (Ok (s1, OK, ds)).

Definition reinsert_c (s : pmem) (e : nat) : ticked pmem :=
  s1 ⇠ delete_root_c s e; s2 ← init_node s1 e; merge_root_c s2 e.

Definition cut_merge_c (s : pmem) (e : nat) : ticked pmem :=
  s1 ← cut_child s e; merge_root_c s1 e.

Definition update_fixup_c (s : pmem) (e : nat) : ticked pmem :=
  q ← rd (pa s) e;
  b ⇠ (if q =? 0 then plain (Ok false) else tick (beats s e q));
  if (b : bool) then cut_merge_c s e else reinsert_c s e.

Definition increase_fixup_c (s : pmem) (e : nat) : ticked pmem :=
  match order with Gt => cut_merge_c s e | _ => reinsert_c s e end.
Definition decrease_fixup_c (s : pmem) (e : nat) : ticked pmem :=
  match order with Lt => cut_merge_c s e | _ => reinsert_c s e end.

Definition changing_c (fixup : pmem -> nat -> ticked pmem) (s : pmem) (e : nat) (v : V) : ticked (pmem * bool) :=
  if e =? 0 then plain (Ok (s, false))
  else
    u ← unlinked s e;
    if (u : bool) then plain (Ok (s, false))
    else s1 ← set_value s e v; s2 ⇠ fixup s1 e; plain (Ok (s2, true)).
Definition pq_update_c := changing_c update_fixup_c.
Definition pq_increase_c := changing_c increase_fixup_c.
Definition pq_decrease_c := changing_c decrease_fixup_c.

Definition step_c (s : pmem) (o : pq_op V) : ticked (pmem * pq_res V) :=
  match o with
  | PNew e v l n p a => plain (Ok (put s e l n p a v, RPtr e))
  | PFront => plain (Ok (s, RPtr (pq_front s)))
  | PPush e ans => '(s1, r) ⇠ pq_push_c s e ans; plain (Ok (s1, RPtr r))
  | PEmplace v ans ans2 => '(s1, r) ⇠ pq_emplace_c s v ans ans2; plain (Ok (s1, RPtr r))
  | PPop => '(s1, r) ⇠ pq_pop_c s; plain (Ok (s1, RResult r))
  | PExtract e => '(s1, r) ⇠ pq_extract_c s e; plain (Ok (s1, RPtr r))
  | PErase e => '(s1, r) ⇠ pq_erase_c s e; plain (Ok (s1, RResult r))
  | PUpdate e v => '(s1, b) ⇠ pq_update_c s e v; plain (Ok (s1, RBool b))
  | PIncrease e v => '(s1, b) ⇠ pq_increase_c s e v; plain (Ok (s1, RBool b))
  | PDecrease e v => '(s1, b) ⇠ pq_decrease_c s e v; plain (Ok (s1, RBool b))
  | PClear fn => '(s1, r, d) ⇠ pq_clear_c s fn; plain (Ok (s1, RDestroyed r d))
  | PSize => plain (Ok (s, RNum (pq_size s)))
  | PIsEmpty => plain (Ok (s, RBool (pq_is_empty s)))
  | PValidate => b ← pq_validate cmp order s; plain (Ok (s, RBool b))
  end.

Fixpoint play_c (s : pmem) (c : program V) : ticked (pmem * list (pq_res V)) :=
  match c with
  | Done => plain (Ok (s, []))
  | Do o k =>
    '(s1, r) ⇠ step_c s o;
    '(s2, rs) ⇠ play_c s1 (k r);
    plain (Ok (s2, r :: rs))
  end.
End model.
