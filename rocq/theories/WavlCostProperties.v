(** What searching and walking the two realtime ordered maps costs, as documented. *)
From stdpp Require Import base numbers option gmap fin_maps list.
From Verif Require Import Common LinkHeap OrderSpec MapOps MapSpec TreeModel CostModel CostErase TreeProofs WavlModel MapProofs
  OmWalkCost RomModel RomProofs RomCalls FlatOps FlatSpec FlatModel FlatProofs FlatCalls FrmModel FrmProofs FrmHistories
  WavlCostModel WavlCostErase WavlCost RomWalkCost FlatWalkCost FrmWalkCost.

Definition kept (alloc : bool) : contract := Contract alloc true true.

(** The functions that count are those of the model, which they become when the
    count is forgotten. *)
Theorem C52_rom_same_code :
  forall (K V : Type) (cmp : K -> K -> comparison) (s : rom K V) (k a b : K) (d : bool) (x : nat),
  find cmp s k = ('(r, _) ← find_c cmp s k; Ok r) /\
  rom_begin s d = ('(r, _) ← rom_begin_c s d; Ok r) /\
  rom_next s d x = ('(r, _) ← rom_next_c s d x; Ok r) /\
  rom_range cmp s d a b = ('(r, _) ← rom_range_c cmp s d a b; Ok r) /\
  rom_iter s d = ('(r, _) ← rom_iter_c s d; Ok r).
Proof.
  intros. split_and!; symmetry;
    [apply find_c_erase|apply rom_begin_erase|apply rom_next_erase|apply rom_range_erase|apply rom_iter_erase].
Qed.

Theorem C52_frm_same_code :
  forall (K V : Type) (cmp : K -> K -> comparison) (s : flat K V) (k a b : K) (d : bool) (x : nat),
  search cmp s k = ('(r, _) ← search_c cmp s k; Ok r) /\
  flat_begin s d = ('(r, _) ← flat_begin_c s d; Ok r) /\
  flat_next s d x = ('(r, _) ← flat_next_c s d x; Ok r) /\
  frm_range cmp s d a b = ('(r, _) ← frm_range_c cmp s d a b; Ok r) /\
  flat_iter s d = ('(r, _) ← flat_iter_c s d; Ok r).
Proof.
  intros. split_and!; symmetry;
    [apply search_erase|apply flat_begin_erase|apply flat_next_erase|apply frm_range_erase|apply flat_iter_erase].
Qed.

(** C52. After every sequence of permitted calls: a search compares keys at most
    2 lg (n + 1) times, *)
Theorem C52_rom_search :
  forall (K V : Type) (cmp : K -> K -> comparison), total_preorder cmp ->
  forall (alloc : bool) (ops : list (map_op K V)) rs A k,
  calls cmp (kept alloc) start ops rs A ->
  exists s rs' r w, rom_run cmp alloc rom_init ops = Ok (s, rs') /\ find_c cmp s k = Ok (r, w) /\
    hops w = 0 /\ 2 ^ turns w <= S (length (elems A)) * S (length (elems A)).
Proof. exact @rom_history_find. Qed.

Theorem C52_frm_search :
  forall (K V : Type) (cmp : K -> K -> comparison), total_preorder cmp ->
  forall (alloc : bool) n junk (ops : list (flat_op K V)) rs A k,
  fcalls cmp (frm_contract alloc) (fstart n) ops rs A ->
  exists s rs' r w, frm_run cmp alloc (flat_init n junk) ops = Ok (s, rs') /\ search_c cmp s k = Ok (r, w) /\
    hops w = 0 /\ 2 ^ turns w <= S (count A) * S (count A).
Proof. exact @frm_history_search. Qed.

(** begin and rbegin follow at most 2 lg (n + 1) links and compare nothing, *)
Theorem C52_rom_begin :
  forall (K V : Type) (cmp : K -> K -> comparison), total_preorder cmp ->
  forall (alloc : bool) (ops : list (map_op K V)) rs A d,
  calls cmp (kept alloc) start ops rs A ->
  exists s rs' x w, rom_run cmp alloc rom_init ops = Ok (s, rs') /\ rom_begin_c s d = Ok (x, w) /\
    turns w = 0 /\ 2 ^ hops w <= S (length (elems A)) * S (length (elems A)).
Proof. exact @rom_history_begin. Qed.

Theorem C52_frm_begin :
  forall (K V : Type) (cmp : K -> K -> comparison), total_preorder cmp ->
  forall (alloc : bool) n junk (ops : list (flat_op K V)) rs A d,
  fcalls cmp (frm_contract alloc) (fstart n) ops rs A ->
  exists s rs' x w, frm_run cmp alloc (flat_init n junk) ops = Ok (s, rs') /\ flat_begin_c s d = Ok (x, w) /\
    turns w = 0 /\ 2 ^ hops w <= S (count A) * S (count A).
Proof. exact @frm_history_begin. Qed.

(** equal_range and equal_rrange at most twice as many links and comparisons, *)
Theorem C52_rom_range :
  forall (K V : Type) (cmp : K -> K -> comparison), total_preorder cmp ->
  forall (alloc : bool) (ops : list (map_op K V)) rs A (d : bool) a b,
  calls cmp (kept alloc) start ops rs A ->
  exists s rs' r w, rom_run cmp alloc rom_init ops = Ok (s, rs') /\ rom_range_c cmp s d a b = Ok (r, w) /\
    let n := S (length (elems A)) in 2 ^ turns w <= n * n * (n * n) /\ 2 ^ hops w <= n * n * (n * n).
Proof. exact @rom_history_range. Qed.

Theorem C52_frm_range :
  forall (K V : Type) (cmp : K -> K -> comparison), total_preorder cmp ->
  forall (alloc : bool) n junk (ops : list (flat_op K V)) rs A (d : bool) a b,
  fcalls cmp (frm_contract alloc) (fstart n) ops rs A ->
  exists s rs' r w, frm_run cmp alloc (flat_init n junk) ops = Ok (s, rs') /\ frm_range_c cmp s d a b = Ok (r, w) /\
    let m := S (count A) in 2 ^ turns w <= m * m * (m * m) /\ 2 ^ hops w <= m * m * (m * m).
Proof. exact @frm_history_range. Qed.

(** and a whole walk from begin to end, in either direction, at most two links for
    each element. *)
Theorem C52_rom_walk :
  forall (K V : Type) (cmp : K -> K -> comparison), total_preorder cmp ->
  forall (alloc : bool) (ops : list (map_op K V)) rs A d,
  calls cmp (kept alloc) start ops rs A ->
  exists s rs' ps w, rom_run cmp alloc rom_init ops = Ok (s, rs') /\ rom_iter_c s d = Ok (ps, w) /\
    rom_iter s d = Ok ps /\ turns w = 0 /\ hops w <= 2 * length ps.
Proof. exact @rom_history_iter. Qed.

Theorem C52_frm_walk :
  forall (K V : Type) (cmp : K -> K -> comparison), total_preorder cmp ->
  forall (alloc : bool) n junk (ops : list (flat_op K V)) rs A d,
  fcalls cmp (frm_contract alloc) (fstart n) ops rs A ->
  exists s rs' ps w, frm_run cmp alloc (flat_init n junk) ops = Ok (s, rs') /\ flat_iter_c s d = Ok (ps, w) /\
    flat_iter s d = Ok ps /\ turns w = 0 /\ hops w <= 2 * length ps.
Proof. exact @frm_history_iter. Qed.

(** A single call of next or rnext follows at most 2 lg (n + 1) links. What is
    missing is the documented O(1), which is false, see below. *)
Theorem C52_rom_next_partial :
  forall (K V : Type) (cmp : K -> K -> comparison), total_preorder cmp ->
  forall (alloc : bool) (ops : list (map_op K V)) rs A (d : bool) x l1 l2,
  calls cmp (kept alloc) start ops rs A -> (if d then elems A else rev (elems A)) = l1 ++ x :: l2 ->
  exists s rs' w, rom_run cmp alloc rom_init ops = Ok (s, rs') /\ rom_next_c s d x = Ok (hd 0 l2, w) /\
    turns w = 0 /\ 2 ^ hops w <= S (length (elems A)) * S (length (elems A)).
Proof. exact @rom_history_next. Qed.

Theorem C52_frm_next_partial :
  forall (K V : Type) (cmp : K -> K -> comparison), total_preorder cmp ->
  forall (alloc : bool) n junk (ops : list (flat_op K V)) rs A (d : bool) x l1 l2,
  fcalls cmp (frm_contract alloc) (fstart n) ops rs A -> (if d then elems (fv A) else rev (elems (fv A))) = l1 ++ x :: l2 ->
  exists s rs' w, frm_run cmp alloc (flat_init n junk) ops = Ok (s, rs') /\ flat_next_c s d x = Ok (hd 0 l2, w) /\
    turns w = 0 /\ 2 ^ hops w <= S (count A) * S (count A).
Proof. exact @frm_history_next. Qed.

(** next and rnext are documented O(1), but whatever the constant c there is a map
    and an element from which the next is more than c links away. *)
Theorem C52_rom_next_refuted :
  forall (d : bool) (c : nat),
  exists (ops : list (map_op Z nat)) rs A s rs' x l1 l2 w,
    calls Z.compare (kept true) start ops rs A /\ rom_run Z.compare true rom_init ops = Ok (s, rs') /\
    (if d then elems A else rev (elems A)) = l1 ++ x :: l2 /\ rom_next_c s d x = Ok (hd 0 l2, w) /\ c < hops w.
Proof. exact rom_next_dear. Qed.

Theorem C52_frm_next_refuted :
  forall (d : bool) (c : nat),
  exists n (ops : list (flat_op Z nat)) rs A s rs' x l1 l2 w,
    fcalls Z.compare (frm_contract false) (fstart n) ops rs A /\
    frm_run Z.compare false (flat_init n (fun _ => Node 0 0 0 false)) ops = Ok (s, rs') /\
    (if d then elems (fv A) else rev (elems (fv A))) = l1 ++ x :: l2 /\ flat_next_c s d x = Ok (hd 0 l2, w) /\ c < hops w.
Proof. exact frm_next_dear. Qed.

(** Keys 0, 1, ... inserted in this order: the links followed by begin, by next from
    each element and by a range, with its comparisons. *)
Definition rom_costs (m : nat) : outcome (nat * list nat * (nat * nat)) :=
  '(s, _) ← rom_run Z.compare true rom_init (fills true m);
  '(_, w) ← rom_begin_c s true;
  '(_, v) ← rom_range_c Z.compare s true 3%Z 9%Z;
  ws ← (fix go (l : list nat) : outcome (list nat) :=
    match l with [] => Ok [] | x :: l => '(_, w) ← rom_next_c s true x; ws ← go l; Ok (hops w :: ws) end) (seq 2 m);
  Ok (hops w, ws, (turns v, hops v)).
Definition frm_costs (m : nat) : outcome (nat * list nat * (nat * nat)) :=
  '(s, _) ← frm_run Z.compare false (flat_init (m + 1) (fun _ => Node 0 0 0 false)) (map stock (seq 0 m));
  '(_, w) ← flat_begin_c s true;
  '(_, v) ← frm_range_c Z.compare s true 3%Z 9%Z;
  ws ← (fix go (l : list nat) : outcome (list nat) :=
    match l with [] => Ok [] | x :: l => '(_, w) ← flat_next_c s true x; ws ← go l; Ok (hops w :: ws) end) (seq 1 m);
  Ok (hops w, ws, (turns v, hops v)).

Example C52_case :
  rom_costs 15 = Ok (4, [1; 1; 2; 2; 1; 1; 3; 3; 1; 1; 2; 2; 1; 1; 4], (5, 1)) /\
  frm_costs 15 = Ok (4, [1; 1; 2; 2; 1; 1; 3; 3; 1; 1; 2; 2; 1; 1; 4], (5, 1)).
Proof. vm_compute. split; reflexivity. Qed.

Print Assumptions C52_rom_same_code.
Print Assumptions C52_frm_same_code.
Print Assumptions C52_rom_search.
Print Assumptions C52_frm_search.
Print Assumptions C52_rom_begin.
Print Assumptions C52_frm_begin.
Print Assumptions C52_rom_range.
Print Assumptions C52_frm_range.
Print Assumptions C52_rom_walk.
Print Assumptions C52_frm_walk.
Print Assumptions C52_rom_next_partial.
Print Assumptions C52_frm_next_partial.
Print Assumptions C52_rom_next_refuted.
Print Assumptions C52_frm_next_refuted.
