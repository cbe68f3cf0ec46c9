(** Properties of the flat ordered map (splay tree in the slots of a buffer): C32
    and its part of C39 and C41. *)
From stdpp Require Import base numbers option gmap fin_maps list.
From Coq Require Import Sorting.Sorted.
From Verif Require Import Common LinkHeap OrderSpec MapSpec MapCases TreeModel WavlModel FlatOps FlatSpec FlatModel FlatCases
  FomModel FomProofs FomHistories.

(** The documented contract, and the one the code keeps. *)
Definition documented (alloc : bool) : fcontract := FContract alloc false true true (fun _ => true).
Definition kept (alloc : bool) : fcontract := FContract alloc true false false negb.

(** Memory that was zeroed, and memory that was not. *)
Definition zeroed (i : nat) : fnode := Node 0 0 0 false.
Definition raw (i : nat) : fnode := Node (i * 7) (i + 3) 9 (Nat.odd i).
Definition el (k v : nat) : user nat nat := (Node 5 6 7 false, (k, v)).

(** C32. False in four respects. The entry of an insertion over an existing key
    unwraps to the new value in the map. *)
Theorem C32_insert_old_refuted :
  exists ops rs A s rs',
    fcalls Nat.compare (documented true) (fstart (K:=nat) (V:=nat) 0) ops rs A /\
    fom_run Nat.compare true (flat_init 0 zeroed) ops = Ok (s, rs') /\
    last rs = Some (XEnt true false (Some (Handle, (5, 50))) (Some (5, 50))) /\
    last rs' = Some (XEnt true false (Some (Slot 1, (5, 55))) (Some (5, 50))).
Proof.
  exists [FInsert (el 5 50) (Some zeroed); FInsert (el 5 55) None]. eexists _, _, _, _.
  split; [apply fexecs_sound; by vm_compute|]. split; [by vm_compute|]. by vm_compute.
Qed.

(** remove does not write the removed value to the user's struct. *)
Theorem C32_remove_handle_refuted :
  exists ops rs A s rs',
    fcalls Nat.compare (documented true) (fstart (K:=nat) (V:=nat) 0) ops rs A /\
    fom_run Nat.compare true (flat_init 0 zeroed) ops = Ok (s, rs') /\
    last rs = Some (XEnt true false (Some (Handle, (5, 50))) (Some (5, 50))) /\
    last rs' = Some (XEnt true false (Some (Slot 1, (5, 50))) (Some (5, 0))).
Proof.
  exists [FInsert (el 5 50) (Some zeroed); FRemove (el 5 0)]. eexists _, _, _, _.
  split; [apply fexecs_sound; by vm_compute|]. split; [by vm_compute|]. by vm_compute.
Qed.

(** contains on an empty map compares with slot 0: it may report a key that was
    removed, and reads memory that was never written if there was no element. *)
Theorem C32_contains_empty_refuted :
  (exists ops rs A s rs',
    fcalls Nat.compare (documented true) (fstart (K:=nat) (V:=nat) 0) ops rs A /\
    fom_run Nat.compare true (flat_init 0 zeroed) ops = Ok (s, rs') /\
    flat_size s = 0 /\ last rs = Some (XBool false) /\ last rs' = Some (XBool true)) /\
  (exists ops rs A,
    fcalls Nat.compare (documented false) (fstart (K:=nat) (V:=nat) 4) ops rs A /\
    fom_run Nat.compare false (flat_init 4 zeroed) ops = UB).
Proof.
  split.
  - exists [FInsert (el 5 50) (Some zeroed); FInsert (el 3 30) None; FRemove (el 5 0); FRemove (el 3 0); FContains 5].
    eexists _, _, _, _. split; [apply fexecs_sound; by vm_compute|]. split; [by vm_compute|]. by vm_compute.
  - exists [FContains 5]. eexists _, _. split; [apply fexecs_sound; by vm_compute|]. by vm_compute.
Qed.

(** clear with a destructor destroys slots of an unused map. *)
Theorem C32_clear_unused_refuted :
  exists ops rs A,
    fcalls Nat.compare (documented false) (fstart (K:=nat) (V:=nat) 4) ops rs A /\
    fom_run Nat.compare false (flat_init 4 zeroed) ops = UB.
Proof. exists [FClear true]. eexists _, _. split; [apply fexecs_sound; by vm_compute|]. by vm_compute. Qed.

(** With these respects excepted every history of permitted calls gives the answers
    of a finite map, with slots as specified: whatever the memory contains, whenever
    it is refused. Missing: the four respects. *)
Theorem C32_history_partial :
  forall (K V : Type) (cmp : K -> K -> comparison), total_preorder cmp ->
  forall (alloc : bool) n junk (ops : list (flat_op K V)) rs A,
  fcalls cmp (kept alloc) (fstart n) ops rs A ->
  exists s rs', fom_run cmp alloc (flat_init n junk) ops = Ok (s, rs') /\ Forall2 fagree rs rs' /\
    fshown A (flat_size s) (flat_capacity s) (flat_iter s true) (flat_iter s false) (fom_validate cmp s).
Proof. exact @fom_history. Qed.

(** The specification says something for every key. *)
Theorem C32_present_or_absent :
  forall (K V : Type) (cmp : K -> K -> comparison), total_preorder cmp ->
  forall (alloc : bool) n (ops : list (flat_op K V)) rs A k,
  fcalls cmp (kept alloc) (fstart n) ops rs A ->
  (exists l1 x l2, present_at cmp A k l1 x l2) \/ (exists l1 l2, absent_at cmp A k l1 l2).
Proof. exact @fom_covers. Qed.

(** A removal, which may move another element, does not change what is stored under
    the other keys. *)
Theorem C32_other_keys :
  forall (K V : Type) (cmp : K -> K -> comparison), total_preorder cmp ->
  forall (alloc : bool) n junk (ops : list (flat_op K V)) rs A nd kv k',
  fcalls cmp (kept alloc) (fstart n) ops rs A -> cmp (fst kv) k' <> Eq ->
  exists s rs' p r q, fom_run cmp alloc (flat_init n junk) (ops ++ [FGet k'; FRemove (nd, kv); FGet k']) =
      Ok (s, rs' ++ [XPtr p; r; XPtr q]) /\ Forall2 fagree rs rs' /\ option_map snd p = option_map snd q.
Proof. exact @fom_others. Qed.

(** An insertion that gets no memory says so and leaves the map as it was. *)
Theorem C32_refused :
  forall (K V : Type) (cmp : K -> K -> comparison), total_preorder cmp ->
  forall (alloc : bool) n junk (ops : list (flat_op K V)) rs A nd kv ans l1 l2 o,
  fcalls cmp (kept alloc) (fstart n) ops rs A -> absent_at cmp A (fst kv) l1 l2 -> room A < S (S (count A)) ->
  alloc = false \/ ans = None -> o ∈ [FInsert (nd, kv) ans; FTryInsert (nd, kv) ans; FAssign (nd, kv) ans] ->
  exists s rs' ps s', fom_run cmp alloc (flat_init n junk) ops = Ok (s, rs') /\ flat_iter s true = Ok ps /\
    fom_run cmp alloc s [o] = Ok (s', [XEnt false true None (Some kv)]) /\
    flat_iter s' true = Ok ps /\ flat_size s' = flat_size s /\ flat_capacity s' = flat_capacity s.
Proof. exact @fom_refused. Qed.

(** No loop runs out of the bound the model gives it. *)
Theorem C32_loops :
  forall (K V : Type) (cmp : K -> K -> comparison), total_preorder cmp ->
  forall (alloc : bool) n junk (ops : list (flat_op K V)) rs A,
  fcalls cmp (kept alloc) (fstart n) ops rs A ->
  fom_run cmp alloc (flat_init n junk) ops <> Fuel.
Proof.
  intros K V cmp Hcmp alloc n junk ops rs A Hc.
  destruct (fom_history cmp Hcmp alloc n junk ops rs A Hc) as (s & rs' & -> & _). done.
Qed.

(** Walks are in key order, and a range delimits exactly the elements between its
    bounds. *)
Theorem C32_walk :
  forall (K V : Type) (cmp : K -> K -> comparison), total_preorder cmp ->
  forall (alloc : bool) n junk (ops : list (flat_op K V)) rs A,
  fcalls cmp (kept alloc) (fstart n) ops rs A ->
  exists s rs' ps, fom_run cmp alloc (flat_init n junk) ops = Ok (s, rs') /\
    flat_iter s true = Ok ps /\ flat_iter s false = Ok (rev ps) /\
    map fst ps = elems (fv A) /\ Forall (fun p => vals (fv A) !! fst p = Some (snd p)) ps /\
    StronglySorted (fun p q => cmp (fst (snd p)) (fst (snd q)) = Lt) ps.
Proof. exact @fom_walk. Qed.

Theorem C32_range :
  forall (K V : Type) (cmp : K -> K -> comparison), total_preorder cmp ->
  forall (alloc : bool) n junk (ops : list (flat_op K V)) rs A a b,
  fcalls cmp (kept alloc) (fstart n) ops rs A -> cmp a b <> Gt ->
  exists s rs' s' l1 l2 l3, fom_run cmp alloc (flat_init n junk) ops = Ok (s, rs') /\ elems (fv A) = l1 ++ l2 ++ l3 /\
    fom_range cmp s true a b = Ok (s', bound A (hd 0 (l2 ++ l3)), bound A (hd 0 l3)) /\
    Forall (keyed cmp (fv A) Gt a) l1 /\ Forall (inside cmp (fv A) a b) l2 /\ Forall (keyed cmp (fv A) Lt b) l3.
Proof. exact @fom_ranges. Qed.

Theorem C32_rrange :
  forall (K V : Type) (cmp : K -> K -> comparison), total_preorder cmp ->
  forall (alloc : bool) n junk (ops : list (flat_op K V)) rs A a b,
  fcalls cmp (kept alloc) (fstart n) ops rs A -> cmp b a <> Gt ->
  exists s rs' s' l1 l2 l3, fom_run cmp alloc (flat_init n junk) ops = Ok (s, rs') /\ rev (elems (fv A)) = l1 ++ l2 ++ l3 /\
    fom_range cmp s false a b = Ok (s', bound A (hd 0 (l2 ++ l3)), bound A (hd 0 l3)) /\
    Forall (keyed cmp (fv A) Lt a) l1 /\ Forall (inside cmp (fv A) b a) l2 /\ Forall (keyed cmp (fv A) Gt b) l3.
Proof. exact @fom_rranges. Qed.

(** C39. After clear_and_free the map still reports its old size, and the next
    insertion writes to memory that is not there. *)
Theorem C39_fom_clear_and_free_refuted :
  exists (ops : list (flat_op nat nat)) rs A s rs' s',
    fcalls Nat.compare (kept true) (fstart 0) ops rs A /\
    fom_run Nat.compare true (flat_init 0 zeroed) ops = Ok (s, rs') /\
    flat_clear_and_free true s false = Ok (s', OK, []) /\
    flat_size s' = 2 /\ flat_is_empty s' = false /\ flat_capacity s' = 0 /\
    fom_step Nat.compare true s' (FInsert (el 7 70) (Some zeroed)) = UB.
Proof.
  exists [FInsert (el 5 50) (Some zeroed); FInsert (el 3 30) None]. eexists _, _, _, _, _.
  split; [apply fexecs_sound; by vm_compute|]. split; [by vm_compute|]. split; [by vm_compute|]. by vm_compute.
Qed.

(** What holds: every element is destroyed once, nothing is left to walk, and the
    memory is released if there is an allocator. Missing: the size. *)
Theorem C39_fom_clear_and_free_partial :
  forall (K V : Type) (cmp : K -> K -> comparison), total_preorder cmp ->
  forall (alloc fn : bool) n junk (ops : list (flat_op K V)) rs A,
  fcalls cmp (kept alloc) (fstart n) ops rs A -> fn = false \/ used A = true ->
  exists s rs' ps s' l, fom_run cmp alloc (flat_init n junk) ops = Ok (s, rs') /\ flat_iter s true = Ok ps /\
    flat_clear_and_free alloc s fn = Ok (s', if alloc then OK else NO_ALLOC, l) /\ l ≡ₚ (if fn then ps else []) /\
    flat_size s' = flat_size s /\ flat_begin s' true = Ok 0 /\ flat_capacity s' = if alloc then 0 else flat_capacity s.
Proof. exact @fom_free. Qed.

(** C41. A copy that gets its memory has the elements of the source in the same
    order and behaves like it from then on, whatever the destination was. Missing:
    failures. *)
Theorem C41_fom_copy_partial :
  forall (K V : Type) (cmp : K -> K -> comparison), total_preorder cmp ->
  forall (alloc alloc' fn : bool) n n' junk junk' ans (ops ops' : list (flat_op K V)) rs rs' A B more ms C,
  fcalls cmp (kept alloc) (fstart n) ops rs A -> fcalls cmp (kept alloc') (fstart n') ops' rs' B ->
  room A <= room B \/ fn = true /\ is_Some ans ->
  fcalls cmp (kept alloc') (FView (fv A) (room A `max` room B) (used A)) more ms C ->
  exists s qs d qs' d' d'' ms',
    fom_run cmp alloc (flat_init n junk) ops = Ok (s, qs) /\ fom_run cmp alloc' (flat_init n' junk') ops' = Ok (d, qs') /\
    flat_copy d s fn ans = (d', OK) /\ flat_size d' = flat_size s /\ flat_iter d' true = flat_iter s true /\
    flat_iter d' false = flat_iter s false /\ fom_validate cmp d' = Ok true /\
    fom_run cmp alloc' d' more = Ok (d'', ms') /\ Forall2 fagree ms ms' /\
    fshown C (flat_size d'') (flat_capacity d'') (flat_iter d'' true) (flat_iter d'' false) (fom_validate cmp d'').
Proof. exact @fom_copied. Qed.

(** If the allocation function refuses, the destination has the root and size of the
    source over its own elements. *)
Theorem C41_fom_copy_failure_refuted :
  exists (ops ops' : list (flat_op nat nat)) s d d' rs rs',
    fom_run Nat.compare true (flat_init 0 zeroed) ops = Ok (s, rs) /\
    fom_run Nat.compare false (flat_init 3 zeroed) ops' = Ok (d, rs') /\
    flat_copy d s true None = (d', MEM_ERR) /\
    flat_iter d true = Ok [(1, (7, 70))] /\ flat_size d = 1 /\
    flat_size d' = 4 /\ flat_begin d' true = UB /\ fom_validate Nat.compare d' = UB.
Proof.
  exists [FInsert (el 5 50) (Some zeroed); FInsert (el 3 30) None; FInsert (el 8 30) None; FInsert (el 9 9) None], [FInsert (el 7 70) None].
  eexists _, _, _, _, _. split; [by vm_compute|]. split; [by vm_compute|]. split; [by vm_compute|]. by vm_compute.
Qed.

(** ** Examples *)

Definition lent : list (flat_op nat nat) :=
  [FGet 1; FSize; FBegin; FInsert (el 5 50) (Some raw); FCapacity; FInsert (el 3 30) None; FTryInsert (el 8 80) None; FContains 1;
   FAssign (el 1 10) None; FInsert (el 5 55) None; FAssign (el 3 33) None; FTryInsert (el 1 11) None; FOrInsert 9 (el 9 90) None;
   FOrInsert 9 (el 9 99) None; FInsertEntry 4 (el 4 40) None; FInsertEntry 4 (el 4 44) None; FAndModify 8 S; FAndModify 7 S;
   FOrInsertW 6 (el 6 60) None; FTryInsertW 7 (el 0 70) None; FTryInsertW 7 (el 0 70) (Some zeroed); FAssignW 7 (el 0 77) None; FInsertEntryW 2 (el 2 20) None;
   FInsertEntryW 2 (el 2 22) None; FCapacity; FSize; FBegin; FNext 4; FRBegin; FRNext 5; FRange 3 6; FRRange 6 3; FRemove (el 5 0); FRemove (el 5 0); FRemoveEntry 1; FRemoveEntry 1;
   FEntry 2; FEntry 7; FValidate; FClear true; FIsEmpty; FAssignW 2 (el 0 2) None; FOrInsertW 2 (el 2 3) None; FSize].
Definition fixed : list (flat_op nat nat) :=
  [FClear false; FInsert (el 5 50) (Some raw); FInsert (el 3 30) (Some raw); FInsert (el 8 80) (Some raw); FInsert (el 9 90) (Some raw); FSize;
   FRemove (el 3 0); FInsert (el 9 90) None; FGet 8; FGet 9; FValidate; FClear false; FGet 8; FRange 0 9; FInsert (el 1 1) None; FValidate].

Definition stairs : list (flat_op nat nat) :=
  [FInsert (el 1 1) (Some raw); FInsert (el 2 2) None; FInsert (el 3 3) None; FInsert (el 4 4) None; FInsert (el 5 5) None;
   FInsert (el 6 6) None; FInsert (el 7 7) None].

Example C32_case_lent :
  (exists rs A, fcalls Nat.compare (kept true) (fstart 0) lent rs A) /\
  match fom_run Nat.compare true (flat_init 0 raw) lent with
  | Ok (_, rs) => rs =
    [XPtr None; XNum 0; XIter 0; XEnt false false None (Some (5, 50)); XNum 8; XEnt false false None (Some (3, 30));
     XEnt false false (Some (Slot 3, (8, 80))) (Some (8, 80)); XBool false; XEnt false false (Some (Slot 4, (1, 10))) (Some (1, 10));
     XEnt true false (Some (Slot 1, (5, 55))) (Some (5, 50)); XEnt true false (Some (Slot 2, (3, 33))) (Some (3, 33));
     XEnt true false (Some (Slot 4, (1, 10))) (Some (1, 11)); XPtr (Some (5, (9, 90))); XPtr (Some (5, (9, 90)));
     XPtr (Some (6, (4, 40))); XPtr (Some (6, (4, 44))); XPtr (Some (3, (8, 81))); XPtr None; XPtr (Some (7, (6, 60)));
     XEnt false true None None; XEnt false false (Some (Slot 8, (7, 70))) None; XEnt true false (Some (Slot 8, (7, 77))) None;
     XPtr (Some (9, (2, 20))); XPtr (Some (9, (2, 22))); XNum 16; XNum 9; XIter 4; XIter 9; XIter 5; XIter 3;
     XRange (Some 2) (Some 8); XRange (Some 7) (Some 9); XEnt true false (Some (Slot 9, (5, 55))) (Some (5, 0));
     XEnt false false None (Some (5, 0)); XEnt true false (Some (Slot 8, (1, 10))) None; XEnt false false None None;
     XEnt true false (Some (Slot 1, (2, 22))) None; XEnt true false (Some (Slot 4, (7, 77))) None; XBool true;
     XDestroyed OK [(1, (2, 22)); (2, (3, 33)); (3, (8, 81)); (4, (7, 77)); (5, (9, 90)); (6, (4, 44)); (7, (6, 60))]; XBool true;
     XEnt false false (Some (Slot 1, (2, 2))) None; XPtr (Some (1, (2, 2))); XNum 1]
  | _ => False
  end.
Proof. split; [|by vm_compute]. apply permitted_any. by vm_compute. Qed.

(** Three elements fill a buffer of four slots; a removal makes room again. *)
Example C32_case_fixed :
  (exists rs A, fcalls Nat.compare (kept false) (fstart 4) fixed rs A) /\
  match fom_run Nat.compare false (flat_init 4 raw) fixed with
  | Ok (_, rs) => rs =
    [XDestroyed OK []; XEnt false false None (Some (5, 50)); XEnt false false None (Some (3, 30)); XEnt false false None (Some (8, 80));
     XEnt false true None (Some (9, 90)); XNum 3; XEnt true false (Some (Slot 3, (3, 30))) (Some (3, 0));
     XEnt false false None (Some (9, 90)); XPtr (Some (2, (8, 80))); XPtr (Some (3, (9, 90))); XBool true; XDestroyed OK [];
     XPtr None; XRange None None; XEnt false false None (Some (1, 1)); XBool true]
  | _ => False
  end.
Proof. split; [|by vm_compute]. apply permitted_any. by vm_compute. Qed.

(** Slot 7 takes the place of the removed slot 4. *)
Example C32_case_moved :
  (exists rs A, fcalls Nat.compare (kept true) (fstart 0) (stairs ++ [FRemoveEntry 4]) rs A) /\
  match fom_run Nat.compare true (flat_init 0 raw) (stairs ++ [FRemoveEntry 4]) with
  | Ok (s', _) =>
    wroot (tr s') = 3 /\ map (rd (lf (wl (tr s')))) (seq 1 6) = map Ok [0; 1; 2; 0; 0; 5] /\
    map (rd (rt (wl (tr s')))) (seq 1 6) = map Ok [0; 0; 6; 0; 0; 4] /\
    flat_iter s' true = Ok [(1, (1, 1)); (2, (2, 2)); (3, (3, 3)); (5, (5, 5)); (6, (6, 6)); (4, (7, 7))] /\
    match fom_range Nat.compare s' true 3 6 with Ok (_, x, y) => (x, y) = (Some 3, Some 4) | _ => False end
  | _ => False
  end.
Proof. split; [|by vm_compute]. apply permitted_any. by vm_compute. Qed.

(** A full buffer refuses a fourth element. *)
Example C32_case_refused :
  exists rs A, fcalls Nat.compare (kept false) (fstart 4) (firstn 4 fixed) rs A /\ room A < S (S (count A)) /\
    absent_at Nat.compare A 9 (elems (fv A)) [].
Proof.
  eexists _, _. split; [apply fexecs_sound; by vm_compute|]. split; [by vm_compute; lia|].
  split; [by vm_compute|]. split; [|constructor].
  repeat constructor; by (eexists; split; [by vm_compute|]).
Qed.

Example C39_fom_case :
  (exists rs A, fcalls Nat.compare (kept true) (fstart 0) stairs rs A /\ used A = true) /\
  match fom_run Nat.compare true (flat_init 0 raw) stairs with
  | Ok (s, _) =>
    match flat_clear_and_free true s true with
    | Ok (s', OK, l) => length l = 7 /\ flat_capacity s' = 0 /\ flat_size s' = 7
    | _ => False
    end
  | _ => False
  end.
Proof. split; [|by vm_compute]. eexists _. apply permitted. by vm_compute. Qed.

(** From four slots into three and into five. *)
Example C41_fom_case :
  match fom_run Nat.compare true (flat_init 4 raw) (firstn 4 fixed), fom_run Nat.compare false (flat_init 3 raw) (firstn 2 stairs) with
  | Ok (s, _), Ok (d, _) =>
    let '(d', r) := flat_copy d s true (Some zeroed) in
    let '(e', r') := flat_copy (flat_init 5 zeroed) s false None in
    r = OK /\ r' = OK /\ flat_iter d' true = Ok [(2, (3, 30)); (1, (5, 50)); (3, (8, 80))] /\
    flat_iter e' true = Ok [(2, (3, 30)); (1, (5, 50)); (3, (8, 80))] /\
    flat_capacity d' = 4 /\ flat_capacity e' = 5 /\ flat_size d = 2 /\ flat_size d' = 3
  | _, _ => False
  end.
Proof. by vm_compute. Qed.

Print Assumptions C32_insert_old_refuted.
Print Assumptions C32_remove_handle_refuted.
Print Assumptions C32_contains_empty_refuted.
Print Assumptions C32_clear_unused_refuted.
Print Assumptions C32_history_partial.
Print Assumptions C32_present_or_absent.
Print Assumptions C32_other_keys.
Print Assumptions C32_refused.
Print Assumptions C32_loops.
Print Assumptions C32_walk.
Print Assumptions C32_range.
Print Assumptions C32_rrange.
Print Assumptions C39_fom_clear_and_free_refuted.
Print Assumptions C39_fom_clear_and_free_partial.
Print Assumptions C41_fom_copy_partial.
Print Assumptions C41_fom_copy_failure_refuted.
