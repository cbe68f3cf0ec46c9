(** Properties of the flat realtime ordered map (WAVL tree in the slots of a
    buffer): C36 and its part of C39 and C41. *)
From stdpp Require Import base numbers option gmap fin_maps list.
From Coq Require Import Sorting.Sorted.
From Verif Require Import Common LinkHeap OrderSpec MapSpec MapCases TreeModel WavlModel FlatOps FlatSpec FlatModel FlatCases
  FrmModel FrmProofs FrmHistories.

(** The documented contract, and the one the code keeps. *)
Definition documented (alloc : bool) : fcontract := FContract alloc false true true (fun _ => true).
Definition kept (alloc : bool) : fcontract := FContract alloc true true true (fun _ => false).

(** Memory that was zeroed, and memory that was not. *)
Definition zeroed (i : nat) : fnode := Node 0 0 0 false.
Definition raw (i : nat) : fnode := Node (i * 7) (i + 3) 9 (Nat.odd i).
Definition el (k v : nat) : user nat nat := (Node 5 6 7 false, (k, v)).

(** C36. False in two respects. The entry of an insertion over an existing key
    unwraps to the new value in the map. *)
Theorem C36_insert_old_refuted :
  exists ops rs A s rs',
    fcalls Nat.compare (documented true) (fstart (K:=nat) (V:=nat) 0) ops rs A /\
    frm_run Nat.compare true (flat_init 0 zeroed) ops = Ok (s, rs') /\
    last rs = Some (XEnt true false (Some (Handle, (5, 50))) (Some (5, 50))) /\
    last rs' = Some (XEnt true false (Some (Slot 1, (5, 55))) (Some (5, 50))).
Proof.
  exists [FInsert (el 5 50) (Some zeroed); FInsert (el 5 55) None]. eexists _, _, _, _.
  split; [apply fexecs_sound; by vm_compute|]. split; [by vm_compute|]. by vm_compute.
Qed.

(** Clearing a map that was never used: without a destructor the sentinel is taken
    for initialised, and validate rejects the map from then on; a map without
    memory reports an error; with a destructor slots that were never written
    are destroyed. *)
Theorem C36_clear_unused_refuted :
  (exists ops rs A s rs',
    fcalls Nat.compare (documented false) (fstart (K:=nat) (V:=nat) 4) ops rs A /\
    frm_run Nat.compare false (flat_init 4 zeroed) ops = Ok (s, rs') /\
    rs = [XDestroyed OK []; XEnt false false None (Some (5, 50)); XBool true] /\
    rs' = [XDestroyed OK []; XEnt false false None (Some (5, 50)); XBool false]) /\
  (exists ops rs A s rs',
    fcalls Nat.compare (documented true) (fstart (K:=nat) (V:=nat) 0) ops rs A /\
    frm_run Nat.compare true (flat_init 0 zeroed) ops = Ok (s, rs') /\
    rs = [XDestroyed OK []] /\ rs' = [XDestroyed INPUT_ERR []]) /\
  (exists ops rs A,
    fcalls Nat.compare (documented false) (fstart (K:=nat) (V:=nat) 4) ops rs A /\
    frm_run Nat.compare false (flat_init 4 zeroed) ops = UB).
Proof.
  split_and!.
  - exists [FClear false; FInsert (el 5 50) None; FValidate]. eexists _, _, _, _.
    split; [apply fexecs_sound; by vm_compute|]. split; [by vm_compute|]. by vm_compute.
  - exists [FClear false]. eexists _, _, _, _.
    split; [apply fexecs_sound; by vm_compute|]. split; [by vm_compute|]. by vm_compute.
  - exists [FClear true]. eexists _, _.
    split; [apply fexecs_sound; by vm_compute|]. by vm_compute.
Qed.

(** With these respects excepted every history of permitted calls gives the answers
    of a finite map, with slots as specified: whatever the memory contains, whenever
    it is refused. Missing: the two respects. *)
Theorem C36_history_partial :
  forall (K V : Type) (cmp : K -> K -> comparison), total_preorder cmp ->
  forall (alloc : bool) n junk (ops : list (flat_op K V)) rs A,
  fcalls cmp (kept alloc) (fstart n) ops rs A ->
  exists s rs', frm_run cmp alloc (flat_init n junk) ops = Ok (s, rs') /\ Forall2 fagree rs rs' /\
    fshown A (flat_size s) (flat_capacity s) (flat_iter s true) (flat_iter s false) (frm_validate cmp s).
Proof. exact @frm_history. Qed.

(** The specification says something for every key. *)
Theorem C36_present_or_absent :
  forall (K V : Type) (cmp : K -> K -> comparison), total_preorder cmp ->
  forall (alloc : bool) n (ops : list (flat_op K V)) rs A k,
  fcalls cmp (kept alloc) (fstart n) ops rs A ->
  (exists l1 x l2, present_at cmp A k l1 x l2) \/ (exists l1 l2, absent_at cmp A k l1 l2).
Proof. exact @frm_covers. Qed.

(** A removal, which may move another element, does not change what is stored under
    the other keys. *)
Theorem C36_other_keys :
  forall (K V : Type) (cmp : K -> K -> comparison), total_preorder cmp ->
  forall (alloc : bool) n junk (ops : list (flat_op K V)) rs A nd kv k',
  fcalls cmp (kept alloc) (fstart n) ops rs A -> cmp (fst kv) k' <> Eq ->
  exists s rs' p r q, frm_run cmp alloc (flat_init n junk) (ops ++ [FGet k'; FRemove (nd, kv); FGet k']) =
      Ok (s, rs' ++ [XPtr p; r; XPtr q]) /\ Forall2 fagree rs rs' /\ option_map snd p = option_map snd q.
Proof. exact @frm_others. Qed.

(** An insertion that gets no memory says so and leaves the map as it was. *)
Theorem C36_refused :
  forall (K V : Type) (cmp : K -> K -> comparison), total_preorder cmp ->
  forall (alloc : bool) n junk (ops : list (flat_op K V)) rs A nd kv ans l1 l2 o,
  fcalls cmp (kept alloc) (fstart n) ops rs A -> absent_at cmp A (fst kv) l1 l2 -> room A < S (S (count A)) ->
  alloc = false \/ ans = None -> o ∈ [FInsert (nd, kv) ans; FTryInsert (nd, kv) ans; FAssign (nd, kv) ans] ->
  exists s rs' ps s', frm_run cmp alloc (flat_init n junk) ops = Ok (s, rs') /\ flat_iter s true = Ok ps /\
    frm_run cmp alloc s [o] = Ok (s', [XEnt false true None (Some kv)]) /\
    flat_iter s' true = Ok ps /\ flat_size s' = flat_size s /\ flat_capacity s' = flat_capacity s.
Proof. exact @frm_refused. Qed.

(** The parity of every remaining element after the rebalancing is still there after
    the relocation. *)
Theorem C36_relocated_parity :
  forall (K V : Type) (cmp : K -> K -> comparison), total_preorder cmp ->
  forall (alloc : bool) n junk (ops : list (flat_op K V)) rs A k l1 x l2,
  fcalls cmp (kept alloc) (fstart n) ops rs A -> present_at cmp A k l1 x l2 ->
  exists s rs' w s', frm_run cmp alloc (flat_init n junk) ops = Ok (s, rs') /\
    unlink 0 (budget (Z.of_nat (flat_size s))) (tr s) x = Ok w /\ remove_fixup s x = Ok (s', count A) /\
    forall y, y ∈ l1 ++ l2 -> is_Some (wp w !! y) /\ wp (tr s') !! moved (count A) x y = wp w !! y.
Proof. exact @frm_parity. Qed.

(** Balance: an element m links below the root satisfies m + 1 <= 2 log2 (n + 1). *)
Theorem C36_depth :
  forall (K V : Type) (cmp : K -> K -> comparison), total_preorder cmp ->
  forall (alloc : bool) n junk (ops : list (flat_op K V)) rs A,
  fcalls cmp (kept alloc) (fstart n) ops rs A ->
  exists s rs', frm_run cmp alloc (flat_init n junk) ops = Ok (s, rs') /\
    forall m x, under (tr s) m x -> 2 ^ S m <= S (count A) * S (count A).
Proof. exact @frm_depth. Qed.

(** A search makes at most [f] comparisons as soon as 2 log2 (n + 1) < f + 1. *)
Theorem C36_search :
  forall (K V : Type) (cmp : K -> K -> comparison), total_preorder cmp ->
  forall (alloc : bool) n junk (ops : list (flat_op K V)) rs A k f,
  fcalls cmp (kept alloc) (fstart n) ops rs A ->
  S (count A) * S (count A) < 2 ^ S f ->
  exists s rs', frm_run cmp alloc (flat_init n junk) ops = Ok (s, rs') /\
    find_loop 0 cmp (S f) (dat s) (wl (tr s)) k 0 (wroot (tr s)) None = search cmp s k /\
    exists p, search cmp s k = Ok p.
Proof. exact @frm_search. Qed.

(** The loops of searches, insertions and removals have the budget of C34_budget. *)
Theorem C36_loops :
  forall (K V : Type) (cmp : K -> K -> comparison), total_preorder cmp ->
  forall (alloc : bool) n junk (ops : list (flat_op K V)) rs A,
  fcalls cmp (kept alloc) (fstart n) ops rs A ->
  frm_run cmp alloc (flat_init n junk) ops <> Fuel.
Proof.
  intros K V cmp Hcmp alloc n junk ops rs A Hc.
  destruct (frm_history cmp Hcmp alloc n junk ops rs A Hc) as (s & rs' & -> & _). done.
Qed.

(** Walks are in key order, and a range delimits exactly the elements between its
    bounds. *)
Theorem C36_walk :
  forall (K V : Type) (cmp : K -> K -> comparison), total_preorder cmp ->
  forall (alloc : bool) n junk (ops : list (flat_op K V)) rs A,
  fcalls cmp (kept alloc) (fstart n) ops rs A ->
  exists s rs' ps, frm_run cmp alloc (flat_init n junk) ops = Ok (s, rs') /\
    flat_iter s true = Ok ps /\ flat_iter s false = Ok (rev ps) /\
    map fst ps = elems (fv A) /\ Forall (fun p => vals (fv A) !! fst p = Some (snd p)) ps /\
    StronglySorted (fun p q => cmp (fst (snd p)) (fst (snd q)) = Lt) ps.
Proof. exact @frm_walk. Qed.

Theorem C36_range :
  forall (K V : Type) (cmp : K -> K -> comparison), total_preorder cmp ->
  forall (alloc : bool) n junk (ops : list (flat_op K V)) rs A a b,
  fcalls cmp (kept alloc) (fstart n) ops rs A -> cmp a b <> Gt ->
  exists s rs' s' l1 l2 l3, frm_run cmp alloc (flat_init n junk) ops = Ok (s, rs') /\ elems (fv A) = l1 ++ l2 ++ l3 /\
    frm_range cmp s true a b = Ok (s', bound A (hd 0 (l2 ++ l3)), bound A (hd 0 l3)) /\
    Forall (keyed cmp (fv A) Gt a) l1 /\ Forall (inside cmp (fv A) a b) l2 /\ Forall (keyed cmp (fv A) Lt b) l3.
Proof. exact @frm_ranges. Qed.

Theorem C36_rrange :
  forall (K V : Type) (cmp : K -> K -> comparison), total_preorder cmp ->
  forall (alloc : bool) n junk (ops : list (flat_op K V)) rs A a b,
  fcalls cmp (kept alloc) (fstart n) ops rs A -> cmp b a <> Gt ->
  exists s rs' s' l1 l2 l3, frm_run cmp alloc (flat_init n junk) ops = Ok (s, rs') /\ rev (elems (fv A)) = l1 ++ l2 ++ l3 /\
    frm_range cmp s false a b = Ok (s', bound A (hd 0 (l2 ++ l3)), bound A (hd 0 l3)) /\
    Forall (keyed cmp (fv A) Lt a) l1 /\ Forall (inside cmp (fv A) b a) l2 /\ Forall (keyed cmp (fv A) Gt b) l3.
Proof. exact @frm_rranges. Qed.

(** C39. After clear_and_free the map still reports its old size, and the next
    insertion writes to memory that is not there. *)
Theorem C39_frm_clear_and_free_refuted :
  exists (ops : list (flat_op nat nat)) rs A s rs' s',
    fcalls Nat.compare (kept true) (fstart 0) ops rs A /\
    frm_run Nat.compare true (flat_init 0 zeroed) ops = Ok (s, rs') /\
    flat_clear_and_free true s false = Ok (s', OK, []) /\
    flat_size s' = 2 /\ flat_is_empty s' = false /\ flat_capacity s' = 0 /\
    frm_step Nat.compare true s' (FInsert (el 7 70) (Some zeroed)) = UB.
Proof.
  exists [FInsert (el 5 50) (Some zeroed); FInsert (el 3 30) None]. eexists _, _, _, _, _.
  split; [apply fexecs_sound; by vm_compute|]. split; [by vm_compute|]. split; [by vm_compute|]. by vm_compute.
Qed.

(** What holds: every element is destroyed once, nothing is left to walk, and the
    memory is released if there is an allocator. Missing: the size. *)
Theorem C39_frm_clear_and_free_partial :
  forall (K V : Type) (cmp : K -> K -> comparison), total_preorder cmp ->
  forall (alloc fn : bool) n junk (ops : list (flat_op K V)) rs A,
  fcalls cmp (kept alloc) (fstart n) ops rs A -> fn = false \/ used A = true ->
  exists s rs' ps s' l, frm_run cmp alloc (flat_init n junk) ops = Ok (s, rs') /\ flat_iter s true = Ok ps /\
    flat_clear_and_free alloc s fn = Ok (s', if alloc then OK else NO_ALLOC, l) /\ l ≡ₚ (if fn then ps else []) /\
    flat_size s' = flat_size s /\ flat_begin s' true = Ok 0 /\ flat_capacity s' = if alloc then 0 else flat_capacity s.
Proof. exact @frm_free. Qed.

(** C41. A copy that gets its memory has the elements of the source in the same
    order and behaves like it from then on, whatever the destination was. Missing:
    failures. *)
Theorem C41_frm_copy_partial :
  forall (K V : Type) (cmp : K -> K -> comparison), total_preorder cmp ->
  forall (alloc alloc' fn : bool) n n' junk junk' ans (ops ops' : list (flat_op K V)) rs rs' A B more ms C,
  fcalls cmp (kept alloc) (fstart n) ops rs A -> fcalls cmp (kept alloc') (fstart n') ops' rs' B ->
  room A <= room B \/ fn = true /\ is_Some ans ->
  fcalls cmp (kept alloc') (FView (fv A) (room A `max` room B) (used A)) more ms C ->
  exists s qs d qs' d' d'' ms',
    frm_run cmp alloc (flat_init n junk) ops = Ok (s, qs) /\ frm_run cmp alloc' (flat_init n' junk') ops' = Ok (d, qs') /\
    flat_copy d s fn ans = (d', OK) /\ flat_size d' = flat_size s /\ flat_iter d' true = flat_iter s true /\
    flat_iter d' false = flat_iter s false /\ frm_validate cmp d' = Ok true /\
    frm_run cmp alloc' d' more = Ok (d'', ms') /\ Forall2 fagree ms ms' /\
    fshown C (flat_size d'') (flat_capacity d'') (flat_iter d'' true) (flat_iter d'' false) (frm_validate cmp d'').
Proof. exact @frm_copied. Qed.

(** Without an allocation function a destination that is too small stays as it is. *)
Theorem C41_frm_copy_too_small :
  forall (K V : Type) (d s : flat K V) ans, cap d < cap s -> flat_copy d s false ans = (d, INPUT_ERR).
Proof. intros K V d s ans Hlt. unfold flat_copy. by rewrite (proj2 (Nat.ltb_lt _ _) Hlt). Qed.

(** If the allocation function refuses, the destination has the root and size of the
    source over its own elements. *)
Theorem C41_frm_copy_failure_refuted :
  exists (ops ops' : list (flat_op nat nat)) s d d' rs rs',
    frm_run Nat.compare true (flat_init 0 zeroed) ops = Ok (s, rs) /\
    frm_run Nat.compare false (flat_init 3 zeroed) ops' = Ok (d, rs') /\
    flat_copy d s true None = (d', MEM_ERR) /\
    flat_iter d true = Ok [(1, (7, 70))] /\ flat_size d = 1 /\
    flat_size d' = 4 /\ flat_iter d' true = Ok [(1, (7, 70))] /\ frm_validate Nat.compare d' = Ok false.
Proof.
  exists [FInsert (el 5 50) (Some zeroed); FInsert (el 3 30) None; FInsert (el 8 30) None; FInsert (el 9 9) None], [FInsert (el 7 70) None].
  eexists _, _, _, _, _. split; [by vm_compute|]. split; [by vm_compute|]. split; [by vm_compute|]. by vm_compute.
Qed.

(** ** Examples *)

Definition lent : list (flat_op nat nat) :=
  [FGet 1; FContains 1; FSize; FBegin; FInsert (el 5 50) (Some raw); FCapacity; FInsert (el 3 30) None; FTryInsert (el 8 80) None;
   FAssign (el 1 10) None; FInsert (el 5 55) None; FAssign (el 3 33) None; FTryInsert (el 1 11) None; FOrInsert 9 (el 9 90) None;
   FOrInsert 9 (el 9 99) None; FInsertEntry 4 (el 4 40) None; FInsertEntry 4 (el 4 44) None; FAndModify 8 S; FAndModify 7 S;
   FOrInsertW 6 (el 6 60) None; FTryInsertW 7 (el 0 70) None; FTryInsertW 7 (el 0 70) (Some zeroed); FAssignW 7 (el 0 77) None; FInsertEntryW 2 (el 2 20) None;
   FInsertEntryW 2 (el 2 22) None; FCapacity; FSize; FBegin; FNext 4; FRBegin; FRNext 5; FRange 3 6; FRRange 6 3; FRemove (el 5 0); FRemove (el 5 0); FRemoveEntry 1; FRemoveEntry 1;
   FEntry 2; FEntry 7; FValidate; FClear true; FIsEmpty; FAssignW 2 (el 0 2) None; FOrInsertW 2 (el 2 3) None; FSize].
Definition fixed : list (flat_op nat nat) :=
  [FInsert (el 5 50) (Some raw); FInsert (el 3 30) (Some raw); FInsert (el 8 80) (Some raw); FInsert (el 9 90) (Some raw); FSize;
   FRemove (el 3 0); FInsert (el 9 90) None; FGet 8; FGet 9; FValidate; FClear false; FGet 8; FRange 0 9; FInsert (el 1 1) None; FValidate].

Example C36_case_lent :
  (exists rs A, fcalls Nat.compare (kept true) (fstart 0) lent rs A) /\
  match frm_run Nat.compare true (flat_init 0 raw) lent with
  | Ok (_, rs) => rs =
    [XPtr None; XBool false; XNum 0; XIter 0; XEnt false false None (Some (5, 50)); XNum 8; XEnt false false None (Some (3, 30));
     XEnt false false (Some (Slot 3, (8, 80))) (Some (8, 80)); XEnt false false (Some (Slot 4, (1, 10))) (Some (1, 10));
     XEnt true false (Some (Slot 1, (5, 55))) (Some (5, 50)); XEnt true false (Some (Slot 2, (3, 33))) (Some (3, 33));
     XEnt true false (Some (Slot 4, (1, 10))) (Some (1, 11)); XPtr (Some (5, (9, 90))); XPtr (Some (5, (9, 90)));
     XPtr (Some (6, (4, 40))); XPtr (Some (6, (4, 44))); XPtr (Some (3, (8, 81))); XPtr None; XPtr (Some (7, (6, 60)));
     XEnt false true None None; XEnt false false (Some (Slot 8, (7, 70))) None; XEnt true false (Some (Slot 8, (7, 77))) None;
     XPtr (Some (9, (2, 20))); XPtr (Some (9, (2, 22))); XNum 16; XNum 9; XIter 4; XIter 9; XIter 5; XIter 3;
     XRange (Some 2) (Some 8); XRange (Some 7) (Some 9); XEnt true false (Some (Handle, (5, 55))) (Some (5, 55));
     XEnt false false None (Some (5, 0)); XEnt true false (Some (Slot 8, (1, 10))) None; XEnt false false None None;
     XEnt true false (Some (Slot 1, (2, 22))) None; XEnt true false (Some (Slot 4, (7, 77))) None; XBool true;
     XDestroyed OK [(1, (2, 22)); (2, (3, 33)); (3, (8, 81)); (4, (7, 77)); (5, (9, 90)); (6, (4, 44)); (7, (6, 60))]; XBool true;
     XEnt false false (Some (Slot 1, (2, 2))) None; XPtr (Some (1, (2, 2))); XNum 1]
  | _ => False
  end.
Proof. split; [|by vm_compute]. apply permitted_any. by vm_compute. Qed.

(** Three elements fill a buffer of four slots; a removal makes room again. *)
Example C36_case_fixed :
  (exists rs A, fcalls Nat.compare (kept false) (fstart 4) fixed rs A) /\
  match frm_run Nat.compare false (flat_init 4 raw) fixed with
  | Ok (_, rs) => rs =
    [XEnt false false None (Some (5, 50)); XEnt false false None (Some (3, 30)); XEnt false false None (Some (8, 80));
     XEnt false true None (Some (9, 90)); XNum 3; XEnt true false (Some (Handle, (3, 30))) (Some (3, 30));
     XEnt false false None (Some (9, 90)); XPtr (Some (2, (8, 80))); XPtr (Some (3, (9, 90))); XBool true; XDestroyed OK [];
     XPtr None; XRange None None; XEnt false false None (Some (1, 1)); XBool true]
  | _ => False
  end.
Proof. split; [|by vm_compute]. apply permitted_any. by vm_compute. Qed.

(** Seven keys in ascending order: three levels and no fourth, still so after the
    root left and slot 7 took its place. *)
Definition stairs : list (flat_op nat nat) :=
  [FInsert (el 1 1) (Some raw); FInsert (el 2 2) None; FInsert (el 3 3) None; FInsert (el 4 4) None; FInsert (el 5 5) None;
   FInsert (el 6 6) None; FInsert (el 7 7) None].
Example C36_case_balance :
  (exists rs A, fcalls Nat.compare (kept true) (fstart 0) (stairs ++ [FRemoveEntry 4]) rs A) /\
  match frm_run Nat.compare true (flat_init 0 raw) stairs, frm_run Nat.compare true (flat_init 0 raw) (stairs ++ [FRemoveEntry 4]) with
  | Ok (s, _), Ok (s', _) =>
    wroot (tr s) = 4 /\ map (rd (lf (wl (tr s)))) (seq 1 7) = map Ok [0; 1; 0; 2; 0; 5; 0] /\
    map (rd (rt (wl (tr s)))) (seq 1 7) = map Ok [0; 3; 0; 6; 0; 7; 0] /\
    wroot (tr s') = 5 /\ map (rd (lf (wl (tr s')))) (seq 1 6) = map Ok [0; 1; 0; 0; 2; 0] /\
    map (rd (rt (wl (tr s')))) (seq 1 6) = map Ok [0; 3; 0; 0; 6; 4] /\
    flat_iter s' true = Ok [(1, (1, 1)); (2, (2, 2)); (3, (3, 3)); (5, (5, 5)); (6, (6, 6)); (4, (7, 7))] /\
    find_loop 0 Nat.compare 4 (dat s') (wl (tr s')) 8 0 (wroot (tr s')) None = search Nat.compare s' 8 /\
    search Nat.compare s' 8 = Ok (Some Gt, 4) /\
    match frm_range Nat.compare s' true 3 6 with Ok (_, x, y) => (x, y) = (Some 3, Some 4) | _ => False end
  | _, _ => False
  end.
Proof. split; [|by vm_compute]. apply permitted_any. by vm_compute. Qed.

Example C39_frm_case :
  (exists rs A, fcalls Nat.compare (kept true) (fstart 0) stairs rs A /\ used A = true) /\
  match frm_run Nat.compare true (flat_init 0 raw) stairs with
  | Ok (s, _) =>
    match flat_clear_and_free true s true with
    | Ok (s', OK, l) => length l = 7 /\ flat_capacity s' = 0 /\ flat_size s' = 7
    | _ => False
    end
  | _ => False
  end.
Proof. split; [|by vm_compute]. eexists _. apply permitted. by vm_compute. Qed.

(** From four slots into three and into five. *)
Example C41_frm_case :
  match frm_run Nat.compare true (flat_init 4 raw) (firstn 3 fixed), frm_run Nat.compare false (flat_init 3 raw) (firstn 2 stairs) with
  | Ok (s, _), Ok (d, _) =>
    let '(d', r) := flat_copy d s true (Some zeroed) in
    let '(e', r') := flat_copy (flat_init 5 zeroed) s false None in
    r = OK /\ r' = OK /\ flat_iter d' true = Ok [(2, (3, 30)); (1, (5, 50)); (3, (8, 80))] /\
    flat_iter e' true = Ok [(2, (3, 30)); (1, (5, 50)); (3, (8, 80))] /\
    flat_capacity d' = 4 /\ flat_capacity e' = 5 /\ flat_size d = 2 /\ flat_size d' = 3
  | _, _ => False
  end.
Proof. by vm_compute. Qed.

Print Assumptions C36_insert_old_refuted.
Print Assumptions C36_clear_unused_refuted.
Print Assumptions C36_history_partial.
Print Assumptions C36_present_or_absent.
Print Assumptions C36_other_keys.
Print Assumptions C36_refused.
Print Assumptions C36_relocated_parity.
Print Assumptions C36_depth.
Print Assumptions C36_search.
Print Assumptions C36_loops.
Print Assumptions C36_walk.
Print Assumptions C36_range.
Print Assumptions C36_rrange.
Print Assumptions C39_frm_clear_and_free_refuted.
Print Assumptions C39_frm_clear_and_free_partial.
Print Assumptions C41_frm_copy_partial.
Print Assumptions C41_frm_copy_too_small.
Print Assumptions C41_frm_copy_failure_refuted.
