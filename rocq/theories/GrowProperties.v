(** Amortised cost of the growth of the array containers (C60). *)
From stdpp Require Import base numbers option gmap list.
From Verif Require Import Common OrderSpec BufferModel BufferSpec FpqModel FpqSpec FlatOps FlatSpec FlatCases TickModel GrowModel GrowSpec Grow
  GrowMaps.
From Verif Require FlatModel FomModel FomProofs FrmModel FrmProofs.

(** C60. The counts are taken of the calls of C01, C12, C32 and C36: without them they are
    the same. *)
Theorem C60_same_buffer :
  forall (A : Type) (b : buf A) os, untick (buf_run_c b os) = buf_run b os.
Proof. intros A b os. exact (buf_run_erase os b). Qed.

Theorem C60_same_heap :
  forall (A : Type) (cmp : A -> A -> comparison) (order : comparison) (b : buf A) os,
  untick (fpq_run_c cmp order b os) = fpq_run cmp order b os.
Proof. intros A cmp order b os. exact (fpq_run_erase cmp order os b). Qed.

Theorem C60_same_fom :
  forall (K V : Type) (cmp : K -> K -> comparison) (alloc : bool) (s : FlatModel.flat K V) os,
  untick (fom_run_c cmp alloc s os) = FomModel.fom_run cmp alloc s os.
Proof. intros K V cmp alloc s os. exact (map_run_erase _ _ _ _ _ _ _ _ _ _ os s). Qed.

Theorem C60_same_frm :
  forall (K V : Type) (cmp : K -> K -> comparison) (alloc : bool) (s : FlatModel.flat K V) os,
  untick (frm_run_c cmp alloc s os) = FrmModel.frm_run cmp alloc s os.
Proof. intros K V cmp alloc s os. exact (map_run_erase _ _ _ _ _ _ _ _ _ _ os s). Qed.

(** C60. A history of a new buffer moves at most two slots for every element pushed and
    every slot reserved. *)
Theorem C60_buffer :
  forall (A : Type) (cap : nat) (grow : bool) (os : list (buf_op A)) v rs,
  vec_run (Vec [] cap grow) os = Some (v, rs) ->
  exists b n, buf_run_c (fresh_buf cap grow) os = Ok (b, rs, n) /\ n <= 2 * total asks os.
Proof. exact @buf_history. Qed.

(** C60. One call on a buffer moves no more than the slots there are, and none if the
    buffer may not grow and the user does not pass an allocator. *)
Theorem C60_buffer_call :
  forall (A : Type) (cap : nat) (grow : bool) (os : list (buf_op A)) v rs o v' r,
  vec_run (Vec [] cap grow) os = Some (v, rs) -> vec_step v o = Some (v', r) ->
  exists b b' n, buf_run (fresh_buf cap grow) os = Ok (b, rs) /\ buf_step_c b o = Ok (b', r, n) /\
    n <= v_cap v /\ (v_grow v = false -> 0 < n -> exists c f k, o = BReserve c f k).
Proof. exact @buf_last_call. Qed.

(** C60. The flat priority queue: two for every element pushed or passed to heapify. *)
Theorem C60_heap :
  forall (A : Type) (cmp : A -> A -> comparison) (order : comparison), total_preorder cmp -> order <> Eq ->
  forall (cap : nat) (grow : bool) os,
  exists b tr n, fpq_run_c cmp order (fresh_fpq cap grow) os = Ok (b, tr, n) /\ n <= 2 * total passes os /\
    (grow = false -> n = 0).
Proof. exact @fpq_history. Qed.

(** C60. The flat ordered maps: two for every call that may add an element. *)
Theorem C60_fom :
  forall (K V : Type) (cmp : K -> K -> comparison), total_preorder cmp ->
  forall (alloc : bool) (n : nat) (junk : nat -> fnode) (ops : list (flat_op K V)) rs A,
  fcalls cmp (FomProofs.fom_contract alloc) (fstart n) ops rs A ->
  exists s rs' k, fom_run_c cmp alloc (FlatModel.flat_init n junk) ops = Ok (s, rs', k) /\ Forall2 fagree rs rs' /\
    k <= 2 * total adds ops /\ (alloc = false -> k = 0).
Proof. exact @fom_grows. Qed.

Theorem C60_frm :
  forall (K V : Type) (cmp : K -> K -> comparison), total_preorder cmp ->
  forall (alloc : bool) (n : nat) (junk : nat -> fnode) (ops : list (flat_op K V)) rs A,
  fcalls cmp (FrmProofs.frm_contract alloc) (fstart n) ops rs A ->
  exists s rs' k, frm_run_c cmp alloc (FlatModel.flat_init n junk) ops = Ok (s, rs', k) /\ Forall2 fagree rs rs' /\
    k <= 2 * total adds ops /\ (alloc = false -> k = 0).
Proof. exact @frm_grows. Qed.

(** Twenty pushes from nothing, with the slots moved at 8 and at 16, a reservation of 100
    that moves 32, and a push that asks for nothing. *)
Definition filling : list (buf_op nat) :=
  map (fun x => BPush x true) (seq 0 20) ++ [BPop; BReserve 100 true true; BPush 7 false; BSize].
Example C60_case_buffer :
  (exists v rs, vec_run (Vec [] 0 true) filling = Some (v, rs)) /\
  (exists b rs, buf_run_c (fresh_buf 0 true) filling = Ok (b, rs, 56) /\ b_cap b = 100) /\ total asks filling = 121.
Proof. split; [|split]; [eexists _, _; by vm_compute|eexists _, _; by vm_compute|done]. Qed.

(** One slot is kept for swapping: eight pushes make the queue grow a second time. *)
Definition heaping : list (fpq_op nat) :=
  map (fun x => QPush x true) [5; 1; 4; 2; 8; 9; 0; 3; 6; 7] ++ [QPop; QHeapify (seq 0 20) true; QPush 3 true; QSize].
Example C60_case_heap :
  (exists b tr n, fpq_run_c Nat.compare Lt (fresh_fpq 0 true) heaping = Ok (b, tr, n) /\ 0 < n /\ b_cap b <> 0) /\
  total passes heaping = 31.
Proof. split; [|done]. eexists _, _, _. split; [by vm_compute|]. vm_compute. split; [lia|done]. Qed.

(** Twelve insertions and two removals: 0, 8 and 16 slots. *)
Definition mapping : list (flat_op nat nat) :=
  map (fun k => FInsert (Node 5 6 7 false, (k, k)) (Some (fun _ => Node 1 2 3 true))) (seq 1 12) ++ [FRemoveEntry 3; FRemoveEntry 9; FCapacity].
Example C60_case_maps :
  (exists rs A, fcalls Nat.compare (FomProofs.fom_contract true) (fstart 0) mapping rs A) /\
  (exists s rs, fom_run_c Nat.compare true (FlatModel.flat_init 0 (fun _ => Node 0 0 0 false)) mapping = Ok (s, rs, 8) /\ last rs = Some (XNum 16)) /\
  (exists rs A, fcalls Nat.compare (FrmProofs.frm_contract true) (fstart 0) mapping rs A) /\
  (exists s rs, frm_run_c Nat.compare true (FlatModel.flat_init 0 (fun _ => Node 0 0 0 false)) mapping = Ok (s, rs, 8) /\ last rs = Some (XNum 16)) /\
  total adds mapping = 12.
Proof.
  split; [apply permitted_any; by vm_compute|]. split; [eexists _, _; by vm_compute|].
  split; [apply permitted_any; by vm_compute|]. split; [eexists _, _; by vm_compute|done].
Qed.

Print Assumptions C60_same_buffer.
Print Assumptions C60_same_heap.
Print Assumptions C60_same_fom.
Print Assumptions C60_same_frm.
Print Assumptions C60_buffer.
Print Assumptions C60_buffer_call.
Print Assumptions C60_heap.
Print Assumptions C60_fom.
Print Assumptions C60_frm.
