(** Properties of the flat priority queue (C12-C15, C42; its parts of C39 and
    C41). The comparison is any total preorder, the order either direction. *)
From stdpp Require Import base numbers option list.
From Verif Require Import Common BufferModel OrderSpec FpqModel FpqSpec FpqProofs.

(** C12. Every history of a fixed or growing queue: no call goes wrong, and
    each changes the multiset of elements exactly as specified. *)
Theorem C12_multiset :
  forall (A : Type) (cmp : A -> A -> comparison) (order : comparison),
  total_preorder cmp -> order <> Eq ->
  forall (cap : nat) (grow : bool) (os : list (fpq_op A)),
  exists b c tr, fpq_run cmp order (fresh_fpq cap grow) os = Ok (b, tr) /\
    fpq_ok cmp order b c /\ pq_trace cmp order grow [] tr.
Proof.
  intros A cmp order Hc Ho cap grow os.
  exact (run_Ok cmp order Hc Ho os (fresh_fpq cap grow) [] (fresh_ok cmp order cap grow)).
Qed.

(** The trace leaves out only calls whose handle is no stored element. *)
Theorem C12_trace_complete :
  forall (A : Type) (cmp : A -> A -> comparison) (order : comparison) (os : list (fpq_op A)) b b' tr,
  (forall o, o ∈ os -> forall h f, o <> QErase h /\ o <> QUpdate h f) ->
  fpq_run cmp order b os = Ok (b', tr) -> (fun e => fst (fst e)) <$> tr = os.
Proof. exact @run_complete. Qed.

(** A push is refused only for lack of memory; one slot is kept spare. *)
Theorem C12_push_room :
  forall (A : Type) (cmp : A -> A -> comparison) (order : comparison),
  total_preorder cmp -> order <> Eq ->
  forall (b : buf A) c x ok, fpq_ok cmp order b c ->
  exists b' r, fpq_push cmp order b x ok = Ok (b', r) /\
    (r <> None <-> S (length c) < b_cap b \/ b_alloc b = true /\ ok = true).
Proof. exact @push_room. Qed.

Example C12_case :
  exists b tr, fpq_run Nat.compare Lt (fresh_fpq 4 true)
    [QPush 5 true; QPush 3 true; QPush 9 true; QPush 1 false; QPush 1 true; QErase 1; QUpdate 2 (Nat.add 20);
     QErase 7; QPop; QFront; QHeapify [4; 4; 2] true; QValidate; QSize] = Ok (b, tr) /\
    buf_contents b = Some <$> [2; 4; 4] /\
    (fun e => snd (fst e)) <$> tr =
    [QVal (Some 5); QVal (Some 3); QVal (Some 9); QVal None; QVal (Some 1); QRes OK; QVal (Some 29);
     QRes OK; QVal (Some 5); QRes OK; QBool true; QNum 3].
Proof. eexists _, _. vm_compute. repeat split. Qed.

(** C13. Front is absent exactly when the queue is empty and otherwise an
    element nothing beats; validate is exact. By C12 every history ends in
    such a state. *)
Theorem C13_front_extremal :
  forall (A : Type) (cmp : A -> A -> comparison) (order : comparison),
  total_preorder cmp -> order <> Eq ->
  forall (b : buf A) c, fpq_ok cmp order b c ->
  (c = [] /\ fpq_front b = None) \/
  (exists x, fpq_front b = Some 0 /\ c !! 0 = Some x /\ rd b 0 = Ok x /\ unbeaten cmp order x c).
Proof. exact @front_Ok. Qed.

Theorem C13_validate :
  forall (A : Type) (cmp : A -> A -> comparison) (order : comparison),
  order <> Eq ->
  forall (b : buf A) c, buf_contents b = Some <$> c -> b_sz b = length c ->
  (length c < b_cap b \/ c = []) ->
  (fpq_validate cmp order b = Ok true <-> heap cmp order c).
Proof. exact @validate_iff. Qed.

(** Both after any history of calls on a fresh queue: no element of the queue
    beats the front, and validate reports true. *)
Theorem C13_after_any_history :
  forall (A : Type) (cmp : A -> A -> comparison) (order : comparison),
  total_preorder cmp -> order <> Eq ->
  forall (cap : nat) (grow : bool) (os : list (fpq_op A)),
  exists b c tr, fpq_run cmp order (fresh_fpq cap grow) os = Ok (b, tr) /\
    buf_contents b = Some <$> c /\ b_sz b = length c /\
    fpq_validate cmp order b = Ok true /\
    ((c = [] /\ fpq_front b = None) \/
     (exists x, fpq_front b = Some 0 /\ rd b 0 = Ok x /\ unbeaten cmp order x c)).
Proof. exact @history_front. Qed.

(** Ties: elements are compared on their first component only. *)
Example C13_case : let b := Buf (Some <$> [(1, 7); (1, 3); (2, 0); (0, 0)]) 3 false in
  fpq_ok cmp_fst Lt b [(1, 7); (1, 3); (2, 0)] /\
  fpq_validate cmp_fst Gt b = Ok false.
Proof.
  split; [|vm_compute; reflexivity].
  split_and!; [done|done|left; vm_compute; lia|]. intros j x p Hx Hp Hj.
  destruct j as [|[|[|j]]]; [lia| | |done]; simpl in *; simplify_eq; done.
Qed.

(** C14. Heapify, then read and pop until empty. *)
Theorem C14_heapify_drain_sorts :
  forall (A : Type) (cmp : A -> A -> comparison) (order : comparison),
  total_preorder cmp -> order <> Eq ->
  forall (b : buf A) c l ok b', fpq_ok cmp order b c ->
  fpq_heapify cmp order b l ok = Ok (b', OK) ->
  exists out, fpq_drain cmp order (length l) b' = Ok out /\ out ≡ₚ l /\ in_order cmp order out.
Proof. exact @heapify_drain. Qed.

(** Heapify succeeds whenever there is room for one more than the array. *)
Theorem C14_heapify_succeeds :
  forall (A : Type) (cmp : A -> A -> comparison) (order : comparison),
  total_preorder cmp -> order <> Eq ->
  forall (b : buf A) c l ok, fpq_ok cmp order b c ->
  length l < b_cap b \/ b_alloc b = true /\ ok = true ->
  exists b', fpq_heapify cmp order b l ok = Ok (b', OK).
Proof. exact @heapify_room. Qed.

(** The same for the initialiser that sorts an array already in place. *)
Theorem C14_in_place :
  forall (A : Type) (cmp : A -> A -> comparison) (order : comparison),
  total_preorder cmp -> order <> Eq ->
  forall (b : buf A) l, (exists rest, b_slots b = (Some <$> l) ++ rest /\ rest <> []) ->
  exists b' out, fpq_in_place_heapify cmp order b (length l) = Ok b' /\
    fpq_drain cmp order (length l) b' = Ok out /\ out ≡ₚ l /\ in_order cmp order out.
Proof. exact @in_place_drain. Qed.

Example C14_case :
  exists b', fpq_heapify Nat.compare Gt (fresh_fpq 9 false) [3; 1; 4; 1; 5; 9; 2; 6] true = Ok (b', OK) /\
    fpq_drain Nat.compare Gt 8 b' = Ok [9; 6; 5; 4; 3; 2; 1; 1].
Proof. eexists. split; vm_compute; reflexivity. Qed.

(** C15. The slot returned holds the element pushed or updated. *)
Theorem C15_push_reference :
  forall (A : Type) (cmp : A -> A -> comparison) (order : comparison),
  total_preorder cmp -> order <> Eq ->
  forall (b b' : buf A) c x ok k, fpq_ok cmp order b c ->
  fpq_push cmp order b x ok = Ok (b', Some k) -> rd b' k = Ok x /\ k < b_sz b'.
Proof. exact @push_ref. Qed.

Theorem C15_update_reference :
  forall (A : Type) (cmp : A -> A -> comparison) (order : comparison),
  total_preorder cmp -> order <> Eq ->
  forall (b : buf A) c h x f, fpq_ok cmp order b c -> c !! h = Some x ->
  exists b' k, fpq_update cmp order b h f = Ok (b', Some k) /\ rd b' k = Ok (f x) /\ k < b_sz b'.
Proof. exact @update_ref. Qed.

Example C15_case : let b := Buf (Some <$> [1; 3; 2; 8; 0; 0]) 4 false in
  fpq_validate Nat.compare Lt b = Ok true /\
  exists b', fpq_update Nat.compare Lt b 3 (fun _ => 0) = Ok (b', Some 0) /\ rd b' 0 = Ok 0.
Proof. split; [done|]. eexists. split; vm_compute; reflexivity. Qed.

(** C42. The emplace macro does what push does, as long as no memory is
    refused. Missing: a refused allocation. *)
Theorem C42_emplace_partial :
  forall (A : Type) (cmp : A -> A -> comparison) (order : comparison),
  forall (b : buf A) c x ok, fpq_ok cmp order b c ->
  S (length c) < b_cap b \/ b_alloc b = true /\ ok = true ->
  fpq_emplace cmp order b x ok = fpq_push cmp order b x ok.
Proof. exact @emplace_is_push. Qed.

(** Then NULL is returned, yet the size counts an element that was never
    written; the next pop has no spare slot and is undefined. *)
Theorem C42_emplace_full_refuted :
  exists (b b' : buf nat) c, fpq_ok Nat.compare Lt b c /\
    fpq_emplace Nat.compare Lt b 9 true = Ok (b', None) /\
    b_sz b' = S (length c) /\ fpq_pop Nat.compare Lt b' = UB.
Proof.
  exists (Buf [Some 1; None] 1 false). eexists _, [1].
  split. { split_and!; [done|done|left; vm_compute; lia|]. intros [|[|j]] x p Hx Hp Hj; simpl in *; done || lia. }
  split; [vm_compute; reflexivity|]. vm_compute. done.
Qed.

Example C42_case : fpq_ok Nat.compare Lt (Buf [Some 1; None] 1 true) [1].
Proof. split_and!; [done|done|left; vm_compute; lia|]. intros [|[|j]] x p Hx Hp Hj; simpl in *; done || lia. Qed.

(** C39, queue part: the size survives the free, and the next push is
    undefined. *)
Theorem C39_fpq_clear_and_free_refuted :
  exists (b b' : buf nat) c, fpq_ok Nat.compare Lt b c /\
    fpq_clear_and_free b false = (b', [], OK) /\ b_cap b' = 0 /\ b_sz b' <> 0 /\
    fpq_push Nat.compare Lt b' 7 true = UB.
Proof.
  exists (Buf [Some 1; None] 1 true). eexists _, [1].
  split. { split_and!; [done|done|left; vm_compute; lia|]. intros [|[|j]] x p Hx Hp Hj; simpl in *; done || lia. }
  split; [vm_compute; reflexivity|]. vm_compute. done.
Qed.

(** An empty queue is freed properly, and clear empties any queue and hands
    each element's slot to the destructor once. *)
Theorem C39_fpq_clear_and_free_partial :
  forall (A : Type) (b : buf A) destructor, b_sz b = 0 -> b_alloc b = true ->
  fpq_clear_and_free b destructor = (fresh_fpq 0 true, [], OK).
Proof. exact @clear_and_free_empty. Qed.

Theorem C39_fpq_clear :
  forall (A : Type) (cmp : A -> A -> comparison) (order : comparison),
  forall (b : buf A) c, fpq_ok cmp order b c ->
  exists b', fpq_clear b true = (b', seq 0 (length c), OK) /\ fpq_ok cmp order b' [].
Proof. exact @clear_ok. Qed.

Example C39_fpq_case : b_sz (fresh_fpq (A := nat) 5 true) = 0.
Proof. done. Qed.

(** C41, queue part. *)
Theorem C41_fpq_copy_partial :
  forall (A : Type) (cmp : A -> A -> comparison) (order : comparison),
  forall (dst src : buf A) c has_fn ok, fpq_ok cmp order src c ->
  exists dst' r, fpq_copy dst src has_fn ok = Ok (dst', r) /\
    (b_cap src <= b_cap dst \/ has_fn = true /\ ok = true -> r = OK) /\
    (r = OK -> fpq_ok cmp order dst' c).
Proof. exact @copy_Ok. Qed.

(** A failed copy leaves the source's size in a smaller destination. *)
Theorem C41_fpq_copy_failure_refuted :
  exists (dst src dst' : buf nat) c, fpq_ok Nat.compare Lt dst [] /\ fpq_ok Nat.compare Lt src c /\
    fpq_copy dst src true false = Ok (dst', MEM_ERR) /\ b_cap dst' < b_sz dst'.
Proof.
  exists (fresh_fpq 0 true), (Buf [Some 1; None] 1 true). eexists _, [1].
  split. { apply fresh_ok. }
  split. { split_and!; [done|done|left; vm_compute; lia|]. intros [|[|j]] x p Hx Hp Hj; simpl in *; done || lia. }
  split; [vm_compute; reflexivity|]. vm_compute. lia.
Qed.

Example C41_fpq_case :
  exists dst', fpq_copy (fresh_fpq 3 false) (Buf [Some 1; None] 1 true) false false = Ok (dst', OK) /\
    buf_contents dst' = [Some 1].
Proof. eexists. split; vm_compute; reflexivity. Qed.

Print Assumptions C12_multiset.
Print Assumptions C12_trace_complete.
Print Assumptions C12_push_room.
Print Assumptions C13_front_extremal.
Print Assumptions C13_validate.
Print Assumptions C13_after_any_history.
Print Assumptions C14_heapify_drain_sorts.
Print Assumptions C14_heapify_succeeds.
Print Assumptions C14_in_place.
Print Assumptions C15_push_reference.
Print Assumptions C15_update_reference.
Print Assumptions C42_emplace_partial.
Print Assumptions C42_emplace_full_refuted.
Print Assumptions C39_fpq_clear_and_free_refuted.
Print Assumptions C39_fpq_clear_and_free_partial.
Print Assumptions C39_fpq_clear.
Print Assumptions C41_fpq_copy_partial.
Print Assumptions C41_fpq_copy_failure_refuted.
