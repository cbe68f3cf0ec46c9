(** Properties of the double ended queue (C06-C11, C40, C41; its part of C39). *)
From stdpp Require Import base numbers option list.
From Verif Require Import Common BufferModel FdeqModel FdeqSpec FdeqProofs.

(** C06. Every history on a fixed ring agrees, call by call and in the final
    contents, with a list that drops from the opposite end beyond [cap]. *)
Theorem C06_fixed_ring :
  forall (A : Type) (cap : nat) (os : list (fdeq_op A)) q rs,
  deq_run (Deq [] cap false) os = Some (q, rs) ->
  exists d, fdeq_run (fresh_fdeq cap false) os = Ok (d, rs) /\
    fdeq_contents d = Some <$> q_list q /\ d_sz d = length (q_list q) /\
    d_cap d = q_cap q /\ d_sz d <= d_cap d /\
    (d_front d < d_cap d \/ d_cap d = 0 /\ d_front d = 0).
Proof. intros A cap os q rs. apply history. Qed.

(** The hypothesis of C06 and C07 is met by every history of single element
    calls, for every positive capacity or growing deque. *)
Theorem C06_scope :
  forall (A : Type) cap grow (os : list (fdeq_op A)),
  Forall deq_single os -> grow = true \/ 0 < cap ->
  exists q rs, deq_run (Deq [] cap grow) os = Some (q, rs).
Proof. intros A cap grow os H Hc. exact (single_in_scope os H cap grow [] Hc). Qed.

Example C06_case :
  deq_run (Deq [] 3 false)
    [DPushBack 1 true; DPushBack 2 true; DPushBack 3 true; DPushBack 4 true; DPushFront 5 true;
     DPopFront; DFront; DBack; DAt 1; DPushBackRange [6; 7] true; DAt 0; DValidate; DSize]
  = Some (Deq [3; 6; 7] 3 false,
      [DVal (Some 1); DVal (Some 2); DVal (Some 3); DVal (Some 4); DVal (Some 5); DRes OK;
       DVal (Some 2); DVal (Some 3); DVal (Some 3); DRes OK; DVal (Some 3); DBool true; DNum 3]).
Proof. vm_compute. reflexivity. Qed.

(** C07. Every history on a growing deque agrees with an unbounded list, for
    every pattern of refused allocations. *)
Theorem C07_growing_deque :
  forall (A : Type) (cap : nat) (os : list (fdeq_op A)) q rs,
  deq_run (Deq [] cap true) os = Some (q, rs) ->
  exists d, fdeq_run (fresh_fdeq cap true) os = Ok (d, rs) /\
    fdeq_contents d = Some <$> q_list q /\ d_sz d = length (q_list q) /\
    d_cap d = q_cap q /\ d_sz d <= d_cap d /\
    (d_front d < d_cap d \/ d_cap d = 0 /\ d_front d = 0).
Proof. intros A cap os q rs. apply history. Qed.

Example C07_case : exists q rs, deq_run (Deq [] 2 true)
    [DPushBack 1 true; DPushFront 2 true; DPushFront 3 false; DPushFront 4 true; DPushBack 5 true;
     DPopBack; DBack; DFront] = Some (q, rs) /\ q_list q = [4; 2; 1] /\ rs !! 2 = Some (DVal None).
Proof. eexists _, _. vm_compute. repeat split. Qed.

(** C08. A range pushed at the back of a fixed ring: the last [cap] elements
    of the concatenation remain. *)
Theorem C08_push_back_range_fixed :
  forall (A : Type) (d : fdeq A) l vs ok,
  fdeq_wf d -> fdeq_contents d = Some <$> l -> d_alloc d = false -> 0 < d_cap d ->
  exists d', fdeq_push_back_range d vs ok = Ok (d', OK) /\ fdeq_wf d' /\ d_cap d' = d_cap d /\
    fdeq_contents d' = Some <$> lastn (d_cap d) (l ++ vs).
Proof. exact @push_back_range_fixed. Qed.

(** On a growing deque everything survives, or memory was refused and nothing
    changed. Missing: a first allocation for more than eight elements. *)
Theorem C08_push_back_range_grow_partial :
  forall (A : Type) (d : fdeq A) l vs ok,
  fdeq_wf d -> fdeq_contents d = Some <$> l -> d_alloc d = true ->
  0 < d_cap d \/ length vs <= 8 ->
  exists d' r, fdeq_push_back_range d vs ok = Ok (d', r) /\ fdeq_wf d' /\
    (r = OK /\ fdeq_contents d' = Some <$> l ++ vs \/ r = MEM_ERR /\ ok = false /\ d' = d).
Proof. exact @push_back_range_grow. Qed.

(** That missing case is false: OK is returned and an element is lost. *)
Theorem C08_first_growth_refuted :
  exists (vs : list nat) d',
    fdeq_push_back_range (fresh_fdeq 0 true) vs true = Ok (d', OK) /\
    fdeq_contents d' <> Some <$> vs.
Proof.
  exists (seq 0 9). eexists. split; [vm_compute; reflexivity|]. vm_compute. discriminate.
Qed.

Example C08_case : let d := Fdeq (Buf [Some 3; None; None; Some 1; Some 2] 3 false) 3 in
  fdeq_wf d /\ fdeq_contents d = Some <$> [1; 2; 3] /\ 0 < d_cap d /\
  exists d', fdeq_push_back_range d [4; 5; 6; 7] true = Ok (d', OK) /\
    fdeq_contents d' = Some <$> [3; 4; 5; 6; 7].
Proof. vm_compute. split_and!; auto; try lia. eexists. split; [done|]. done. Qed.

(** C09. A range pushed at the front. *)
Theorem C09_push_front_range_fixed_partial :
  forall (A : Type) (d : fdeq A) l vs ok,
  fdeq_wf d -> fdeq_contents d = Some <$> l -> d_alloc d = false ->
  0 < length vs <= d_cap d ->
  exists d', fdeq_push_front_range d vs ok = Ok (d', OK) /\ fdeq_wf d' /\ d_cap d' = d_cap d /\
    fdeq_contents d' = Some <$> take (d_cap d) (vs ++ l).
Proof. exact @push_front_range_fixed. Qed.

Theorem C09_push_front_range_grow_partial :
  forall (A : Type) (d : fdeq A) l vs ok,
  fdeq_wf d -> fdeq_contents d = Some <$> l -> d_alloc d = true -> vs <> [] ->
  0 < d_cap d \/ length vs <= 8 ->
  exists d' r, fdeq_push_front_range d vs ok = Ok (d', r) /\ fdeq_wf d' /\
    (r = OK /\ fdeq_contents d' = Some <$> vs ++ l \/ r = MEM_ERR /\ ok = false /\ d' = d).
Proof. exact @push_front_range_grow. Qed.

(** Missing above, and false: growth from nothing by more than eight ... *)
Theorem C09_first_growth_refuted :
  exists (vs : list nat) d',
    fdeq_push_front_range (fresh_fdeq 0 true) vs true = Ok (d', OK) /\
    fdeq_contents d' <> Some <$> vs.
Proof.
  exists (seq 0 9). eexists. split; [vm_compute; reflexivity|]. vm_compute. discriminate.
Qed.

(** ... a range longer than a fixed ring keeps its back, not its front ... *)
Theorem C09_long_range_refuted :
  exists (d : fdeq nat) l vs d', fdeq_wf d /\ fdeq_contents d = Some <$> l /\
    d_alloc d = false /\ 0 < d_cap d /\
    fdeq_push_front_range d vs true = Ok (d', OK) /\
    fdeq_contents d' <> Some <$> take (d_cap d) (vs ++ l).
Proof.
  exists (fresh_fdeq 2 false), [], [1; 2; 3]. eexists.
  split; [vm_compute; lia|]. do 3 (split; [vm_compute; auto; lia|]).
  split; [vm_compute; reflexivity|]. vm_compute. discriminate.
Qed.

(** ... and an empty range makes the front element unreachable. *)
Theorem C09_empty_range_refuted :
  exists (d : fdeq nat) d', fdeq_wf d /\ fdeq_contents d = [Some 1] /\
    fdeq_push_front_range d [] true = Ok (d', OK) /\
    d_sz d' = 1 /\ fdeq_front d' = None /\ fdeq_validate d' = Ok false.
Proof.
  exists (Fdeq (Buf [Some 1; None] 1 false) 0). eexists.
  split; [vm_compute; lia|]. split; [done|]. split; [vm_compute; reflexivity|]. done.
Qed.

Example C09_case : let d := Fdeq (Buf [Some 3; None; None; Some 1; Some 2] 3 false) 3 in
  fdeq_wf d /\ fdeq_contents d = Some <$> [1; 2; 3] /\ 0 < length [4; 5; 6; 7] <= d_cap d /\
  exists d', fdeq_push_front_range d [4; 5; 6; 7] true = Ok (d', OK) /\
    fdeq_contents d' = Some <$> [4; 5; 6; 7; 1].
Proof. vm_compute. split_and!; auto; try lia. eexists. split; [done|]. done. Qed.

(** C10. Forward and reverse iteration, for every state (C06 and C07 show that
    all reachable states with memory satisfy the two hypotheses). *)
Theorem C10_forward :
  forall (A : Type) (d : fdeq A) fuel,
  d_front d < d_cap d -> d_sz d <= d_cap d -> d_sz d <= fuel ->
  fdeq_walk fuel (fdeq_next d) d (fdeq_begin d) = Ok (fdeq_contents d).
Proof. exact @begin_walk. Qed.

Theorem C10_reverse :
  forall (A : Type) (d : fdeq A) fuel,
  d_front d < d_cap d -> d_sz d <= d_cap d -> d_sz d <= fuel ->
  exists r, fdeq_rbegin d = Ok r /\
    fdeq_walk fuel (fdeq_rnext d) d r = Ok (reverse (fdeq_contents d)).
Proof. exact @rbegin_walk. Qed.

Example C10_case : let d := Fdeq (Buf [Some 3; Some 1; Some 2] 3 false) 1 in
  d_front d < d_cap d /\ d_sz d <= d_cap d /\
  fdeq_walk 3 (fdeq_next d) d (fdeq_begin d) = Ok [Some 1; Some 2; Some 3].
Proof. vm_compute. repeat split; lia. Qed.

(** C11. Without a destructor clear empties; with one, below capacity, the
    destructor sees each element's slot once, front to back, but the size
    stays. *)
Theorem C11_clear_partial :
  forall (A : Type) (d d' : fdeq A) (l : list nat) r,
  fdeq_clear d false = Ok (d', l, r) -> d_sz d' = 0 /\ l = [] /\ r = OK.
Proof. exact @clear_null. Qed.

Theorem C11_clear_destructor_partial :
  forall (A : Type) (d : fdeq A),
  d_front d < d_cap d -> d_sz d < d_cap d ->
  fdeq_clear d true = Ok (d, (fun i => (d_front d + i) mod d_cap d) <$> seq 0 (d_sz d), OK).
Proof. exact @clear_destructor. Qed.

(** The claim is false: the size is not reset ... *)
Theorem C11_clear_size_refuted :
  exists (d d' : fdeq nat) l, fdeq_wf d /\ fdeq_clear d true = Ok (d', l, OK) /\ d_sz d' <> 0.
Proof.
  exists (Fdeq (Buf [Some 1; None] 1 false) 0). eexists _, _.
  split; [vm_compute; lia|]. split; [vm_compute; reflexivity|]. done.
Qed.

(** ... and on every full ring no element is destroyed. *)
Theorem C11_clear_full_refuted :
  forall (A : Type) (d : fdeq A), d_sz d = d_cap d -> d_front d < d_cap d -> d_sz d <> 0 ->
  fdeq_clear d true = Ok (d, [], OK).
Proof. exact @clear_full. Qed.

Example C11_case : let d := Fdeq (Buf [Some 1; Some 2] 2 false) 1 in
  d_sz d = d_cap d /\ d_front d < d_cap d /\ d_sz d <> 0.
Proof. vm_compute. repeat split; lia. Qed.

(** C39, deque part: with a destructor the size survives the free. *)
Theorem C39_fdeq_clear_and_free_refuted :
  exists (d d' : fdeq nat) l, fdeq_wf d /\ fdeq_clear_and_free d true = Ok (d', l, OK) /\
    d_cap d' = 0 /\ d_sz d' <> 0.
Proof.
  exists (Fdeq (Buf [Some 1; None] 1 true) 0). eexists _, _.
  split; [vm_compute; lia|]. split; [vm_compute; reflexivity|]. done.
Qed.

Theorem C39_fdeq_clear_and_free_partial :
  forall (A : Type) (d : fdeq A), d_alloc d = true ->
  fdeq_clear_and_free d false = Ok (fresh_fdeq 0 true, [], OK).
Proof.
  intros A d H. unfold fdeq_clear_and_free, buf_alloc. rewrite H. cbn.
  unfold fresh_fdeq, d_slots. simpl. destruct (b_cap (Buf (b_slots (d_buf d)) 0 true)); done.
Qed.

Example C39_fdeq_case : d_alloc (Fdeq (Buf [Some 1; None] 1 true) 0) = true.
Proof. done. Qed.

(** C40. Insertion in the middle: right when the contents are not wrapped and
    the room for the new elements follows them directly. *)
Theorem C40_insert_range_partial :
  forall (A : Type) (d : fdeq A) l k vs ok,
  fdeq_wf d -> fdeq_contents d = Some <$> l -> 0 < k < length l -> vs <> [] ->
  d_front d + length l + length vs <= d_cap d -> length l + length vs < d_cap d ->
  exists d', fdeq_insert_range d (Some ((d_front d + k) mod d_cap d)) vs ok
      = Ok (d', Some ((d_front d' + k) mod d_cap d')) /\ fdeq_wf d' /\
    fdeq_contents d' = Some <$> take k l ++ vs ++ drop k l.
Proof. exact @insert_mid_state. Qed.

(** Otherwise false: a wrapped tail leads to an access out of bounds ... *)
Theorem C40_insert_wrapped_refuted :
  exists (d : fdeq nat) l k, fdeq_wf d /\ fdeq_contents d = Some <$> l /\
    0 < k < length l /\ length l < d_cap d /\
    fdeq_insert_range d (Some ((d_front d + k) mod d_cap d)) [100] true = UB.
Proof.
  exists (Fdeq (Buf (Some <$> [5;6;7;8;0;0;1;2;3;4]) 9 false) 5), [0;1;2;3;4;5;6;7;8], 3.
  vm_compute. repeat split; try lia; auto.
Qed.

(** ... a tail whose destination wraps is overwritten before it is moved ... *)
Theorem C40_insert_overwrite_refuted :
  exists (d : fdeq nat) l k vs d' r, fdeq_wf d /\ fdeq_contents d = Some <$> l /\
    0 < k < length l /\ d_alloc d = false /\
    fdeq_insert_range d (Some ((d_front d + k) mod d_cap d)) vs true = Ok (d', r) /\
    forall m, fdeq_contents d' <> Some <$> take (d_cap d) (drop m (take k l ++ vs ++ drop k l)).
Proof.
  exists (Fdeq (Buf (Some <$> [1;2;3;4;5;6;7;8;9;0]) 9 false) 0), [1;2;3;4;5;6;7;8;9], 2,
    [101;102;103].
  eexists _, _. split; [vm_compute; lia|]. split; [done|]. split; [simpl; lia|]. split; [done|].
  split; [vm_compute; reflexivity|]. intros m.
  destruct (decide (m < 12)) as [Hm|Hm].
  - do 12 (destruct m as [|m]; [vm_compute; discriminate|]). lia.
  - rewrite drop_ge by (simpl; lia). vm_compute. discriminate.
Qed.

(** ... growth leaves the position dangling ... *)
Theorem C40_insert_growth_refuted :
  exists (d : fdeq nat) l k, fdeq_wf d /\ fdeq_contents d = Some <$> l /\
    0 < k < length l /\ d_alloc d = true /\
    fdeq_insert_range d (Some ((d_front d + k) mod d_cap d)) [100] true = UB.
Proof.
  exists (Fdeq (Buf (Some <$> [1;2;3]) 3 true) 0), [1;2;3], 1.
  vm_compute. repeat split; try lia; auto.
Qed.

(** ... and insertion at begin returns the last inserted element, where the
    documentation promises the first. *)
Theorem C40_insert_begin_refuted :
  exists (d d' : fdeq nat) i, fdeq_wf d /\
    fdeq_insert_range d (fdeq_begin d) [7; 8] true = Ok (d', Some i) /\
    fdeq_contents d' = Some <$> [7; 8; 1] /\ slot_get (d_slots d') i = Ok (Some 8).
Proof.
  exists (Fdeq (Buf [Some 1; None; None; None] 1 false) 0). eexists _, _.
  split; [vm_compute; lia|]. split; [vm_compute; reflexivity|]. done.
Qed.

Example C40_case : let d := Fdeq (Buf [None; Some 1; Some 2; Some 3; None; None] 3 false) 1 in
  fdeq_wf d /\ fdeq_contents d = Some <$> [1; 2; 3] /\ 0 < 1 < 3 /\
  d_front d + 3 + 2 <= d_cap d /\ 3 + 2 < d_cap d.
Proof. vm_compute. repeat split; lia. Qed.

(** C41, deque part. A copy that reports OK has the same contents, whatever
    the ring offset of the source; it succeeds when the destination is large
    enough or memory is given. *)
Theorem C41_fdeq_copy_partial :
  forall (A : Type) (dst src : fdeq A) l has_fn ok,
  fdeq_wf src -> fdeq_contents src = Some <$> l ->
  exists dst' r, fdeq_copy dst src has_fn ok = Ok (dst', r) /\
    (d_cap src <= d_cap dst \/ has_fn = true /\ ok = true -> r = OK) /\
    (r = OK -> fdeq_contents dst' = fdeq_contents src).
Proof. exact @copy_state. Qed.

(** A failed copy is not harmless: the destination keeps its small memory but
    takes over size and front. *)
Theorem C41_fdeq_copy_failure_refuted :
  exists (dst src dst' : fdeq nat), fdeq_wf dst /\ fdeq_wf src /\
    fdeq_copy dst src true false = Ok (dst', MEM_ERR) /\ d_cap dst' < d_sz dst'.
Proof.
  exists (Fdeq (Buf [Some 1] 1 true) 0), (Fdeq (Buf (Some <$> [2;3;4]) 3 true) 0). eexists.
  split; [vm_compute; lia|]. split; [vm_compute; lia|]. split; [vm_compute; reflexivity|].
  vm_compute. lia.
Qed.

Example C41_fdeq_case : let src := Fdeq (Buf [Some 3; None; Some 1; Some 2] 3 false) 2 in
  fdeq_wf src /\ fdeq_contents src = Some <$> [1; 2; 3] /\
  exists dst', fdeq_copy (fresh_fdeq 6 false) src false false = Ok (dst', OK).
Proof. vm_compute. repeat split; try lia. eexists. reflexivity. Qed.

Print Assumptions C06_fixed_ring.
Print Assumptions C06_scope.
Print Assumptions C07_growing_deque.
Print Assumptions C08_push_back_range_fixed.
Print Assumptions C08_push_back_range_grow_partial.
Print Assumptions C08_first_growth_refuted.
Print Assumptions C09_push_front_range_fixed_partial.
Print Assumptions C09_push_front_range_grow_partial.
Print Assumptions C09_first_growth_refuted.
Print Assumptions C09_long_range_refuted.
Print Assumptions C09_empty_range_refuted.
Print Assumptions C10_forward.
Print Assumptions C10_reverse.
Print Assumptions C11_clear_partial.
Print Assumptions C11_clear_destructor_partial.
Print Assumptions C11_clear_size_refuted.
Print Assumptions C11_clear_full_refuted.
Print Assumptions C39_fdeq_clear_and_free_refuted.
Print Assumptions C39_fdeq_clear_and_free_partial.
Print Assumptions C40_insert_range_partial.
Print Assumptions C40_insert_wrapped_refuted.
Print Assumptions C40_insert_overwrite_refuted.
Print Assumptions C40_insert_growth_refuted.
Print Assumptions C40_insert_begin_refuted.
Print Assumptions C41_fdeq_copy_partial.
Print Assumptions C41_fdeq_copy_failure_refuted.
