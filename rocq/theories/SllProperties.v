(** Properties of the singly linked list. *)
From stdpp Require Import base numbers option gmap fin_maps list.
From Verif Require Import Common LinkHeap PathLemmas SllModel SllSpec SllProofs.

(** C22. Any number of lists, with or without allocation, any history of
    permitted calls: every call has the answer and effect the specification
    gives (so none is undefined and all terminate), and afterwards traversal and
    size of every list agree with the mathematical lists. *)
Theorem C22_list_history :
  forall (V : Type) (ls : list (nat * bool)) (os : list (sll_op V)) rs A,
  (forall l a, (l, a) ∈ ls -> l <> 0) ->
  calls (list_to_map ls) (start ls) os rs A ->
  exists s, sll_run (sll_init ls) os = Ok (s, rs) /\ shows s A.
Proof. exact @history. Qed.

(** After any history validate accepts every list. *)
Theorem C22_valid :
  forall (V : Type) (ls : list (nat * bool)), (forall l a, (l, a) ∈ ls -> l <> 0) ->
  forall (os : list (sll_op V)) rs A, calls (list_to_map ls) (start ls) os rs A ->
  forall o r A', call (list_to_map ls) A o r A' ->
  exists s s', sll_run (sll_init ls) os = Ok (s, rs) /\ sll_step s o = Ok (s', r) /\ shows s' A' /\
    (forall l xs, lists A' !! l = Some xs -> sll_validate s' l = Ok true).
Proof. exact @after_call. Qed.

Example C22_case :
  exists A, calls (V:=nat) (list_to_map [(1, false); (2, true)]) (start [(1, false); (2, true)])
    [SNew 10 100 7; SNew 11 101 0; SNew 12 102 1; SPushFront 1 10 0; SPushFront 1 11 0; SPushFront 1 12 0;
     SErase 1 11; SPushFront 2 11 20; SPushFront 2 11 0; SPopFront 1; SIter 1; SIter 2; SPopFront 2]
    [RPtr 10; RPtr 11; RPtr 12; RPtr 10; RPtr 11; RPtr 12;
     RPtr 10; RPtr 20; RPtr 0; RResult OK; RElems [(10, 100)]; RElems [(20, 101)]; RResult OK] A.
Proof.
  eexists.
  do 3 (eapply calls_cons; [by apply call_new|]).
  do 3 (eapply calls_cons; [eapply call_push; [done|done|done|by apply unlisted_compute; vm_compute]|]).
  eapply calls_cons; [by apply (call_erase _ _ 1 11 [12] [10] false)|].
  eapply calls_cons; [by eapply (call_push_alloc _ _ 2 11 20 [] 101)|].
  eapply calls_cons; [by eapply (call_push_refused _ _ 2 11)|].
  eapply calls_cons; [by eapply (call_pop _ _ 1 12)|].
  do 2 (eapply calls_cons; [apply call_iter; [done|by repeat constructor]|]).
  eapply calls_cons; [by eapply (call_pop _ _ 2 20)|].
  apply calls_nil.
Qed.

(** C23. *)
Theorem C23_splice :
  forall (V : Type) (ls : list (nat * bool)), (forall l a, (l, a) ∈ ls -> l <> 0) ->
  forall (os : list (sll_op V)) rs A, calls (list_to_map ls) (start ls) os rs A ->
  forall pl pos cl e A', moved A pl pos cl [e] A' ->
  exists s s', sll_run (sll_init ls) os = Ok (s, rs) /\
    sll_splice s pl pos cl e = Ok (s', OK) /\ shows s' A' /\
    (forall l xs, lists A' !! l = Some xs -> sll_validate s' l = Ok true).
Proof. exact @after_splice. Qed.

Theorem C23_splice_range :
  forall (V : Type) (ls : list (nat * bool)), (forall l a, (l, a) ∈ ls -> l <> 0) ->
  forall (os : list (sll_op V)) rs A, calls (list_to_map ls) (start ls) os rs A ->
  forall pl pos cl b e run A', moved A pl pos cl run A' -> runs b e run ->
  exists s s', sll_run (sll_init ls) os = Ok (s, rs) /\
    sll_splice_range s pl pos cl b e = Ok (s', OK) /\ shows s' A' /\
    (forall l xs, lists A' !! l = Some xs -> sll_validate s' l = Ok true).
Proof. exact @after_splice_range. Qed.

(** What [moved] says about the elements: none is lost or duplicated. *)
Theorem C23_nothing_lost :
  forall (V : Type) (A A' : view V) pl pos cl run, moved A pl pos cl run A' ->
  exists xs ys xs' ys', lists A !! pl = Some xs /\ lists A !! cl = Some ys /\
    lists A' !! pl = Some xs' /\ lists A' !! cl = Some ys' /\
    (if pl =? cl then xs' ≡ₚ xs
     else xs' ≡ₚ run ++ xs /\ ys ≡ₚ run ++ ys') /\
    vals A' = vals A /\
    forall l, l <> pl -> l <> cl -> lists A' !! l = lists A !! l.
Proof. exact @moved_keeps. Qed.

(** Lists 1 = 14 13 12 11 10 and 2 = 21 20 used below. *)
Definition two_lists : list (sll_op nat) :=
  [SNew 10 100 0; SNew 11 101 0; SNew 12 102 0; SNew 13 103 0; SNew 14 104 0; SNew 20 200 0; SNew 21 201 0;
   SPushFront 1 10 0; SPushFront 1 11 0; SPushFront 1 12 0; SPushFront 1 13 0; SPushFront 1 14 0;
   SPushFront 2 20 0; SPushFront 2 21 0].
Definition no_alloc2 : list (nat * bool) := [(1, false); (2, false)].
Definition two_views : view nat :=
  View (<[2:=[21; 20]]> (<[1:=[14; 13; 12; 11; 10]]> ∅))
    (list_to_map [(10, 100); (11, 101); (12, 102); (13, 103); (14, 104); (20, 200); (21, 201)]).

Lemma two_lists_calls : exists rs, calls (list_to_map no_alloc2) (start no_alloc2) two_lists rs two_views.
Proof.
  eexists.
  do 7 (eapply calls_cons; [by apply call_new|]).
  do 7 (eapply calls_cons; [eapply call_push; [done|done|done|by apply unlisted_compute; vm_compute]|]).
  match goal with |- calls _ ?A _ _ _ => replace A with two_views end; [apply calls_nil|].
  unfold two_views, set_list. f_equal; apply (bool_decide_unpack _); by vm_compute.
Qed.

Example C23_case :
  moved two_views 2 21 1 [13; 12; 11]
    (View (<[2:=[21; 13; 12; 11; 20]]> (<[1:=[14; 10]]> ∅)) (vals two_views)) /\ runs 13 11 [13; 12; 11] /\
  moved two_views 1 1 1 [12] (View (<[2:=[21; 20]]> (<[1:=[12; 14; 13; 11; 10]]> ∅)) (vals two_views)).
Proof.
  split_and!; [|done|].
  - exists [14], [10], [21], [20]. split_and!; [done..|]. f_equal; apply (bool_decide_unpack _); by vm_compute.
  - exists [14; 13], [11; 10], [], [14; 13; 11; 10]. split_and!; [done..|].
    f_equal; apply (bool_decide_unpack _); by vm_compute.
Qed.

(** C43. The documentation says the end of a removed range is exclusive and that
    a splice goes before the position; the code does neither. *)
Theorem C43_range_end_refuted :
  exists (s s' : smem nat) rs, sll_run (sll_init no_alloc2) (two_lists ++ [SExtractRange 1 13 11]) = Ok (s, rs) /\
    sll_iter s 1 = Ok [(14, 104); (10, 100)] /\
    last rs = Some (RPtr 10) /\
    sll_run (sll_init no_alloc2) (two_lists ++ [SEraseRange 1 13 11]) = Ok (s', rs) /\
    sll_iter s' 1 = Ok [(14, 104); (10, 100)].
Proof. do 3 eexists. by vm_compute. Qed.

Theorem C43_splice_side_refuted :
  exists (s : smem nat) rs, sll_run (sll_init no_alloc2) (two_lists ++ [SSplice 1 12 2 20]) = Ok (s, rs) /\
    sll_iter s 1 = Ok [(14, 104); (13, 103); (12, 102); (20, 200); (11, 101); (10, 100)].
Proof. do 2 eexists. by vm_compute. Qed.

(** What holds: the range removed is begin to end, end included; the answer is
    the element after it; nothing else changes ([f]: erase, else extract). The
    missing part is the documented range, which excludes the end. *)
Theorem C43_range_removal_partial :
  forall (V : Type) (ls : list (nat * bool)), (forall l a, (l, a) ∈ ls -> l <> 0) ->
  forall (os : list (sll_op V)) rs A, calls (list_to_map ls) (start ls) os rs A ->
  forall (f : bool) l b e pre run post fr, lists A !! l = Some (pre ++ run ++ post) ->
  runs b e run -> (list_to_map ls : gmap nat bool) !! l = Some fr ->
  exists s s', sll_run (sll_init ls) os = Ok (s, rs) /\
    sll_remove_range f s l b e = Ok (s', hd 0 post) /\
    shows s' (set_list A l (pre ++ post) (f && fr) run).
Proof. exact @after_remove_range. Qed.

(** A range whose end points are NULL or the sentinel, of no list or an empty one,
    is answered with NULL and nothing changes. *)
Theorem C43_no_range :
  forall (V : Type) (ls : list (nat * bool)), (forall l a, (l, a) ∈ ls -> l <> 0) ->
  forall (os : list (sll_op V)) rs A, calls (list_to_map ls) (start ls) os rs A ->
  forall (f : bool) l b e xs, l = 0 \/ lists A !! l = Some xs ->
  l = 0 \/ b = 0 \/ e = 0 \/ xs = [] \/ b = l \/ e = l ->
  exists s, sll_run (sll_init ls) os = Ok (s, rs) /\ sll_remove_range f s l b e = Ok (s, 0).
Proof. exact @after_no_range. Qed.

Example C43_case : lists two_views !! 1 = Some ([14] ++ [13; 12; 11] ++ [10]) /\ runs 13 11 [13; 12; 11] /\
  (list_to_map no_alloc2 : gmap nat bool) !! 1 = Some false.
Proof. by vm_compute. Qed.

(** C44, singly linked list: clear empties the list, frees every element if the
    list allocates, and hands every element to the destructor exactly once, in
    order and while its data is still there. *)
Theorem C44_sll_clear :
  forall (V : Type) (ls : list (nat * bool)), (forall l a, (l, a) ∈ ls -> l <> 0) ->
  forall (os : list (sll_op V)) rs A, calls (list_to_map ls) (start ls) os rs A ->
  forall l fn xs fr, lists A !! l = Some xs -> (list_to_map ls : gmap nat bool) !! l = Some fr ->
  exists s s', sll_run (sll_init ls) os = Ok (s, rs) /\
    sll_clear s l fn = Ok (s', OK, if (fn : bool) then map (fun x => (x, vals A !! x)) xs else []) /\
    NoDup xs /\ (forall x, x ∈ xs -> is_Some (vals A !! x)) /\
    shows s' (set_list A l [] fr xs).
Proof. exact @after_clear. Qed.

Example C44_sll_case : lists two_views !! 2 = Some [21; 20] /\
  (list_to_map no_alloc2 : gmap nat bool) !! 2 = Some false /\
  match sll_run (sll_init no_alloc2) (two_lists ++ [SClear 2 true; SSize 2]) with
  | Ok (_, rs) => drop 14 rs = [RDestroyed OK [(21, Some 201); (20, Some 200)]; RNum 0%Z]
  | _ => False
  end.
Proof. by vm_compute. Qed.

Print Assumptions C22_list_history.
Print Assumptions C22_valid.
Print Assumptions C23_splice.
Print Assumptions C23_splice_range.
Print Assumptions C23_nothing_lost.
Print Assumptions C43_range_end_refuted.
Print Assumptions C43_splice_side_refuted.
Print Assumptions C43_range_removal_partial.
Print Assumptions C43_no_range.
Print Assumptions C44_sll_clear.
