(** Properties of the doubly linked list. *)
From stdpp Require Import base numbers option gmap fin_maps list.
From Verif Require Import Common LinkHeap PathLemmas DllModel DllSpec DllProofs.

(** C24. False of the code: taking the front away leaves the link back from the
    new front (or from the sentinel of the emptied list) as it was. *)
Definition two_dlls : list (nat * bool) := [(1, false); (2, false)].

(** Pop the only element, push another at the back: the list has size 1 and no
    elements, and validate says so. *)
Theorem C24_pop_front_push_back_refuted :
  exists (s : dmem nat) rs,
    dll_run false (dll_init two_dlls) [DNew 10 100 0 0; DNew 11 101 0 0; DPushBack 1 10 0; DPopFront 1; DPushBack 1 11 0] = Ok (s, rs) /\
    dll_size s 1 = Ok 1%Z /\ dll_iter s 1 = Ok [] /\ dll_validate s 1 = Ok false.
Proof. do 2 eexists. by vm_compute. Qed.

(** Pop the front of three: walking backwards visits the popped element. When
    the list allocates, that element is already freed: undefined behaviour. *)
Theorem C24_pop_front_backward_refuted :
  exists (s : dmem nat) rs,
    dll_run false (dll_init two_dlls)
      [DNew 10 100 0 0; DNew 11 101 0 0; DNew 12 102 0 0; DPushBack 1 10 0; DPushBack 1 11 0; DPushBack 1 12 0; DPopFront 1] = Ok (s, rs) /\
    dll_iter s 1 = Ok [(11, 101); (12, 102)] /\
    dll_riter s 1 = Ok [(12, 102); (11, 101); (10, 100)] /\ dll_validate s 1 = Ok true.
Proof. do 2 eexists. by vm_compute. Qed.

Theorem C24_pop_front_freed_refuted :
  exists (s : dmem nat) rs,
    dll_run false (dll_init [(1, true)])
      [DEmplaceBack 1 100 10; DEmplaceBack 1 101 11; DEmplaceBack 1 102 12; DPopFront 1] = Ok (s, rs) /\
    dll_iter s 1 = Ok [(11, 101); (12, 102)] /\ dll_riter s 1 = UB /\ dll_validate s 1 = Ok true.
Proof. do 2 eexists. by vm_compute. Qed.

(** Pop the front, then erase the new front: it stays reachable in a list of size 0. *)
Theorem C24_pop_front_erase_refuted :
  exists (s : dmem nat) rs,
    dll_run false (dll_init two_dlls)
      [DNew 10 100 0 0; DNew 11 101 0 0; DPushBack 1 10 0; DPushBack 1 11 0; DPopFront 1; DErase 1 11] = Ok (s, rs) /\
    dll_size s 1 = Ok 0%Z /\ dll_iter s 1 = Ok [(11, 101)].
Proof. do 2 eexists. by vm_compute. Qed.

(** Clear, then push at the back: the new element is lost. *)
Theorem C24_clear_push_back_refuted :
  exists (s : dmem nat) rs,
    dll_run false (dll_init two_dlls)
      [DNew 10 100 0 0; DNew 11 101 0 0; DPushBack 1 10 0; DClear 1 true; DPushBack 1 11 0] = Ok (s, rs) /\
    dll_size s 1 = Ok 1%Z /\ dll_iter s 1 = Ok [].
Proof. do 2 eexists. by vm_compute. Qed.

(** What holds: any number of lists, any history of permitted calls, assertions
    on or off. Missing: a list whose front was popped (worn) permits, until
    something is pushed at its front, only the calls that do not use its out of
    date link. Histories that never pop the front or clear are not restricted. *)
Theorem C24_history_partial :
  forall (V : Type) (nd : bool) (ls : list (nat * bool)) (os : list (dll_op V)) rs A,
  (forall l a, (l, a) ∈ ls -> l <> 0) ->
  calls nd (list_to_map ls) (start ls) os rs A ->
  exists s, dll_run nd (dll_init ls) os = Ok (s, rs) /\ shows s A.
Proof. exact @history. Qed.

(** The whole claim, for histories that never pop the front or clear. *)
Theorem C24_keeps_front_partial :
  forall (V : Type) (nd : bool) (ls : list (nat * bool)) (os : list (dll_op V)) rs A,
  (forall l a, (l, a) ∈ ls -> l <> 0) ->
  calls nd (list_to_map ls) (start ls) os rs A -> Forall keeps_front os ->
  exists s, dll_run nd (dll_init ls) os = Ok (s, rs) /\
    forall l xs, lists A !! l = Some xs ->
      dll_size s l = Ok (Z.of_nat (length xs)) /\
      exists ps, map fst ps = xs /\ Forall (fun p => vals A !! fst p = Some (snd p)) ps /\
        dll_iter s l = Ok ps /\ dll_riter s l = Ok (rev ps) /\ dll_validate s l = Ok true.
Proof. exact @history_front. Qed.

Example C24_case :
  exists A, calls (V:=nat) false (list_to_map [(1, false); (2, true)]) (start [(1, false); (2, true)])
    [DNew 10 100 7 7; DNew 11 101 0 0; DNew 12 102 1 0; DPushBack 1 10 0; DPushFront 1 11 0; DInsert 1 10 12 0;
     DRIter 1; DPopFront 1; DIter 1; DPushFront 1 11 0; DErase 1 12; DPushBack 2 12 20; DPushBack 2 12 0;
     DEmplaceFront 2 7 21; DPopBack 1; DIter 1; DRIter 2; DValidate 2]
    [RPtr 10; RPtr 11; RPtr 12; RPtr 10; RPtr 11; RPtr 12;
     RElems [(10, 100); (12, 102); (11, 101)]; RResult OK; RElems [(12, 102); (10, 100)]; RPtr 11; RPtr 12; RPtr 20; RPtr 0;
     RPtr 21; RResult OK; RElems [(11, 101)]; RElems [(20, 102); (21, 7)]; RBool true] A.
Proof.
  eexists.
  do 3 (eapply calls_cons; [by apply call_new|]).
  eapply calls_cons; [eapply (call_push_back _ _ _ 1 10 0 []); [done|eapply pushed_own; [done|done|by apply unlisted_compute; vm_compute]|by right]|].
  eapply calls_cons; [eapply call_push_front; [done|eapply pushed_own; [done|done|by apply unlisted_compute; vm_compute]]|].
  eapply calls_cons; [eapply (call_insert _ _ _ 1 12 0 [11] [10]); [done|eapply pushed_own; [done|done|by apply unlisted_compute; vm_compute]]|].
  eapply calls_cons; [apply (call_riter _ _ _ 1 [(11, 101); (12, 102); (10, 100)]); [done|by repeat constructor]|].
  eapply calls_cons; [by eapply (call_pop_front _ _ _ 1 11)|].
  eapply calls_cons; [apply call_iter; [done|by repeat constructor]|].
  eapply calls_cons; [eapply call_push_front; [done|eapply pushed_own; [done|done|by apply unlisted_compute; vm_compute]]|].
  eapply calls_cons; [by apply (call_erase _ _ _ 1 12 [11] [10] false)|].
  eapply calls_cons; [eapply (call_push_back _ _ _ 2 12 20 []); [done|by eapply pushed_copy|by right]|].
  eapply calls_cons; [by eapply (call_push_refused _ _ _ 2 12); [done|done|right]|].
  eapply calls_cons; [by eapply (call_emplace_front _ _ _ 2 7 21)|].
  eapply calls_cons; [by eapply (call_pop_back _ _ _ 1 [11] 10 false); [done|done|left]|].
  eapply calls_cons; [apply call_iter; [done|by repeat constructor]|].
  eapply calls_cons; [apply (call_riter _ _ _ 2 [(21, 7); (20, 102)]); [done|by repeat constructor]|].
  eapply calls_cons; [by eapply (call_validate _ _ _ 2)|].
  apply calls_nil.
Qed.

(** C25. The erased element itself is returned, not the one after it; if the
    list allocates it has been freed. *)
Theorem C25_successor_refuted :
  exists (s s' : dmem nat) rs,
    dll_run false (dll_init [(1, true)]) [DEmplaceBack 1 5 10; DEmplaceBack 1 6 11; DEmplaceBack 1 7 12] = Ok (s, rs) /\
    dll_erase s 1 11 = Ok (s', 11) /\ dat s' !! 11 = None /\ dll_iter s' 1 = Ok [(10, 5); (12, 7)].
Proof. do 3 eexists. by vm_compute. Qed.

(** What holds: exactly the element is removed, and NULL is returned if it was
    the last one. Missing: the successor as answer. *)
Theorem C25_erase_partial :
  forall (V : Type) (nd : bool) (ls : list (nat * bool)), (forall l a, (l, a) ∈ ls -> l <> 0) ->
  forall (os : list (dll_op V)) rs A, calls nd (list_to_map ls) (start ls) os rs A ->
  forall l e pre post fr, sound A l (pre ++ [e] ++ post) -> (list_to_map ls : gmap nat bool) !! l = Some fr ->
  exists s s', dll_run nd (dll_init ls) os = Ok (s, rs) /\
    dll_erase s l e = Ok (s', match post with [] => 0 | _ => e end) /\
    shows s' (set_list A l (pre ++ post) fr [e]).
Proof. exact @after_erase. Qed.

(** extract and the range removals do return the successor. The end of a range
    is exclusive and may be the sentinel; [f]: erase, else extract. *)
Theorem C25_extract_partial :
  forall (V : Type) (nd : bool) (ls : list (nat * bool)), (forall l a, (l, a) ∈ ls -> l <> 0) ->
  forall (os : list (dll_op V)) rs A, calls nd (list_to_map ls) (start ls) os rs A ->
  forall l e pre post, sound A l (pre ++ [e] ++ post) ->
  exists s s', dll_run nd (dll_init ls) os = Ok (s, rs) /\
    dll_extract s l e = Ok (s', hd 0 post) /\
    shows s' (set_list A l (pre ++ post) false []).
Proof. exact @after_extract. Qed.

Theorem C25_range_removal_partial :
  forall (V : Type) (nd : bool) (ls : list (nat * bool)), (forall l a, (l, a) ∈ ls -> l <> 0) ->
  forall (os : list (dll_op V)) rs A, calls nd (list_to_map ls) (start ls) os rs A ->
  forall (f : bool) l b pre run post fr, sound A l (pre ++ run ++ post) ->
  head run = Some b -> (list_to_map ls : gmap nat bool) !! l = Some fr ->
  exists s s', dll_run nd (dll_init ls) os = Ok (s, rs) /\
    dll_remove_range nd f s l b (hd l post) = Ok (s', hd 0 post) /\
    shows s' (set_list A l (pre ++ post) (f && fr) run).
Proof. exact @after_remove_range. Qed.

(** Lists 1 = 10 11 12 13 14 and 2 = 20, used below. *)
Definition filled : list (dll_op nat) :=
  [DNew 10 100 0 0; DNew 11 101 0 0; DNew 12 102 0 0; DNew 13 103 0 0; DNew 14 104 0 0; DNew 20 200 0 0;
   DPushBack 1 10 0; DPushBack 1 11 0; DPushBack 1 12 0; DPushBack 1 13 0; DPushBack 1 14 0; DPushBack 2 20 0].
Definition filled_view : view nat :=
  View (<[2:=[20]]> (<[1:=[10; 11; 12; 13; 14]]> ∅))
    (list_to_map [(10, 100); (11, 101); (12, 102); (13, 103); (14, 104); (20, 200)]) ∅.

Lemma filled_calls nd : exists rs, calls nd (list_to_map two_dlls) (start two_dlls) filled rs filled_view.
Proof.
  eexists.
  do 6 (eapply calls_cons; [by apply call_new|]).
  do 6 (eapply calls_cons; [eapply call_push_back; [done|eapply pushed_own; [done|done|by apply unlisted_compute; vm_compute]|by right]|]).
  refine (eq_ind _ (fun B => calls nd _ _ [] [] B) (calls_nil _ _ _) _ _).
  unfold filled_view, set_list. f_equal; apply (bool_decide_unpack _); by vm_compute.
Qed.

Example C24_keeps_front_case : Forall keeps_front filled.
Proof. by repeat constructor. Qed.

Example C25_case : sound filled_view 1 ([10; 11] ++ [12] ++ [13; 14]) /\
  sound filled_view 1 ([10] ++ [11; 12; 13] ++ [14]) /\ head [11; 12; 13] = Some 11 /\
  (list_to_map two_dlls : gmap nat bool) !! 1 = Some false.
Proof. by vm_compute. Qed.

(** C26. *)
Theorem C26_splice :
  forall (V : Type) (nd : bool) (ls : list (nat * bool)), (forall l a, (l, a) ∈ ls -> l <> 0) ->
  forall (os : list (dll_op V)) rs A, calls nd (list_to_map ls) (start ls) os rs A ->
  forall pl pos cl pre e post A', moved A pl pos cl pre [e] post A' ->
  exists s s', dll_run nd (dll_init ls) os = Ok (s, rs) /\
    dll_splice s pl pos cl e = Ok (s', OK) /\ shows s' A'.
Proof. exact @after_splice. Qed.

(** With assertions on, moving a run longer than the destination's size plus one
    aborts: the length of the run is checked against the wrong list. *)
Theorem C26_splice_range_refuted :
  exists (s : dmem nat) rs, dll_run false (dll_init two_dlls) filled = Ok (s, rs) /\
    dll_splice_range false s 2 20 1 11 14 = UB /\
    exists s', dll_splice_range true s 2 20 1 11 14 = Ok (s', OK) /\
      dll_iter s' 2 = Ok [(11, 101); (12, 102); (13, 103); (20, 200)] /\ dll_iter s' 1 = Ok [(10, 100); (14, 104)].
Proof. do 2 eexists. split; [by vm_compute|]. split; [by vm_compute|]. eexists. by vm_compute. Qed.

(** Missing: that case. *)
Theorem C26_splice_range_partial :
  forall (V : Type) (nd : bool) (ls : list (nat * bool)), (forall l a, (l, a) ∈ ls -> l <> 0) ->
  forall (os : list (dll_op V)) rs A, calls nd (list_to_map ls) (start ls) os rs A ->
  forall pl pos cl b pre run post A', moved A pl pos cl pre run post A' -> head run = Some b ->
  pl = cl \/ nd = true \/ (exists xs, lists A !! pl = Some xs /\ length run <= S (length xs)) ->
  exists s s', dll_run nd (dll_init ls) os = Ok (s, rs) /\
    dll_splice_range nd s pl pos cl b (hd cl post) = Ok (s', OK) /\ shows s' A'.
Proof. exact @after_splice_range. Qed.

(** What [moved] says about the elements: none is lost or duplicated. *)
Theorem C26_nothing_lost :
  forall (V : Type) (A A' : view V) pl pos cl pre run post, moved A pl pos cl pre run post A' ->
  exists xs ys xs' ys', lists A !! pl = Some xs /\ lists A !! cl = Some ys /\
    lists A' !! pl = Some xs' /\ lists A' !! cl = Some ys' /\
    (if pl =? cl then xs' ≡ₚ xs
     else xs' ≡ₚ run ++ xs /\ ys ≡ₚ run ++ ys') /\
    vals A' = vals A /\
    forall l, l <> pl -> l <> cl -> lists A' !! l = lists A !! l.
Proof. exact @moved_keeps. Qed.

Example C26_case :
  moved filled_view 2 20 1 [10] [11; 12] [13; 14]
    (View (<[2:=[11; 12; 20]]> (<[1:=[10; 13; 14]]> ∅)) (vals filled_view) ∅) /\
  moved filled_view 1 1 1 [10] [11; 12] [13; 14]
    (View (<[2:=[20]]> (<[1:=[10; 13; 14; 11; 12]]> ∅)) (vals filled_view) ∅) /\
  lists filled_view !! 2 = Some [20] /\ length [11; 12] <= S (length [20]).
Proof.
  split_and!; [| |done|simpl; lia].
  - split_and!; [by apply not_elem_of_empty|by apply not_elem_of_empty|]. exists [], [20].
    split_and!; [done..|]. f_equal; apply (bool_decide_unpack _); by vm_compute.
  - split_and!; [by apply not_elem_of_empty|by apply not_elem_of_empty|]. exists [10; 13; 14], [].
    split_and!; [done..|]. f_equal; apply (bool_decide_unpack _); by vm_compute.
Qed.

(** C44, doubly linked list. *)
Theorem C44_dll_clear :
  forall (V : Type) (nd : bool) (ls : list (nat * bool)), (forall l a, (l, a) ∈ ls -> l <> 0) ->
  forall (os : list (dll_op V)) rs A, calls nd (list_to_map ls) (start ls) os rs A ->
  forall l fn xs fr, lists A !! l = Some xs -> (list_to_map ls : gmap nat bool) !! l = Some fr ->
  exists s s', dll_run nd (dll_init ls) os = Ok (s, rs) /\
    dll_clear s l fn = Ok (s', OK, if (fn : bool) then map (fun x => (x, vals A !! x)) xs else []) /\
    NoDup xs /\ (forall x, x ∈ xs -> is_Some (vals A !! x)) /\
    shows s' (let A' := set_list A l [] fr xs in match xs with [] => A' | _ => wear A' l end).
Proof. exact @after_clear. Qed.

Example C44_dll_case : lists filled_view !! 1 = Some [10; 11; 12; 13; 14] /\
  (list_to_map two_dlls : gmap nat bool) !! 1 = Some false /\
  match dll_run false (dll_init two_dlls) (filled ++ [DClear 1 true; DSize 1]) with
  | Ok (_, rs) => drop 12 rs =
      [RDestroyed OK [(10, Some 100); (11, Some 101); (12, Some 102); (13, Some 103); (14, Some 104)]; RNum 0%Z]
  | _ => False
  end.
Proof. by vm_compute. Qed.

Print Assumptions C24_pop_front_push_back_refuted.
Print Assumptions C24_pop_front_backward_refuted.
Print Assumptions C24_pop_front_freed_refuted.
Print Assumptions C24_pop_front_erase_refuted.
Print Assumptions C24_clear_push_back_refuted.
Print Assumptions C24_history_partial.
Print Assumptions C24_keeps_front_partial.
Print Assumptions C25_successor_refuted.
Print Assumptions C25_erase_partial.
Print Assumptions C25_extract_partial.
Print Assumptions C25_range_removal_partial.
Print Assumptions C26_splice.
Print Assumptions C26_splice_range_refuted.
Print Assumptions C26_splice_range_partial.
Print Assumptions C26_nothing_lost.
Print Assumptions C44_dll_clear.
