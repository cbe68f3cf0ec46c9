(** Properties of the ordered map (splay tree). *)
From stdpp Require Import base numbers option gmap fin_maps list.
From Coq Require Import Sorting.Sorted.
From Verif Require Import Common LinkHeap OrderSpec MapOps MapSpec TreeModel TreeProofs MapProofs MapCases OmModel OmProofs OmCalls.

(** The documented contract, and the one the code keeps. *)
Definition documented (alloc : bool) : contract := Contract alloc false true.
Definition kept (alloc : bool) : contract := Contract alloc true false.

(** C30. False in two respects. The lazy macros report an insert error although
    they inserted; *)
Theorem C30_macro_status_refuted :
  exists ops rs A s rs',
    calls Nat.compare (documented true) (start (K:=nat) (V:=nat)) ops rs A /\
    om_run Nat.compare true om_init ops = Ok (s, rs') /\
    rs = [REnt false false 10; REnt false false 20] /\ rs' = [REnt false true 10; REnt false true 20].
Proof.
  exists [MTryInsertW 5 1 10; MAssignW 6 2 20]. eexists _, _, _, _.
  split; [repeat (eapply calls_cons; [call_tac|]); apply calls_nil|].
  split; [by vm_compute|]. done.
Qed.

(** and contains compares the key with the sentinel's memory when asked of an
    empty map. *)
Theorem C30_contains_empty_refuted :
  exists ops rs A,
    calls Nat.compare (documented false) (start (K:=nat) (V:=nat)) ops rs A /\
    om_run Nat.compare false om_init ops = UB.
Proof.
  exists [MContains 5]. eexists _, _.
  split; [eapply calls_cons; [call_tac|apply calls_nil]|]. by vm_compute.
Qed.

(** With these two respects excepted every history of permitted calls gives the
    answers of a finite map, and ends in a map that shows exactly its elements.
    Missing: the status of the lazy macros, and contains on an empty map. *)
Theorem C30_history_partial :
  forall (K V : Type) (cmp : K -> K -> comparison), total_preorder cmp ->
  forall (alloc : bool) (ops : list (map_op K V)) rs A,
  calls cmp (kept alloc) start ops rs A ->
  exists s rs', om_run cmp alloc om_init ops = Ok (s, rs') /\ Forall2 agree rs rs' /\
    shown A (om_size s) (om_iter s true) (om_iter s false) (om_validate cmp s).
Proof. exact @history. Qed.

(** The specification says something for every key. *)
Theorem C30_present_or_absent :
  forall (K V : Type) (cmp : K -> K -> comparison), total_preorder cmp ->
  forall (alloc : bool) (ops : list (map_op K V)) rs A k,
  calls cmp (kept alloc) start ops rs A ->
  (exists l1 x l2, present cmp A k l1 x l2) \/ (exists l1 l2, absent cmp A k l1 l2).
Proof. exact @history_covers. Qed.

(** C31. After every permitted history the walk forwards is in ascending key
    order, the walk backwards is its reverse, and a range delimits exactly the
    elements between its bounds. *)
Theorem C31_walk :
  forall (K V : Type) (cmp : K -> K -> comparison), total_preorder cmp ->
  forall (alloc : bool) (ops : list (map_op K V)) rs A,
  calls cmp (kept alloc) start ops rs A ->
  exists s rs' ps, om_run cmp alloc om_init ops = Ok (s, rs') /\
    om_iter s true = Ok ps /\ om_iter s false = Ok (rev ps) /\
    map fst ps = elems A /\ Forall (fun p => vals A !! fst p = Some (snd p)) ps /\
    StronglySorted (fun p q => cmp (fst (snd p)) (fst (snd q)) = Lt) ps.
Proof. exact @history_walk. Qed.

Theorem C31_range :
  forall (K V : Type) (cmp : K -> K -> comparison), total_preorder cmp ->
  forall (alloc : bool) (ops : list (map_op K V)) rs A a b,
  calls cmp (kept alloc) start ops rs A -> cmp a b <> Gt ->
  exists s rs' s' l1 l2 l3, om_run cmp alloc om_init ops = Ok (s, rs') /\
    elems A = l1 ++ l2 ++ l3 /\ om_range cmp s true a b = Ok (s', (hd 0 (l2 ++ l3), hd 0 l3)) /\
    Forall (keyed cmp A Gt a) l1 /\ Forall (inside cmp A a b) l2 /\ Forall (keyed cmp A Lt b) l3 /\
    shown A (om_size s') (om_iter s' true) (om_iter s' false) (om_validate cmp s').
Proof. exact @history_range. Qed.

Theorem C31_rrange :
  forall (K V : Type) (cmp : K -> K -> comparison), total_preorder cmp ->
  forall (alloc : bool) (ops : list (map_op K V)) rs A a b,
  calls cmp (kept alloc) start ops rs A -> cmp b a <> Gt ->
  exists s rs' s' l1 l2 l3, om_run cmp alloc om_init ops = Ok (s, rs') /\
    rev (elems A) = l1 ++ l2 ++ l3 /\ om_range cmp s false a b = Ok (s', (hd 0 (l2 ++ l3), hd 0 l3)) /\
    Forall (keyed cmp A Lt a) l1 /\ Forall (inside cmp A b a) l2 /\ Forall (keyed cmp A Gt b) l3 /\
    shown A (om_size s') (om_iter s' true) (om_iter s' false) (om_validate cmp s').
Proof. exact @history_rrange. Qed.

(** C44. Clear hands every element to the destructor exactly once, frees it if
    there is an allocator, and leaves an empty map that can be used again: the
    history theorem covers what follows. *)
Theorem C44_om_clear :
  forall (K V : Type) (cmp : K -> K -> comparison), total_preorder cmp ->
  forall (alloc fn : bool) (ops : list (map_op K V)) rs A,
  calls cmp (kept alloc) start ops rs A ->
  exists s rs' ps s' l, om_run cmp alloc om_init ops = Ok (s, rs') /\ om_iter s true = Ok ps /\
    om_clear cmp alloc s fn = Ok (s', l) /\ l ≡ₚ (if fn then ps else []) /\
    om_size s' = Ok 0%Z /\ om_is_empty s' = true /\ om_iter s' true = Ok [] /\ om_validate cmp s' = Ok true /\
    (forall x, x ∈ map fst ps -> dat s' !! x = if alloc then None else dat s !! x) /\
    (forall x, x ∉ map fst ps -> dat s' !! x = dat s !! x).
Proof. exact @history_clear. Qed.

(** Histories with and without an allocator. *)
Definition own : list (map_op nat nat) :=
  [MNew 2 5 50 0 0 0 false; MNew 3 3 30 7 7 7 true; MNew 4 8 80 0 0 0 false; MNew 5 5 55 1 2 3 false;
   MNew 6 0 0 0 0 0 false; MNew 7 9 90 0 0 0 false;
   MInsert 2 6 0; MTryInsert 3 0; MAssign 4 0; MContains 3; MContains 4; MGet 8; MGet 7; MInsert 5 6 0; MGet 5; MTryInsert 5 0;
   MEntry 8; MEntry 2; MAndModify 8 S; MAndModify 1 S; MOrInsert 9 7 0; MOrInsert 3 6 0;
   MBegin; MRBegin; MNext 3; MNext 7; MRNext 4; MRange 4 8; MRange 6 7; MRRange 8 4; MRRange 7 6; MValidate; MSize; MIsEmpty;
   MTryInsertW 1 1 9; MRemove 7; MNew 8 8 88 0 0 0 true; MInsertEntry 8 8 0; MInsertEntry 9 7 0; MRemoveEntry 3; MRemoveEntry 77; MSize; MClear true; MIsEmpty;
   MGet 5; MAssign 4 0; MSize].
Definition lent : list (map_op nat nat) :=
  [MNew 2 5 50 0 0 0 false; MNew 3 3 30 7 7 7 true; MInsert 2 3 10; MInsert 3 2 11; MTryInsert 2 0; MTryInsertW 1 1 0; MTryInsertW 1 1 12;
   MAssignW 5 51 13; MAssignW 8 80 14; MOrInsertW 8 8 0 15; MOrInsertW 9 9 90 16; MInsertEntryW 3 3 33 17; MInsertEntryW 4 4 44 17;
   MBegin; MRange 2 4; MContains 7; MNew 5 9 0 0 0 0 true; MRemove 5; MRemoveEntry 8; MAssign 5 19; MRemoveEntry 1; MSize; MValidate;
   MClear true; MSize].

Example C30_case_own :
  (exists rs A, calls Nat.compare (kept false) start own rs A) /\
  match om_run Nat.compare false om_init own with
  | Ok (_, rs) => drop 6 rs =
    [REnt false false 0; REnt false false 3; REnt false false 4; RBool true; RBool false; RPtr 4; RPtr 0;
     REnt true false 6; RPtr 2; REnt true false 2; REnt true false 4; REnt false false 0; RPtr 4; RPtr 0; RPtr 7; RPtr 3;
     RPtr 3; RPtr 7; RPtr 2; RPtr 0; RPtr 2; RRange 2 7; RRange 4 4; RRange 4 3; RRange 2 2; RBool true; RNum 4; RBool false;
     REnt false true 0; REnt true false 7; RPtr 8; RPtr 4; RPtr 7; REnt true false 3; REnt false false 0; RNum 3;
     RDestroyed OK [(7, (9, 90)); (4, (8, 88)); (2, (5, 55))]; RBool true; RPtr 0; REnt false false 4; RNum 1]
  | _ => False
  end.
Proof. split; [|by vm_compute]. eexists _, _. unfold own. history_tac. Qed.

Example C30_case_lent :
  (exists rs A, calls Nat.compare (kept true) start lent rs A) /\
  match om_run Nat.compare true om_init lent with
  | Ok (_, rs) => drop 2 rs =
    [REnt false false 0; REnt false false 0; REnt true false 10; REnt false true 0; REnt false true 12;
     REnt true false 10; REnt false true 14; RPtr 14; RPtr 16; RPtr 11; RPtr 17; RPtr 12; RRange 11 10; RBool false; RPtr 5;
     REnt true false 5; REnt true false 0; REnt false false 19; REnt true false 0; RNum 4; RBool true;
     RDestroyed OK [(10, (5, 51)); (17, (4, 44)); (11, (3, 33)); (19, (9, 90))]; RNum 0]
  | _ => False
  end.
Proof. split; [|by vm_compute]. eexists _, _. unfold lent. history_tac. Qed.

Example C31_case :
  (exists rs A, calls Nat.compare (kept true) start (firstn 13 lent) rs A) /\
  match om_run Nat.compare true om_init (firstn 13 lent) with
  | Ok (s, _) =>
    om_iter s true = Ok [(12, (1, 1)); (11, (3, 33)); (17, (4, 44)); (10, (5, 51)); (14, (8, 80)); (16, (9, 90))] /\
    match om_range Nat.compare s true 2 7, om_range Nat.compare s false 7 2 with
    | Ok (_, r), Ok (_, r') => r = (11, 14) /\ r' = (10, 12)
    | _, _ => False
    end
  | _ => False
  end.
Proof. split; [|by vm_compute]. eexists _, _. unfold lent. cbn [firstn]. history_tac. Qed.

Example C44_om_case :
  match om_run Nat.compare true om_init (firstn 13 lent) with
  | Ok (s, _) =>
    match om_clear Nat.compare true s true with
    | Ok (s', l) => om_size s' = Ok 0%Z /\ length l = 6 /\ map (fun p => dat s' !! fst p) l = replicate 6 None
    | _ => False
    end
  | _ => False
  end.
Proof. by vm_compute. Qed.

Print Assumptions C30_macro_status_refuted.
Print Assumptions C30_contains_empty_refuted.
Print Assumptions C30_history_partial.
Print Assumptions C30_present_or_absent.
Print Assumptions C31_walk.
Print Assumptions C31_range.
Print Assumptions C31_rrange.
Print Assumptions C44_om_clear.
