(** Properties of the ordered multimap (splay tree with rings of duplicates): C37,
    C38 and its part of C44. *)
From stdpp Require Import base numbers option gmap fin_maps list.
From Coq Require Import Sorting.Sorted.
From Verif Require Import Common LinkHeap OrderSpec OmModel OmmOps OmmModel OmmSpec OmmHistories OmmCases.

(** [documented alloc] and [kept alloc off] are in OmmSpec: the contract of the header,
    and the one the code keeps when the map's node is at offset [off] of the user's
    struct. *)

(** C37. False in three respects. With an allocator try_insert, insert_or_assign,
    or_insert and insert_entry are documented to copy the user's struct into
    allocated memory; they link the struct itself, which is later freed. *)
Theorem C37_not_copied_refuted :
  Forall (fun o =>
    exists rs A,
      calls Nat.compare (documented true) (start (K:=nat) (V:=nat)) [ONew 3 5 50 0 0 0 false; o; OPopMax] rs A /\
      omm_run Nat.compare true 0 om_init [ONew 3 5 50 0 0 0 false; o; OPopMax] = UB)
    [OTryInsert 3 20; OAssign 3 20; OOrInsert 5 3 20; OInsertEntry 5 3 20].
Proof. repeat constructor; (eexists _, _; split; [apply execs_sound; by vm_compute|by vm_compute]). Qed.

(** try_insert_w and insert_or_assign_w report an insert error although they
    inserted. *)
Theorem C37_macro_status_refuted :
  exists ops rs A s rs',
    calls Nat.compare (documented true) (start (K:=nat) (V:=nat)) ops rs A /\
    omm_run Nat.compare true 0 om_init ops = Ok (s, rs') /\
    rs = [OEnt false false 10; OEnt false false 20] /\ rs' = [OEnt false true 10; OEnt false true 20].
Proof.
  exists [OTryInsertW 5 1 10; OAssignW 6 2 20]. eexists _, _, _, _.
  split; [apply execs_sound; by vm_compute|]. split; [by vm_compute|]. done.
Qed.

(** contains compares the key with the sentinel's memory when asked of an empty
    map. *)
Theorem C37_contains_empty_refuted :
  exists ops rs A,
    calls Nat.compare (documented false) (start (K:=nat) (V:=nat)) ops rs A /\
    omm_run Nat.compare false 0 om_init ops = UB.
Proof. exists [OContains 5]. eexists _, _. split; [apply execs_sound; by vm_compute|]. by vm_compute. Qed.

(** With these respects, and those of C38, excepted every history of permitted calls
    gives the answers of a queue searched by key, and ends in a map that shows
    exactly its elements, equal keys in order of arrival. Missing: the excepted
    respects. *)
Theorem C37_history_partial :
  forall (K V : Type) (cmp : K -> K -> comparison), total_preorder cmp ->
  forall (alloc : bool) (off : nat) (ops : list (mm_op K V)) rs A,
  calls cmp (kept alloc off) start ops rs A ->
  exists s, omm_run cmp alloc off om_init ops = Ok (s, rs) /\
    shown cmp A (omm_size s) (omm_iter s false) (omm_iter s true) (omm_validate cmp s).
Proof. exact @shows_Ok. Qed.

(** The specification says something for every key. *)
Theorem C37_present_or_absent :
  forall (K V : Type) (cmp : K -> K -> comparison), total_preorder cmp ->
  forall (alloc : bool) (off : nat) (ops : list (mm_op K V)) rs A k,
  calls cmp (kept alloc off) start ops rs A ->
  absent cmp A k \/ exists l1 x l2, present cmp A k l1 x l2.
Proof. exact @history_covers. Qed.

(** Walks, ascending ([d] = true) or descending, show each element once with its
    data; keys are in order, and the elements with any one key are those of the
    queue in order of arrival. *)
Theorem C37_walk :
  forall (K V : Type) (cmp : K -> K -> comparison), total_preorder cmp ->
  forall (alloc : bool) (off : nat) (ops : list (mm_op K V)) rs A (d : bool),
  calls cmp (kept alloc off) start ops rs A ->
  exists s ps, omm_run cmp alloc off om_init ops = Ok (s, rs) /\ omm_iter s d = Ok ps /\
    map fst ps ≡ₚ queue A /\ Forall (fun p => vals A !! fst p = Some (snd p)) ps /\
    StronglySorted (fun p q => cmp (fst (snd p)) (fst (snd q)) <> (if d then Gt else Lt)) ps /\
    forall k, filter (keyed cmp A Eq k) (map fst ps) = filter (keyed cmp A Eq k) (queue A).
Proof. exact @history_walk. Qed.

(** A range delimits exactly the elements between its bounds, and leaves the walk
    as it was. *)
Theorem C37_range :
  forall (K V : Type) (cmp : K -> K -> comparison), total_preorder cmp ->
  forall (alloc : bool) (off : nat) (ops : list (mm_op K V)) rs A (d : bool) a b,
  calls cmp (kept alloc off) start ops rs A -> (if d then cmp a b else cmp b a) <> Gt ->
  exists s ps s' l1 l2 l3, omm_run cmp alloc off om_init ops = Ok (s, rs) /\
    omm_iter s d = Ok ps /\ map fst ps = l1 ++ l2 ++ l3 /\
    omm_range cmp s d a b = Ok (s', (hd 0 (l2 ++ l3), hd 0 l3)) /\ omm_iter s' d = Ok ps /\
    Forall (keyed cmp A (if d then Gt else Lt) a) l1 /\
    Forall (if d then between cmp A a b else between cmp A b a) l2 /\
    Forall (keyed cmp A (if d then Lt else Gt) b) l3.
Proof. exact @history_range. Qed.

(** No loop runs out of the bound the model gives it. *)
Theorem C37_loops :
  forall (K V : Type) (cmp : K -> K -> comparison), total_preorder cmp ->
  forall (alloc : bool) (off : nat) (ops : list (mm_op K V)) rs A,
  calls cmp (kept alloc off) start ops rs A ->
  omm_run cmp alloc off om_init ops <> Fuel.
Proof.
  intros K V cmp Hcmp alloc off ops rs A Hc.
  destruct (shows_Ok cmp Hcmp alloc off ops rs A Hc) as (s & -> & _). done.
Qed.

(** C38. False in two respects. max and min of an empty map do not report absence
    but give the address of the map's sentinel, cast to the user's type. *)
Theorem C38_end_empty_refuted :
  exists ops rs A s rs',
    calls Nat.compare (documented false) (start (K:=nat) (V:=nat)) ops rs A /\
    omm_run Nat.compare false 0 om_init ops = Ok (s, rs') /\
    rs = [OPtr 0; OPtr 0] /\ rs' = [OPtr nil; OPtr nil].
Proof.
  exists [OMax; OMin]. eexists _, _, _, _.
  split; [apply execs_sound; by vm_compute|]. split; [by vm_compute|]. done.
Qed.

(** pop_min frees an address before the user's struct unless the map's node is its
    first field. *)
Theorem C38_pop_min_refuted :
  exists ops rs A,
    calls Nat.compare (documented true) (start (K:=nat) (V:=nat)) ops rs A /\
    omm_run Nat.compare true 8 om_init ops = UB.
Proof.
  exists [ONew 3 5 50 0 0 0 false; OInsert 3 20; OPopMin]. eexists _, _.
  split; [apply execs_sound; by vm_compute|]. by vm_compute.
Qed.

(** Otherwise looking at max and popping it until the map is empty gives the elements
    with non-increasing keys ([d] = true), and min with non-decreasing keys, each
    once with its data, in the order of the walk, equal keys in order of arrival.
    Missing: pop_min with an allocator if the offset is not zero. *)
Theorem C38_drain_partial :
  forall (K V : Type) (cmp : K -> K -> comparison), total_preorder cmp ->
  forall (alloc : bool) (off : nat) (ops : list (mm_op K V)) rs A (d : bool),
  calls cmp (kept alloc off) start ops rs A -> d = true \/ alloc = false \/ off = 0 ->
  exists s s' ps, omm_run cmp alloc off om_init ops = Ok (s, rs) /\
    omm_drain cmp alloc off s d = Ok (s', ps) /\ omm_iter s (negb d) = Ok ps /\
    map fst ps ≡ₚ queue A /\ Forall (fun p => vals A !! fst p = Some (snd p)) ps /\
    StronglySorted (fun p q => cmp (fst (snd p)) (fst (snd q)) <> (if d then Lt else Gt)) ps /\
    (forall k, filter (keyed cmp A Eq k) (map fst ps) = filter (keyed cmp A Eq k) (queue A)) /\
    omm_size s' = Ok 0%Z.
Proof. exact @history_drain. Qed.

(** Max and min are the oldest elements with the extreme key, where the walks begin.
    Missing: the empty map. *)
Theorem C38_end_partial :
  forall (K V : Type) (cmp : K -> K -> comparison), total_preorder cmp ->
  forall (alloc : bool) (off : nat) (ops : list (mm_op K V)) rs A (d : bool),
  calls cmp (kept alloc off) start ops rs A -> queue A <> [] ->
  exists s s' x l1 l2, omm_run cmp alloc off om_init ops = Ok (s, rs) /\
    omm_end s d = Ok (s', x) /\ extreme cmp A d l1 x l2 /\ omm_begin s (negb d) = Ok x.
Proof. exact @history_end. Qed.

(** C44. Clear hands every element to the destructor exactly once, least key first,
    frees it if there is an allocator, and leaves an empty map that can be used
    again: the history theorem covers what follows. *)
Theorem C44_omm_clear :
  forall (K V : Type) (cmp : K -> K -> comparison), total_preorder cmp ->
  forall (alloc : bool) (off : nat) (ops : list (mm_op K V)) rs A (fn : bool),
  calls cmp (kept alloc off) start ops rs A ->
  exists s ps s', omm_run cmp alloc off om_init ops = Ok (s, rs) /\ omm_iter s true = Ok ps /\
    omm_clear cmp alloc s fn = Ok (s', if fn then ps else []) /\
    omm_size s' = Ok 0%Z /\ omm_is_empty s' = true /\ omm_iter s' true = Ok [] /\ omm_validate cmp s' = Ok true /\
    (forall x, x ∈ map fst ps -> dat s' !! x = if alloc then None else dat s !! x) /\
    (forall x, x ∉ map fst ps -> dat s' !! x = dat s !! x) /\
    heap s' = (if alloc then heap s ∖ list_to_set (map fst ps) else heap s).
Proof. exact @history_clear. Qed.

(** ** Examples *)

(** Five elements with key 5, three with key 3. *)
Definition own : list (mm_op nat nat) :=
  [ONew 2 5 50 0 0 0 false; ONew 3 3 30 7 7 7 false; ONew 4 5 51 0 0 0 false; ONew 5 5 52 1 2 3 false;
   ONew 6 5 53 0 0 0 false; ONew 7 9 90 0 0 0 false; ONew 8 3 31 0 0 0 false; ONew 9 1 10 0 0 0 false;
   ONew 10 5 54 0 0 0 false; ONew 11 3 32 0 0 0 false;
   OInsert 2 0; OTryInsert 3 0; OInsert 4 0; OInsertEntry 5 5 0; OInsert 6 0; OAssign 7 0; OInsert 8 0; OOrInsert 1 9 0;
   OInsertEntry 0 10 0; OInsert 11 0].
Definition more : list (mm_op nat nat) :=
  [OContains 3; OContains 4; OGet 5; OGet 7; OTryInsert 4 0; OEntry 3; OEntry 8; OAndModify 5 S; OAndModify 8 S; OOrInsert 9 8 0;
   OBegin; ORBegin; ONext 7; ONext 2; ONext 10; ONext 11; ONext 9; ORNext 9; ORNext 11; ORNext 7; ORange 5 3; ORRange 3 5; ORRange 4 4;
   OMax; OMin; OPopMax; OMax; OPopMax; OMax; OExtract 5; OUpdate 6 (fun kv => (3, snd kv)); OUpdate 8 (fun kv => kv); ORNext 3; ORNext 11; ORNext 6;
   OSize; OValidate; ORemove 2; OGet 5; ORemoveEntry 3; ORemoveEntry 77; OPopMin; OIsEmpty; OSize; OValidate; OClear true; OPopMax; OPopMin;
   OExtract 3; OUpdate 3 (fun kv => kv); OGet 5; OAssign 4 0; OSize].
Definition lent : list (mm_op nat nat) :=
  [ONew 2 5 50 0 0 0 false; ONew 3 3 30 7 7 7 true; ONew 4 5 0 0 0 0 false; OInsert 2 10; OInsert 2 11; OInsert 2 0; OTryInsert 3 0;
   OTryInsertW 1 1 0; OTryInsertW 1 1 12; OTryInsertW 1 2 13; OAssignW 5 51 13; OAssignW 8 80 14; OOrInsertW 8 8 0 15; OOrInsertW 9 9 90 16;
   OInsertEntryW 3 3 33 17; OInsertEntryW 4 5 55 18; OInsert 2 19].

Example C37_case_own :
  (exists rs A, calls Nat.compare (kept false 8) start (own ++ more) rs A) /\
  match omm_run Nat.compare false 8 om_init (own ++ more) with
  | Ok (_, rs) => drop 10 rs =
    [OEnt false false 2; OEnt false false 3; OEnt true false 4; OPtr 5; OEnt true false 6; OEnt false false 7;
     OEnt true false 8; OPtr 9; OPtr 10; OEnt true false 11; OBool true; OBool false; OPtr 2; OPtr 0; OEnt true false 2;
     OEnt true false 3; OEnt false false 0; OPtr 2; OPtr 0; OPtr 7; OPtr 7; OPtr 9; OPtr 2; OPtr 4; OPtr 3; OPtr 9; OPtr 0;
     OPtr 3; OPtr 2; OPtr 0; OPair 2 9; OPair 3 7; OPair 2 2; OPtr 7; OPtr 9; OResult OK; OPtr 2; OResult OK; OPtr 4; OPtr 5;
     OBool true; OBool true; OPtr 11; OPtr 6; OPtr 8; ONum 7; OBool true; OEnt true false 4; OPtr 10; OEnt true false 3;
     OEnt false false 0; OResult OK; OBool false; ONum 4; OBool true;
     ODestroyed OK [(11, (3, 32)); (6, (3, 53)); (8, (3, 31)); (10, (5, 54))]; OResult INPUT_ERR; OResult INPUT_ERR; OPtr 0;
     OBool false; OPtr 0; OEnt false false 4; ONum 1]
  | _ => False
  end.
Proof. split; [apply permitted; by vm_compute|]. by vm_compute. Qed.

Example C37_case_lent :
  (exists rs A, calls Nat.compare (kept true 0) start
    (lent ++ [ORemove 4; OPopMax; OPopMin; ORemoveEntry 5; OSize; OValidate; OClear true; OSize]) rs A) /\
  match omm_run Nat.compare true 0 om_init
    (lent ++ [ORemove 4; OPopMax; OPopMin; ORemoveEntry 5; OSize; OValidate; OClear true; OSize]) with
  | Ok (_, rs) => drop 3 rs =
    [OEnt false false 10; OEnt true false 11; OEnt false true 0; OEnt false false 3; OEnt false true 0; OEnt false true 12;
     OEnt true false 12; OEnt true false 10; OEnt false true 14; OPtr 14; OPtr 16; OPtr 17; OPtr 18; OEnt true false 19;
     OEnt true false 4; OResult OK; OResult OK; OEnt true false 0; ONum 5; OBool true;
     ODestroyed OK [(3, (3, 30)); (17, (3, 33)); (18, (5, 55)); (19, (5, 50)); (14, (8, 80))]; ONum 0]
  | _ => False
  end.
Proof. split; [apply permitted; by vm_compute|]. by vm_compute. Qed.

Example C37_case_walk :
  (exists rs A, calls Nat.compare (kept false 8) start own rs A) /\
  match omm_run Nat.compare false 8 om_init own with
  | Ok (s, _) =>
    omm_iter s true = Ok [(9, (1, 10)); (3, (3, 30)); (8, (3, 31)); (11, (3, 32)); (2, (5, 50)); (4, (5, 51)); (5, (5, 52));
      (6, (5, 53)); (10, (5, 54)); (7, (9, 90))] /\
    omm_iter s false = Ok [(7, (9, 90)); (2, (5, 50)); (4, (5, 51)); (5, (5, 52)); (6, (5, 53)); (10, (5, 54)); (3, (3, 30));
      (8, (3, 31)); (11, (3, 32)); (9, (1, 10))] /\
    match omm_range Nat.compare s true 2 4, omm_range Nat.compare s false 7 3 with
    | Ok (_, r), Ok (_, r') => r = (3, 2) /\ r' = (2, 9)
    | _, _ => False
    end
  | _ => False
  end.
Proof. split; [apply permitted; by vm_compute|]. by vm_compute. Qed.

Example C38_case :
  match omm_run Nat.compare false 8 om_init own with
  | Ok (s, _) =>
    match omm_drain Nat.compare false 8 s true, omm_drain Nat.compare false 8 s false with
    | Ok (_, l), Ok (_, l') => map fst l = [7; 2; 4; 5; 6; 10; 3; 8; 11; 9] /\ map fst l' = [9; 3; 8; 11; 2; 4; 5; 6; 10; 7]
    | _, _ => False
    end
  | _ => False
  end.
Proof. by vm_compute. Qed.

Example C44_omm_case :
  (exists rs A, calls Nat.compare (kept true 8) start lent rs A) /\
  match omm_run Nat.compare true 8 om_init lent with
  | Ok (s, _) =>
    match omm_clear Nat.compare true s true with
    | Ok (s', l) => omm_size s' = Ok 0%Z /\ map fst l = [12; 3; 17; 10; 11; 18; 19; 14; 16] /\
        map (fun p => dat s' !! fst p) l = replicate 9 None /\ elements (heap s') = []
    | _ => False
    end
  | _ => False
  end.
Proof. split; [apply permitted; by vm_compute|]. by vm_compute. Qed.

Print Assumptions C37_not_copied_refuted.
Print Assumptions C37_macro_status_refuted.
Print Assumptions C37_contains_empty_refuted.
Print Assumptions C37_history_partial.
Print Assumptions C37_present_or_absent.
Print Assumptions C37_walk.
Print Assumptions C37_range.
Print Assumptions C37_loops.
Print Assumptions C38_end_empty_refuted.
Print Assumptions C38_pop_min_refuted.
Print Assumptions C38_drain_partial.
Print Assumptions C38_end_partial.
Print Assumptions C44_omm_clear.
