(** Properties of the realtime ordered map (WAVL tree). *)
From stdpp Require Import base numbers option gmap fin_maps list.
From Coq Require Import Sorting.Sorted.
From Verif Require Import Common LinkHeap OrderSpec MapOps MapSpec TreeModel TreeProofs WavlModel MapProofs MapCases RomModel RomProofs RomCalls.

(** The documented contract, and the one the code keeps. *)
Definition documented (alloc : bool) : contract := Contract alloc false true.
Definition kept (alloc : bool) : contract := Contract alloc true true.

(** C33. False in one respect. The lazy macros report an insert error although
    they inserted. *)
Theorem C33_macro_status_refuted :
  exists ops rs A s rs',
    calls Nat.compare (documented true) (start (K:=nat) (V:=nat)) ops rs A /\
    rom_run Nat.compare true rom_init ops = Ok (s, rs') /\
    rs = [REnt false false 10; REnt false false 20] /\ rs' = [REnt false true 10; REnt false true 20].
Proof.
  exists [MTryInsertW 5 1 10; MAssignW 6 2 20]. eexists _, _, _, _.
  split; [repeat (eapply calls_cons; [call_tac|]); apply calls_nil|].
  split; [by vm_compute|]. done.
Qed.

(** With this respect excepted every history of permitted calls gives the answers
    of a finite map, and ends in a map that shows exactly its elements. Missing: the
    status of the lazy macros. *)
Theorem C33_history_partial :
  forall (K V : Type) (cmp : K -> K -> comparison), total_preorder cmp ->
  forall (alloc : bool) (ops : list (map_op K V)) rs A,
  calls cmp (kept alloc) start ops rs A ->
  exists s rs', rom_run cmp alloc rom_init ops = Ok (s, rs') /\ Forall2 agree rs rs' /\
    shown A (rom_size s) (rom_iter s true) (rom_iter s false) (rom_validate cmp s).
Proof. exact @history. Qed.

(** The specification says something for every key. *)
Theorem C33_present_or_absent :
  forall (K V : Type) (cmp : K -> K -> comparison), total_preorder cmp ->
  forall (alloc : bool) (ops : list (map_op K V)) rs A k,
  calls cmp (kept alloc) start ops rs A ->
  (exists l1 x l2, present cmp A k l1 x l2) \/ (exists l1 l2, absent cmp A k l1 l2).
Proof. exact @history_covers. Qed.

(** C34. After every permitted history that leaves n elements, a node m links below
    the root satisfies m + 1 <= 2 log2 (n + 1). *)
Theorem C34_depth :
  forall (K V : Type) (cmp : K -> K -> comparison), total_preorder cmp ->
  forall (alloc : bool) (ops : list (map_op K V)) rs A,
  calls cmp (kept alloc) start ops rs A ->
  exists s rs', rom_run cmp alloc rom_init ops = Ok (s, rs') /\
    forall m x, below (tr s) m x -> 2 ^ S m <= S (length (elems A)) * S (length (elems A)).
Proof. exact @history_depth. Qed.

(** A search makes at most [f] comparisons as soon as 2 log2 (n + 1) < f + 1: the
    loop of the search, stopped before comparison f + 1, has already answered. *)
Theorem C34_search :
  forall (K V : Type) (cmp : K -> K -> comparison), total_preorder cmp ->
  forall (alloc : bool) (ops : list (map_op K V)) rs A k f,
  calls cmp (kept alloc) start ops rs A ->
  S (length (elems A)) * S (length (elems A)) < 2 ^ S f ->
  exists s rs', rom_run cmp alloc rom_init ops = Ok (s, rs') /\
    find_loop nil cmp (S f) (dat s) (wl (tr s)) k nil (wroot (tr s)) None = find cmp s k /\
    exists p, find cmp s k = Ok p.
Proof. exact @history_search. Qed.

(** The loops of searches, insertions and removals: [find], [insert] and
    [remove_fixup] of the model give every loop [budget n] iterations in a map of n
    elements, and no loop ever needs more. *)
Theorem C34_loops :
  forall (K V : Type) (cmp : K -> K -> comparison), total_preorder cmp ->
  forall (alloc : bool) (ops : list (map_op K V)) rs A,
  calls cmp (kept alloc) start ops rs A ->
  rom_run cmp alloc rom_init ops <> Fuel.
Proof.
  intros K V cmp Hcmp alloc ops rs A Hc. destruct (history cmp Hcmp alloc ops rs A Hc) as (s & rs' & -> & _). done.
Qed.

Theorem C34_budget :
  forall n, budget (Z.of_nat n) <= 2 * Nat.log2 (S n) + 2.
Proof.
  intros n. unfold budget. rewrite Nat2Z.id. pose proof (Nat.log2_mul_above (S n) (S n)). lia.
Qed.

(** C35. After every permitted history the walk forwards is in ascending key
    order, the walk backwards is its reverse, and a range delimits exactly the
    elements between its bounds. *)
Theorem C35_walk :
  forall (K V : Type) (cmp : K -> K -> comparison), total_preorder cmp ->
  forall (alloc : bool) (ops : list (map_op K V)) rs A,
  calls cmp (kept alloc) start ops rs A ->
  exists s rs' ps, rom_run cmp alloc rom_init ops = Ok (s, rs') /\
    rom_iter s true = Ok ps /\ rom_iter s false = Ok (rev ps) /\
    map fst ps = elems A /\ Forall (fun p => vals A !! fst p = Some (snd p)) ps /\
    StronglySorted (fun p q => cmp (fst (snd p)) (fst (snd q)) = Lt) ps.
Proof. exact @history_walk. Qed.

Theorem C35_range :
  forall (K V : Type) (cmp : K -> K -> comparison), total_preorder cmp ->
  forall (alloc : bool) (ops : list (map_op K V)) rs A a b,
  calls cmp (kept alloc) start ops rs A -> cmp a b <> Gt ->
  exists s rs' l1 l2 l3, rom_run cmp alloc rom_init ops = Ok (s, rs') /\
    elems A = l1 ++ l2 ++ l3 /\ rom_range cmp s true a b = Ok (hd 0 (l2 ++ l3), hd 0 l3) /\
    Forall (keyed cmp A Gt a) l1 /\ Forall (inside cmp A a b) l2 /\ Forall (keyed cmp A Lt b) l3.
Proof. exact @history_range. Qed.

Theorem C35_rrange :
  forall (K V : Type) (cmp : K -> K -> comparison), total_preorder cmp ->
  forall (alloc : bool) (ops : list (map_op K V)) rs A a b,
  calls cmp (kept alloc) start ops rs A -> cmp b a <> Gt ->
  exists s rs' l1 l2 l3, rom_run cmp alloc rom_init ops = Ok (s, rs') /\
    rev (elems A) = l1 ++ l2 ++ l3 /\ rom_range cmp s false a b = Ok (hd 0 (l2 ++ l3), hd 0 l3) /\
    Forall (keyed cmp A Lt a) l1 /\ Forall (inside cmp A b a) l2 /\ Forall (keyed cmp A Gt b) l3.
Proof. exact @history_rrange. Qed.

(** C44. Clear hands every element to the destructor exactly once, frees it if
    there is an allocator, and leaves an empty map that can be used again: the
    history theorem covers what follows. *)
Theorem C44_rom_clear :
  forall (K V : Type) (cmp : K -> K -> comparison), total_preorder cmp ->
  forall (alloc fn : bool) (ops : list (map_op K V)) rs A,
  calls cmp (kept alloc) start ops rs A ->
  exists s rs' ps s' l, rom_run cmp alloc rom_init ops = Ok (s, rs') /\ rom_iter s true = Ok ps /\
    rom_clear alloc s fn = Ok (s', OK, l) /\ l ≡ₚ (if fn then ps else []) /\
    rom_size s' = Ok 0%Z /\ rom_is_empty s' = true /\ rom_iter s' true = Ok [] /\ rom_validate cmp s' = Ok true /\
    (forall x, x ∈ map fst ps -> dat s' !! x = if alloc then None else dat s !! x) /\
    (forall x, x ∉ map fst ps -> dat s' !! x = dat s !! x).
Proof. exact @history_clear. Qed.

Definition own : list (map_op nat nat) :=
  [MNew 2 5 50 0 0 0 false; MNew 3 3 30 7 7 7 true; MNew 4 8 80 0 0 0 false; MNew 5 5 55 1 2 3 false;
   MNew 6 0 0 0 0 0 false; MNew 7 9 90 0 0 0 false;
   MInsert 2 6 0; MTryInsert 3 0; MAssign 4 0; MContains 3; MContains 4; MGet 8; MGet 7; MInsert 5 6 0; MGet 5; MTryInsert 5 0;
   MEntry 8; MEntry 2; MAndModify 8 S; MAndModify 1 S; MOrInsert 9 7 0; MOrInsert 3 6 0;
   MBegin; MRBegin; MNext 3; MNext 7; MRNext 4; MRange 4 8; MRange 6 7; MRRange 8 4; MRRange 7 6; MValidate; MSize; MIsEmpty;
   MTryInsertW 1 1 9; MRemove 7; MNew 8 8 88 0 0 0 true; MInsertEntry 8 8 0; MInsertEntry 9 7 0; MRemoveEntry 3; MRemoveEntry 77; MSize; MClear true; MIsEmpty;
   MGet 5; MAssign 4 0; MSize].
Definition lent : list (map_op nat nat) :=
  [MNew 2 5 50 0 0 0 false; MNew 3 3 30 7 7 7 true; MInsert 2 3 10; MInsert 3 2 11; MTryInsert 2 0; MTryInsertW 1 1 0; MTryInsertW 1 1 12;
   MAssignW 5 51 13; MAssignW 8 80 14; MOrInsertW 8 8 0 15; MOrInsertW 9 9 90 16; MInsertEntryW 3 3 33 17; MInsertEntryW 4 4 44 17;
   MBegin; MRange 2 4; MContains 7; MNew 5 9 0 0 0 0 true; MRemove 5; MRemoveEntry 8; MAssign 5 19; MRemoveEntry 1; MSize; MValidate;
   MClear true; MSize].

Example C33_case_own :
  (exists rs A, calls Nat.compare (kept false) start own rs A) /\
  match rom_run Nat.compare false rom_init own with
  | Ok (_, rs) => drop 6 rs =
    [REnt false false 0; REnt false false 3; REnt false false 4; RBool true; RBool false; RPtr 4; RPtr 0;
     REnt true false 6; RPtr 2; REnt true false 2; REnt true false 4; REnt false false 0; RPtr 4; RPtr 0; RPtr 7; RPtr 3;
     RPtr 3; RPtr 7; RPtr 2; RPtr 0; RPtr 2; RRange 2 7; RRange 4 4; RRange 4 3; RRange 2 2; RBool true; RNum 4; RBool false;
     REnt false true 0; REnt true false 7; RPtr 8; RPtr 4; RPtr 7; REnt true false 3; REnt false false 0; RNum 3;
     RDestroyed OK [(4, (8, 88)); (7, (9, 90)); (2, (5, 55))]; RBool true; RPtr 0; REnt false false 4; RNum 1]
  | _ => False
  end.
Proof. split; [|by vm_compute]. eexists _, _. unfold own. history_tac. Qed.

Example C33_case_lent :
  (exists rs A, calls Nat.compare (kept true) start lent rs A) /\
  match rom_run Nat.compare true rom_init lent with
  | Ok (_, rs) => drop 2 rs =
    [REnt false false 0; REnt false false 0; REnt true false 10; REnt false true 0; REnt false true 12;
     REnt true false 10; REnt false true 14; RPtr 14; RPtr 16; RPtr 11; RPtr 17; RPtr 12; RRange 11 10; RBool false; RPtr 5;
     REnt true false 5; REnt true false 0; REnt false false 19; REnt true false 0; RNum 4; RBool true;
     RDestroyed OK [(10, (5, 51)); (17, (4, 44)); (19, (9, 90)); (11, (3, 33))]; RNum 0]
  | _ => False
  end.
Proof. split; [|by vm_compute]. eexists _, _. unfold lent. history_tac. Qed.

(** Seven keys in ascending order: the tree has its three levels and no fourth. *)
Definition stairs : list (map_op nat nat) :=
  [MOrInsertW 1 1 1 11; MOrInsertW 2 2 2 12; MOrInsertW 3 3 3 13; MOrInsertW 4 4 4 14; MOrInsertW 5 5 5 15; MOrInsertW 6 6 6 16;
   MOrInsertW 7 7 7 17].
Example C34_case :
  (exists rs A, calls Nat.compare (kept true) start stairs rs A) /\
  match rom_run Nat.compare true rom_init stairs with
  | Ok (s, _) =>
    wroot (tr s) = 14 /\ map (rd (lf (wl (tr s)))) [11; 12; 13; 14; 15; 16; 17] = map Ok [1; 11; 1; 12; 1; 15; 1] /\
    map (rd (rt (wl (tr s)))) [11; 12; 13; 14; 15; 16; 17] = map Ok [1; 13; 1; 16; 1; 17; 1] /\
    budget 7 = 7 /\ find_loop nil Nat.compare 4 (dat s) (wl (tr s)) 8 nil (wroot (tr s)) None = find Nat.compare s 8 /\
    find Nat.compare s 8 = Ok (Some Gt, 17)
  | _ => False
  end.
Proof. split; [|by vm_compute]. eexists _, _. unfold stairs. history_tac. Qed.

Example C35_case :
  (exists rs A, calls Nat.compare (kept true) start (firstn 13 lent) rs A) /\
  match rom_run Nat.compare true rom_init (firstn 13 lent) with
  | Ok (s, _) =>
    rom_iter s true = Ok [(12, (1, 1)); (11, (3, 33)); (17, (4, 44)); (10, (5, 51)); (14, (8, 80)); (16, (9, 90))] /\
    rom_range Nat.compare s true 2 7 = Ok (11, 14) /\ rom_range Nat.compare s false 7 2 = Ok (10, 12)
  | _ => False
  end.
Proof. split; [|by vm_compute]. eexists _, _. unfold lent. cbn [firstn]. history_tac. Qed.

Example C44_rom_case :
  match rom_run Nat.compare true rom_init (firstn 13 lent) with
  | Ok (s, _) =>
    match rom_clear true s true with
    | Ok (s', OK, l) => rom_size s' = Ok 0%Z /\ length l = 6 /\ map (fun p => dat s' !! fst p) l = replicate 6 None
    | _ => False
    end
  | _ => False
  end.
Proof. by vm_compute. Qed.

Print Assumptions C33_macro_status_refuted.
Print Assumptions C33_history_partial.
Print Assumptions C33_present_or_absent.
Print Assumptions C34_depth.
Print Assumptions C34_search.
Print Assumptions C34_loops.
Print Assumptions C34_budget.
Print Assumptions C35_walk.
Print Assumptions C35_range.
Print Assumptions C35_rrange.
Print Assumptions C44_rom_clear.
