(** Properties of validate of the lists and queues: C47. *)
From Coq Require Import Sorted.
From stdpp Require Import base numbers option gmap fin_maps fin_sets list.
From Verif Require Import Common LinkHeap OrderSpec BufferModel.
From Verif Require SllModel SllSpec DllModel DllSpec FdeqModel FdeqSpec FpqModel FpqSpec FpqProofs PqModel PqSpec.
From Verif Require Import ListValid.
From Verif Require QueueValid PqValid.

(** C47. Links lead to NULL, to the sentinel of the list, or to elements that may
    belong to it ([pooled]), arbitrarily otherwise. Then validate of the singly linked
    list ends with an answer. *)
Theorem C47_sll_decides :
  forall (V : Type) (s : SllModel.smem V) (pool : nat -> nat) (l : nat),
  pooled (SllModel.nx s) (SllModel.dat s) (SllModel.sz s) pool -> is_Some (SllModel.sz s !! l) ->
  exists b, SllModel.sll_validate s l = Ok b.
Proof. exact @sll_validate_decides. Qed.

(** If it is true of all lists then they can be read and every later call is as
    specified. *)
Theorem C47_sll_usable :
  forall (V : Type) (s : SllModel.smem V) (pool : nat -> nat),
  pooled (SllModel.nx s) (SllModel.dat s) (SllModel.sz s) pool ->
  (forall l, is_Some (SllModel.sz s !! l) -> is_Some (SllModel.al s !! l)) ->
  (forall l, is_Some (SllModel.sz s !! l) -> SllModel.sll_validate s l = Ok true) ->
  exists A, SllSpec.vals A = SllModel.dat s /\
    (forall l, is_Some (SllModel.sz s !! l) <-> is_Some (SllSpec.lists A !! l)) /\ SllSpec.shows s A /\
    forall os rs A', SllSpec.calls (SllModel.al s) A os rs A' ->
      exists s', SllModel.sll_run s os = Ok (s', rs) /\ SllSpec.shows s' A'.
Proof. exact @sll_validate_usable. Qed.

(** One list at 1 and elements 10, 11, 12 with the given links. *)
Definition sll1 (n a b c : nat) (z : Z) : SllModel.smem nat :=
  SllModel.SMem {[1 := n; 10 := a; 11 := b; 12 := c]} {[10 := 100; 11 := 101; 12 := 102]} {[1 := z]} {[1 := false]}.

Lemma sll1_pooled n a b c z : Forall (fun x => x ∈ [0; 1; 10; 11; 12]) [n; a; b; c] ->
  pooled (SllModel.nx (sll1 n a b c z)) (SllModel.dat (sll1 n a b c z)) (SllModel.sz (sll1 n a b c z)) (fun _ => 1).
Proof.
  intros H. assert (Hl : forall x, x ∈ [0; 1; 10; 11; 12] ->
    leads (SllModel.dat (sll1 n a b c z)) (fun _ => 1) 1 x).
  { intros x Hx. unfold leads. repeat (apply elem_of_cons in Hx as [->|Hx]); auto; try (by apply elem_of_nil in Hx).
    all: right; right; split; [by eexists|done]. }
  repeat (apply Forall_cons in H as [?%Hl H]). split.
  - intros x [v Hv]. cbn in Hv. repeat (apply lookup_insert_Some in Hv as [[<- _]|[_ Hv]]; [eauto|]).
    apply lookup_singleton_Some in Hv as [<- _]. eauto.
  - intros l [v Hv]. cbn in Hv. apply lookup_singleton_Some in Hv as [<- _]. split; [done|]. split; [done|]. eauto.
Qed.

(** Intact, a cycle, a NULL, a wrong size, an element that leads to itself, a short cut. *)
Example C47_sll_case :
  (forall n a b c z, Forall (fun x => x ∈ [0; 1; 10; 11; 12]) [n; a; b; c] ->
    exists v, SllModel.sll_validate (sll1 n a b c z) 1 = Ok v) /\
  SllModel.sll_validate (sll1 12 11 1 10 3) 1 = Ok true /\
  SllModel.sll_iter (sll1 12 11 1 10 3) 1 = Ok [(12, 102); (10, 100); (11, 101)] /\
  SllModel.sll_validate (sll1 12 11 12 10 3) 1 = Ok false /\
  SllModel.sll_validate (sll1 12 11 0 10 3) 1 = Ok false /\
  SllModel.sll_validate (sll1 12 11 1 10 4) 1 = Ok false /\
  SllModel.sll_validate (sll1 12 11 11 10 3) 1 = Ok false /\
  SllModel.sll_validate (sll1 12 1 1 10 3) 1 = Ok false.
Proof.
  split; [|by vm_compute]. intros n a b c z H. eapply C47_sll_decides; [by apply sll1_pooled|by eexists].
Qed.

(** The hypothesis on links is needed: lists 1 and 2 go through each other's sentinel
    and validate accepts both, but iteration reads the sentinel as an element. *)
Theorem C47_sll_crossed_refuted :
  exists s : SllModel.smem nat, SllModel.sll_validate s 1 = Ok true /\ SllModel.sll_validate s 2 = Ok true /\
    SllModel.sll_iter s 1 = UB.
Proof.
  exists (SllModel.SMem {[1 := 2; 2 := 10; 10 := 1]} {[10 := 100]} {[1 := 2%Z; 2 := 2%Z]} {[1 := false; 2 := false]}).
  by vm_compute.
Qed.

(** The doubly linked list: an answer, and forwards a list that validates is in order. *)
Theorem C47_dll_decides :
  forall (V : Type) (s : DllModel.dmem V) (pool : nat -> nat) (l : nat),
  pooled (DllModel.nx s) (DllModel.dat s) (DllModel.sz s) pool -> backed s -> is_Some (DllModel.sz s !! l) ->
  exists b, DllModel.dll_validate s l = Ok b.
Proof. exact @dll_validate_decides. Qed.

Theorem C47_dll_forward :
  forall (V : Type) (s : DllModel.dmem V) (pool : nat -> nat) (l : nat) (n : Z),
  pooled (DllModel.nx s) (DllModel.dat s) (DllModel.sz s) pool -> backed s -> DllModel.sz s !! l = Some n ->
  DllModel.dll_validate s l = Ok true ->
  exists ps, DllModel.dll_iter s l = Ok ps /\ DllModel.dll_size s l = Ok (Z.of_nat (length ps)) /\
    NoDup (map fst ps) /\ Forall (fun p => DllModel.dat s !! fst p = Some (snd p)) ps.
Proof. exact @dll_validate_forward. Qed.

(** Every later call is as specified. Missing: the back links, at which validate does
    not look ([mirrored] puts them in order). *)
Theorem C47_dll_usable_partial :
  forall (V : Type) (nd : bool) (s : DllModel.dmem V) (pool : nat -> nat),
  pooled (DllModel.nx s) (DllModel.dat s) (DllModel.sz s) pool -> backed s -> mirrored s ->
  (forall l, is_Some (DllModel.sz s !! l) -> is_Some (DllModel.al s !! l)) ->
  (forall l, is_Some (DllModel.sz s !! l) -> DllModel.dll_validate s l = Ok true) ->
  exists A, DllSpec.vals A = DllModel.dat s /\ DllSpec.worn A = ∅ /\
    (forall l, is_Some (DllModel.sz s !! l) <-> is_Some (DllSpec.lists A !! l)) /\ DllSpec.shows s A /\
    forall os rs A', DllSpec.calls nd (DllModel.al s) A os rs A' ->
      exists s', DllModel.dll_run nd s os = Ok (s', rs) /\ DllSpec.shows s' A'.
Proof. exact @dll_validate_usable. Qed.

(** One list at 1 with elements 10, 11, 12 in order of address, and the given back
    links. *)
Definition dll1 (n a b c : nat) (z : Z) : DllModel.dmem nat :=
  DllModel.DMem {[1 := 10; 10 := 11; 11 := 12; 12 := 1]} {[1 := n; 10 := a; 11 := b; 12 := c]}
    {[10 := 100; 11 := 101; 12 := 102]} {[1 := z]} {[1 := false]}.

Lemma dll1_pooled n a b c z :
  pooled (DllModel.nx (dll1 n a b c z)) (DllModel.dat (dll1 n a b c z)) (DllModel.sz (dll1 n a b c z)) (fun _ => 1) /\
  backed (dll1 n a b c z).
Proof.
  assert (Hl : forall x, x ∈ [1; 10; 11; 12] -> leads (DllModel.dat (dll1 n a b c z)) (fun _ => 1) 1 x).
  { intros x Hx. unfold leads. repeat (apply elem_of_cons in Hx as [->|Hx]); auto; try (by apply elem_of_nil in Hx).
    all: right; right; split; [by eexists|done]. }
  split; [split|].
  - intros x [v Hv]. cbn in Hv. repeat (apply lookup_insert_Some in Hv as [[<- _]|[_ Hv]]);
      [| |apply lookup_singleton_Some in Hv as [<- _]]; (split; [done|]); (eexists; split; [reflexivity|]); apply Hl; set_solver.
  - intros l [v Hv]. cbn in Hv. apply lookup_singleton_Some in Hv as [<- _]. split; [done|]. split; [done|].
    eexists. split; [reflexivity|]. apply Hl. set_solver.
  - intros x [v Hv]. cbn in Hv. repeat (apply lookup_insert_Some in Hv as [[<- _]|[_ Hv]]); [by eexists..|].
    apply lookup_singleton_Some in Hv as [<- _]. by eexists.
Qed.

Lemma dll1_mirrored : mirrored (dll1 12 1 10 11 3).
Proof.
  intros l ps x y [v Hv] Hi Hx Hy. cbn in Hv. apply lookup_singleton_Some in Hv as [<- _].
  vm_compute in Hi. injection Hi as <-. cbn in Hx.
  repeat (apply elem_of_cons in Hx as [->|Hx]); [vm_compute in Hy; by injection Hy as <-..|].
  by apply elem_of_nil in Hx.
Qed.

Example C47_dll_case :
  DllModel.dll_validate (dll1 12 1 10 11 3) 1 = Ok true /\
  DllModel.dll_riter (dll1 12 1 10 11 3) 1 = Ok [(12, 102); (11, 101); (10, 100)] /\
  DllModel.dll_validate (dll1 12 1 10 11 2) 1 = Ok false /\
  DllModel.dll_validate (dll1 12 1 0 11 3) 1 = Ok false /\
  DllModel.dll_validate (dll1 12 1 11 11 3) 1 = Ok false.
Proof. by vm_compute. Qed.

(** Back links that skip an element, and one that leads nowhere, pass. *)
Theorem C47_dll_back_refuted :
  exists s : DllModel.dmem nat, pooled (DllModel.nx s) (DllModel.dat s) (DllModel.sz s) (fun _ => 1) /\ backed s /\
    DllModel.dll_validate s 1 = Ok true /\ DllModel.dll_size s 1 = Ok 3%Z /\
    DllModel.dll_riter s 1 = Ok [(12, 102); (10, 100)] /\
    exists s' : DllModel.dmem nat, pooled (DllModel.nx s') (DllModel.dat s') (DllModel.sz s') (fun _ => 1) /\ backed s' /\
      DllModel.dll_validate s' 1 = Ok true /\ DllModel.dll_riter s' 1 = UB.
Proof.
  exists (dll1 12 1 10 10 3). split; [apply dll1_pooled|]. split; [apply dll1_pooled|].
  do 3 (split; [by vm_compute|]).
  exists (dll1 12 1 77 11 3). split; [apply dll1_pooled|]. split; [apply dll1_pooled|]. by vm_compute.
Qed.

(** The double ended queue: validate always ends, and this is what it decides. *)
Theorem C47_fdeq_decides :
  forall (A : Type) (d : FdeqModel.fdeq A),
  FdeqModel.fdeq_validate d =
    Ok (bool_decide (FdeqModel.d_sz d = 0 \/
          FdeqModel.d_front d < FdeqModel.d_cap d /\ FdeqModel.d_sz d <= FdeqModel.d_cap d)).
Proof. exact @QueueValid.fdeq_validate_decides. Qed.

(** If it is true of a deque with written elements, at least one, then every later
    call is as specified. *)
Theorem C47_fdeq_usable_partial :
  forall (A : Type) (d : FdeqModel.fdeq A) (l : list A), FdeqModel.fdeq_validate d = Ok true ->
  FdeqModel.fdeq_contents d = Some <$> l -> l <> [] ->
  forall os q rs, FdeqSpec.deq_run (FdeqSpec.Deq l (FdeqModel.d_cap d) (FdeqModel.d_alloc d)) os = Some (q, rs) ->
  exists d', FdeqModel.fdeq_run d os = Ok (d', rs) /\ FdeqModel.fdeq_contents d' = Some <$> FdeqSpec.q_list q /\
    FdeqModel.d_sz d' = length (FdeqSpec.q_list q) /\ FdeqModel.fdeq_validate d' = Ok true.
Proof. exact @QueueValid.fdeq_validate_usable. Qed.

Definition ring3 (z f : nat) : FdeqModel.fdeq nat := FdeqModel.Fdeq (Buf [Some 1; Some 2; Some 3] z false) f.

Example C47_fdeq_case :
  FdeqModel.fdeq_validate (ring3 2 2) = Ok true /\ FdeqModel.fdeq_contents (ring3 2 2) = [Some 3; Some 1] /\
  FdeqModel.fdeq_validate (ring3 2 3) = Ok false /\ FdeqModel.fdeq_validate (ring3 4 2) = Ok false /\
  FdeqModel.fdeq_validate (ring3 3 2) = Ok true.
Proof. by vm_compute. Qed.

(** Of an empty deque it is true wherever the front is: after one push there is an
    element but no front, and validate is false. *)
Theorem C47_fdeq_empty_refuted :
  exists d : FdeqModel.fdeq nat, FdeqModel.fdeq_validate d = Ok true /\ FdeqModel.d_sz d = 0 /\
    exists d', FdeqModel.fdeq_run d
        [FdeqModel.DPushBack 7 true; FdeqModel.DSize; FdeqModel.DFront; FdeqModel.DValidate] =
      Ok (d', [FdeqModel.DVal (Some 7); FdeqModel.DNum 1; FdeqModel.DVal None; FdeqModel.DBool false]).
Proof. exists (ring3 0 5). split; [by vm_compute|]. split; [done|]. eexists. by vm_compute. Qed.

(** The flat priority queue: if validate is true of written elements then no element
    goes before the front and every later call is as specified. Missing: a size that
    leaves no spare slot, which validate does not notice. *)
Theorem C47_fpq_usable_partial :
  forall (A : Type) (cmp : A -> A -> comparison) (order : comparison),
  total_preorder cmp -> order <> Eq ->
  forall (b : buf A) c, buf_contents b = Some <$> c -> b_sz b = length c ->
  (length c < b_cap b \/ c = []) -> FpqModel.fpq_validate cmp order b = Ok true ->
  ((c = [] /\ FpqModel.fpq_front b = None) \/
   (exists x, FpqModel.fpq_front b = Some 0 /\ c !! 0 = Some x /\ FpqSpec.unbeaten cmp order x c)) /\
  forall os, exists b' c' tr, FpqModel.fpq_run cmp order b os = Ok (b', tr) /\
    buf_contents b' = Some <$> c' /\ b_sz b' = length c' /\ FpqSpec.pq_trace cmp order (b_alloc b) c tr.
Proof.
  intros A cmp order Hc Ho b c Hb Hs Hr Hv.
  assert (Hok : FpqSpec.fpq_ok cmp order b c).
  { pose proof (proj1 (FpqProofs.validate_iff cmp order Ho b c Hb Hs Hr) Hv). by repeat split. }
  split.
  - destruct (FpqProofs.front_Ok cmp order Hc Ho b c Hok) as [?|(x & ? & ? & _ & ?)]; [by left|right; by exists x].
  - intros os. destruct (FpqProofs.run_Ok cmp order Hc Ho os b c Hok) as (b' & c' & tr & Hr' & (? & ? & _) & Ht).
    exists b', c', tr. done.
Qed.

Example C47_fpq_case :
  FpqModel.fpq_validate Nat.compare Lt (Buf [Some 1; Some 3; Some 2; None] 3 false) = Ok true /\
  FpqModel.fpq_validate Nat.compare Lt (Buf [Some 2; Some 3; Some 1; None] 3 false) = Ok false /\
  FpqModel.fpq_validate Nat.compare Gt (Buf [Some 1; Some 3; Some 2; None] 3 false) = Ok false.
Proof. by vm_compute. Qed.

(** No spare slot: validate is true and pop, which swaps through it, is undefined. *)
Theorem C47_fpq_full_refuted :
  exists b : buf nat, FpqModel.fpq_validate Nat.compare Lt b = Ok true /\ b_sz b <= b_cap b /\
    FpqModel.fpq_run Nat.compare Lt b [FpqModel.QPop] = UB.
Proof. exists (Buf [Some 1; Some 2] 2 false). split; [by vm_compute|]. split; [cbn; lia|by vm_compute]. Qed.

(** The priority queue. In any memory at all: if validate is true then no element that
    can be reached goes before the front. *)
Theorem C47_pq_front :
  forall (V : Type) (cmp : V -> V -> comparison) (order : comparison),
  total_preorder cmp -> order = Lt \/ order = Gt ->
  forall s : PqModel.pmem V, PqModel.pq_validate cmp order s = Ok true ->
  forall x, PqSpec.reach s x -> x = PqModel.root s \/
    exists v w, PqModel.dat s !! x = Some v /\ PqModel.dat s !! PqModel.root s = Some w /\ cmp v w <> order.
Proof. exact @PqValid.validate_front. Qed.

(** A program that overwrites the data of elements in the queue, or the size, behind
    the queue's back: validate has an answer. If it is true then the queue is in order
    for the new data and every later call is as specified; if it is false then the size
    is wrong or some element overtook another. Missing: damage to the links. *)
Theorem C47_pq_in_place_partial :
  forall (V : Type) (cmp : V -> V -> comparison) (order : comparison),
  total_preorder cmp -> order = Lt \/ order = Gt ->
  forall (alloc : bool) (off : nat) (c : PqModel.program V), PqSpec.good cmp order alloc off PqSpec.start c ->
  exists s rs A, PqModel.play cmp order alloc off PqModel.pq_init c = Ok (s, rs) /\
  PqSpec.trace cmp order alloc PqSpec.start c rs A /\
  (PqSpec.worn A = false ->
   forall (D : gmap nat V) (n : Z), (forall x, is_Some (D !! x) <-> is_Some (PqSpec.vals A !! x)) ->
    exists b, PqModel.pq_validate cmp order (PqValid.overwritten s D n) = Ok b /\
    (b = true -> n = Z.of_nat (size (PqSpec.queue A)) /\
       PqSpec.front_of cmp order D (PqSpec.queue A) (PqModel.pq_front s) /\
       forall c', let A0 := PqSpec.View (PqSpec.queue A) (PqSpec.top A) D (PqSpec.idle A) false in
       PqSpec.good cmp order alloc off A0 c' ->
       exists s' rs' A', PqModel.play cmp order alloc off (PqValid.overwritten s D n) c' = Ok (s', rs') /\
         PqSpec.trace cmp order alloc A0 c' rs' A' /\ PqSpec.shows cmp order s' A') /\
    (b = false -> n <> Z.of_nat (size (PqSpec.queue A)) \/
       exists x y v w v' w', x ∈ PqSpec.queue A /\ y ∈ PqSpec.queue A /\
         PqSpec.vals A !! x = Some v /\ PqSpec.vals A !! y = Some w /\
         cmp v w <> order /\ D !! x = Some v' /\ D !! y = Some w' /\ cmp v' w' = order)).
Proof. exact @PqValid.in_place. Qed.

Import PqModel.

(** 5, 3, 4 and 1 are pushed at nodes 1 to 4, greatest first, and one pop. *)
Fixpoint script (os : list (pq_op nat)) : program nat :=
  match os with [] => Done | o :: os => Do o (fun _ => script os) end.
Definition pq3 : pmem nat :=
  match play Nat.compare Gt false 0 pq_init (script
    [PNew 1 5 0 0 0 0; PNew 2 3 0 0 0 0; PNew 3 4 0 0 0 0; PNew 4 1 0 0 0 0;
     PPush 1 0; PPush 2 0; PPush 3 0; PPush 4 0; PPop]) with
  | Ok (s, _) => s | _ => pq_init
  end.

Example C47_pq_case :
  pq_validate Nat.compare Gt pq3 = Ok true /\ pq_front pq3 = 3 /\ sz pq3 = 3%Z /\
  pq_validate Nat.compare Gt (PqValid.overwritten pq3 (<[2 := 4]> (dat pq3)) 3) = Ok true /\
  pq_validate Nat.compare Gt (PqValid.overwritten pq3 (<[2 := 9]> (dat pq3)) 3) = Ok false /\
  pq_validate Nat.compare Gt (PqValid.overwritten pq3 (<[3 := 2]> (dat pq3)) 3) = Ok false /\
  pq_validate Nat.compare Gt (PqValid.overwritten pq3 (dat pq3) 2) = Ok false.
Proof. by vm_compute. Qed.

(** A root 1 with two children 3 and 2. *)
Definition pair_heap (pa2 nx2 : nat) : pmem nat :=
  PMem {[1 := 2; 2 := 0; 3 := 0]} {[1 := 1; 2 := nx2; 3 := 2]} {[1 := 1; 2 := 3; 3 := 2]}
    {[1 := 0; 2 := 1; 3 := pa2]} {[1 := 9; 2 := 5; 3 := 4]} ∅ 1 3.

(** Only the youngest child's parent is looked at: node 3 has a parent that is not
    there, validate is true, and taking the element out is undefined. *)
Theorem C47_pq_parent_refuted :
  exists s : pmem nat, pq_validate Nat.compare Gt s = Ok true /\ PqSpec.reach s 3 /\
    play Nat.compare Gt false 0 s (script [PIncrease 3 6]) = UB.
Proof.
  exists (pair_heap 77 3). split; [by vm_compute|]. split; [|by vm_compute].
  eapply (PqSpec.reach_sibling _ 2 3); [|done|done].
  eapply (PqSpec.reach_child _ 1 2); [|done|done]. by apply (PqSpec.reach_root (pair_heap 77 3)).
Qed.

(** Nodes 2 and 3 are children of the root 1; 4 and 5 are siblings, 4 is the youngest
    child of 2 and 5 of 3. The size counts both twice: it is 7 with 5 elements. *)
Theorem C47_pq_size_refuted :
  exists s : pmem nat, pq_validate Nat.compare Gt s = Ok true /\ pq_size s = 7%Z /\
    forall x, PqSpec.reach s x -> x ∈ [1; 2; 3; 4; 5].
Proof.
  exists (PMem {[1 := 2; 2 := 4; 3 := 5; 4 := 0; 5 := 0]} {[1 := 1; 2 := 3; 3 := 2; 4 := 5; 5 := 4]}
    {[1 := 1; 2 := 3; 3 := 2; 4 := 5; 5 := 4]} {[1 := 0; 2 := 1; 3 := 1; 4 := 2; 5 := 3]}
    {[1 := 9; 2 := 8; 3 := 7; 4 := 2; 5 := 1]} ∅ 1 7).
  split; [by vm_compute|]. split; [done|]. intros x Hx.
  induction Hx as [|p c _ IH Hc H0|c d _ IH _ Hd]; [left| |].
  - repeat (apply elem_of_cons in IH as [->|IH]); [| | | | |by apply elem_of_nil in IH];
      vm_compute in Hc; injection Hc as <-; try done; repeat constructor.
  - repeat (apply elem_of_cons in IH as [->|IH]); [| | | | |by apply elem_of_nil in IH];
      vm_compute in Hd; injection Hd as <-; repeat constructor.
Qed.

(** A child whose next sibling is itself, while the youngest child's links are in
    order: the walk never ends. *)
Theorem C47_pq_loop_refuted :
  exists s : pmem nat, pq_validate Nat.compare Gt s = Fuel /\
    forall fuel, ring_valid Nat.compare Gt fuel s 1 2 2 = Fuel.
Proof.
  exists (PMem {[1 := 2; 2 := 0; 3 := 0; 4 := 0]} {[1 := 1; 2 := 3; 3 := 3; 4 := 2]} {[1 := 1; 2 := 4; 3 := 2; 4 := 3]}
    {[1 := 0; 2 := 1; 3 := 1; 4 := 1]} {[1 := 9; 2 := 5; 3 := 4; 4 := 3]} ∅ 1 4).
  split; [by vm_compute|]. set (s := PMem _ _ _ _ _ _ _ _).
  assert (H : forall fuel, ring_valid Nat.compare Gt fuel s 1 2 3 = Fuel).
  { induction fuel as [|fuel IH]; [done|].
    transitivity (ring_valid Nat.compare Gt fuel s 1 2 3); [|done]. reflexivity. }
  destruct fuel as [|fuel]; [done|].
  transitivity (ring_valid Nat.compare Gt fuel s 1 2 3); [|done]. reflexivity.
Qed.

Print Assumptions C47_sll_decides.
Print Assumptions C47_sll_usable.
Print Assumptions C47_sll_crossed_refuted.
Print Assumptions C47_dll_decides.
Print Assumptions C47_dll_forward.
Print Assumptions C47_dll_usable_partial.
Print Assumptions C47_dll_back_refuted.
Print Assumptions C47_fdeq_decides.
Print Assumptions C47_fdeq_usable_partial.
Print Assumptions C47_fdeq_empty_refuted.
Print Assumptions C47_fpq_usable_partial.
Print Assumptions C47_fpq_full_refuted.
Print Assumptions C47_pq_front.
Print Assumptions C47_pq_in_place_partial.
Print Assumptions C47_pq_parent_refuted.
Print Assumptions C47_pq_size_refuted.
Print Assumptions C47_pq_loop_refuted.
