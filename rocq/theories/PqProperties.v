(** Properties of the priority queue. *)
From Coq Require Import Sorted.
From stdpp Require Import base numbers option gmap fin_maps fin_sets list.
From Verif Require Import Common LinkHeap OrderSpec PqModel PqSpec PqProofs.

(** Programs that do not look at the answers. *)
Fixpoint script {V} (os : list (pq_op V)) : program V :=
  match os with [] => Done | o :: os => Do o (fun _ => script os) end.

(** C27. False of a queue with an allocator: push returns the allocated copy but
    links in the node it was given. Here node 1 is the user's, 10 the copy: the
    answer is 10, the queue holds 1, and pop hands memory to the allocator that
    never came from it. *)
Theorem C27_alloc_push_refuted :
  exists (s : pmem nat),
    play Nat.compare Gt true 0 pq_init (script [PNew 1 5 0 0 0 0; PPush 1 10]) = Ok (s, [RPtr 1; RPtr 10]) /\
    pq_front s = 1 /\ (forall x, reach s x <-> x = 1) /\
    play Nat.compare Gt true 0 pq_init (script [PNew 1 5 0 0 0 0; PPush 1 10; PPop]) = UB.
Proof.
  eexists. split; [by vm_compute|]. split; [done|]. split; [|by vm_compute].
  intros x. split.
  - induction 1 as [|p c _ -> Hc H0|c d _ -> Hc Hd]; [done| |].
    + vm_compute in Hc. by simplify_eq.
    + done.
  - intros ->. match goal with |- reach ?s _ => by refine (reach_root s _) end.
Qed.

(** With the node at an offset in the user's struct, push uses an address behind
    the node. *)
Theorem C27_alloc_push_offset_refuted :
  play (V:=nat) Nat.compare Gt true 8 pq_init (script [PNew 1 5 0 0 0 0; PPush 1 10; PNew 2 6 0 0 0 0; PPush 2 20]) = UB.
Proof. by vm_compute. Qed.

(** Emplace allocates twice; if the second is refused it returns an element that
    is not in the queue. *)
Theorem C27_emplace_refused_refuted :
  exists (s : pmem nat),
    play Nat.compare Gt true 0 pq_init (script [PEmplace 5 10 0; PSize]) = Ok (s, [RPtr 10; RNum 0%Z]) /\ pq_front s = 0.
Proof. eexists. by vm_compute. Qed.

(** Erase does not clear the links of an element that stays with the user, so a
    second erase of it is not an input error: the size drops again. *)
Theorem C27_erase_twice_refuted :
  exists (s : pmem nat),
    play Nat.compare Gt false 0 pq_init
      (script [PNew 1 5 0 0 0 0; PNew 2 3 0 0 0 0; PPush 1 0; PPush 2 0; PErase 2; PErase 2]) =
      Ok (s, [RPtr 1; RPtr 2; RPtr 1; RPtr 2; RResult OK; RResult OK]) /\
    pq_size s = 0%Z /\ pq_front s = 1.
Proof. eexists. by vm_compute. Qed.

(** What holds: for every program of permitted calls, whatever it does with the
    answers. Missing: push on a queue that allocates, an emplace whose second
    allocation fails, and extract or erase of an element that was erased before. *)
Theorem C27_history_partial :
  forall (V : Type) (cmp : V -> V -> comparison) (order : comparison),
  total_preorder cmp -> order = Lt \/ order = Gt ->
  forall (alloc : bool) (off : nat) (c : program V), good cmp order alloc off start c ->
  exists s rs A, play cmp order alloc off pq_init c = Ok (s, rs) /\ trace cmp order alloc start c rs A /\
    shows cmp order s A.
Proof. exact @history. Qed.

(** C28. Sortedness and front for all permitted programs; validate for those
    that change no priorities. *)
Theorem C28_front_partial :
  forall (V : Type) (cmp : V -> V -> comparison) (order : comparison),
  total_preorder cmp -> order = Lt \/ order = Gt ->
  forall (alloc : bool) (off : nat) (c : program V), good cmp order alloc off start c ->
  exists s rs A, play cmp order alloc off pq_init c = Ok (s, rs) /\ trace cmp order alloc start c rs A /\
    shows cmp order s A /\
    front_of cmp order (vals A) (queue A) (pq_front s) /\
    (exists s' l, drain cmp order alloc (size (queue A)) s = Ok (s', l) /\ pq_size s' = 0%Z /\ pq_front s' = 0 /\
      map fst l ≡ₚ elements (queue A) /\ Forall (fun p => vals A !! fst p = Some (snd p)) l /\
      StronglySorted (fun p q => cmp (snd q) (snd p) <> order) l) /\
    (plain c -> pq_validate cmp order s = Ok true).
Proof. exact @history_front. Qed.

(** A program with every kind of call and a front that the specification leaves
    open after the pop. *)
Definition day : list (pq_op nat) :=
  [PNew 1 5 0 0 0 0; PNew 2 3 7 7 7 7; PNew 3 8 0 0 0 0; PNew 4 5 1 2 3 4; PPush 1 0; PPush 2 0; PPush 3 0; PPush 4 0;
   PFront; PValidate; PPop; PSize; PFront; PExtract 1; PPush 1 0; PErase 2; PExtract 3; PValidate; PIsEmpty; PPush 3 0].


(** The front after a push is determined; after a pop it need not be. *)
Lemma joined_compute D old e t : joined Nat.compare Gt D old e t ->
  t = if old =? 0 then e else
      match D !! e, D !! old with
      | Some v, Some w => if is_order Gt (Nat.compare v w) then e else old
      | _, _ => t
      end.
Proof.
  intros [(-> & [->|(v & w & Hv & Hw & Hc)])|(-> & H0 & Hc)].
  - done.
  - rewrite Hv, Hw, Hc. by destruct (old =? 0).
  - destruct (Nat.eqb_spec old 0); [done|]. destruct (D !! e) as [v|] eqn:Hv, (D !! old) as [w|] eqn:Hw; try done.
    specialize (Hc v w eq_refl eq_refl). by destruct (v ?= w).
Qed.

Ltac shape_up :=
  repeat match goal with
  | H : joined _ _ _ _ _ _ |- _ =>
    apply joined_compute in H; cbn [vals top] in H;
    first [progress (vm_compute in H); subst | clear H]
  | H : leaves _ _ _ _ _ _ _ |- _ => inversion H; clear H; subst
  | H : repriced _ _ _ _ _ _ |- _ => inversion H; clear H; subst
  | H : front_of _ _ _ _ _ |- _ => clear H
  | H : _ \/ _ |- _ => destruct H
  | H : PUpdate _ _ = _ |- _ => first [discriminate H | injection H; clear H; intros; subst]
  | H : PIncrease _ _ = _ |- _ => first [discriminate H | injection H; clear H; intros; subst]
  | H : PDecrease _ _ = _ |- _ => first [discriminate H | injection H; clear H; intros; subst]
  end; subst; try discriminate; cbn [queue top vals idle worn without negb andb Nat.eqb orb] in *.
Ltac impossible := try done; try solve [exfalso; match goal with
  | H : _ ∈ _ |- _ => revert H; apply (bool_decide_unpack _); by vm_compute
  | H : _ = ∅ |- _ => revert H; apply (bool_decide_unpack _); by vm_compute
  end].
Ltac good_step := split; [|let He := fresh in intros ? ? He; inversion He; clear He; subst; shape_up; impossible].
Ltac member := by (apply (bool_decide_unpack _); vm_compute).

Ltac permitted := first
  [ by constructor
  | solve [constructor; split; [done|member]]
  | solve [eapply may_push; [done|done|by vm_compute|member]]
  | solve [constructor; left; member]
  | solve [constructor; right; member]
  | solve [eapply may_increase; [member|by vm_compute|done|first [left; done|right; left; done]]]
  | solve [eapply may_decrease; [member|by vm_compute|done|by right; right]]
  | match goal with |- may _ _ _ _ _ (PDecrease ?e ?v) => apply (may_change_idle _ _ _ _ _ e v); [member|auto] end
  | solve [apply may_emplace; [done|done|split; [done|member]|split; [done|member]|done]]
  | solve [apply may_emplace_refused; by right]
  | solve [constructor; cbn [worn without]; repeat case_match; done] ].

Example C27_case : good Nat.compare Gt false 0 start (script day) /\
  match play Nat.compare Gt false 0 pq_init (script day) with
  | Ok (s, rs) => drop 8 rs = [RPtr 3; RBool true; RResult OK; RNum 3%Z; RPtr 1; RPtr 1; RPtr 1; RResult OK; RPtr 0; RBool true; RBool false; RPtr 3]
  | _ => False
  end.
Proof.
  split; [|by vm_compute]. unfold day. cbn [script good].
  repeat (good_step; [permitted|..]). all: done.
Qed.

Example C28_case : plain (script day) /\
  match play Nat.compare Gt false 0 pq_init (script (take 10 day)) with
  | Ok (s, _) =>
    match drain Nat.compare Gt false 4 s with
    | Ok (_, l) => l = [(3, 8); (1, 5); (4, 5); (2, 3)]
    | _ => False
    end
  | _ => False
  end.
Proof. split; [by repeat split|by vm_compute]. Qed.

(** C29. False of the code: a changed element that becomes the front keeps its
    old sibling pointers. *)
Definition family : list (pq_op nat) :=
  [PNew 1 10 0 0 0 0; PNew 2 5 0 0 0 0; PNew 3 4 0 0 0 0; PNew 4 3 0 0 0 0; PPush 1 0; PPush 2 0; PPush 3 0; PPush 4 0].

(** Raise 3 above all, raise 2 between the others, raise 3 again, pop it: the
    queue of size 3 holds only the smallest element, the next pop empties it. *)
Theorem C29_lost_refuted :
  exists (s s' : pmem nat) rs rs',
    play Nat.compare Gt false 0 pq_init (script (family ++ [PIncrease 3 20; PIncrease 2 15; PIncrease 3 30; PPop])) = Ok (s, rs) /\
    pq_size s = 3%Z /\ pq_front s = 4 /\ dat s !! 4 = Some 3 /\ dat s !! 1 = Some 10 /\ dat s !! 2 = Some 15 /\
    play Nat.compare Gt false 0 s (script [PPop; PSize; PFront]) = Ok (s', rs') /\
    rs' = [RResult OK; RNum 2%Z; RPtr 0].
Proof. do 4 eexists. by vm_compute. Qed.

(** With a destructor-less clear the loop then never ends: the size stays above
    zero while pop reports an empty queue. *)
Theorem C29_clear_forever_refuted :
  exists (s : pmem nat) rs,
    play Nat.compare Gt false 0 pq_init (script (family ++ [PIncrease 3 20; PIncrease 2 15; PIncrease 3 30; PPop; PPop])) = Ok (s, rs) /\
    pq_size s = 2%Z /\ pq_pop Nat.compare Gt false s = Ok (s, INPUT_ERR) /\
    forall n, clear_loop Nat.compare Gt false n s false = Fuel.
Proof.
  do 2 eexists. split; [by vm_compute|]. split; [done|]. split; [by vm_compute|].
  induction n as [|n IH]; [done|]. cbn [clear_loop]. cbn [sz Z.eqb].
  match goal with |- context [pq_pop Nat.compare Gt false ?s] => assert (pq_pop Nat.compare Gt false s = Ok (s, INPUT_ERR)) as -> by done end.
  cbn [mbind outcome_bind obind]. by rewrite IH.
Qed.

(** One change suffices for validate to reject the queue. *)
Theorem C29_validate_refuted :
  exists (s1 s2 : pmem nat) rs1 rs2,
    play Nat.compare Gt false 0 pq_init (script (family ++ [PIncrease 3 20])) = Ok (s1, rs1) /\
    pq_validate Nat.compare Gt s1 = Ok false /\
    play Nat.compare Gt false 0 pq_init (script (family ++ [PUpdate 3 20])) = Ok (s2, rs2) /\
    pq_validate Nat.compare Gt s2 = Ok false.
Proof. do 4 eexists. by vm_compute. Qed.

(** What holds, with changes of priority mixed into any program. Missing:
    increase (in a queue for the largest) or decrease (in one for the smallest)
    of an element that is at the front because of an earlier change ([worn]),
    and validate while such an element is there. Update is not restricted. *)
Theorem C29_history_partial :
  forall (V : Type) (cmp : V -> V -> comparison) (order : comparison),
  total_preorder cmp -> order = Lt \/ order = Gt ->
  forall (alloc : bool) (off : nat) (c : program V), good cmp order alloc off start c ->
  exists s rs A, play cmp order alloc off pq_init c = Ok (s, rs) /\ trace cmp order alloc start c rs A /\
    shows cmp order s A /\ front_of cmp order (vals A) (queue A) (pq_front s).
Proof.
  intros V cmp order TP HO alloc off c Hg.
  destruct (history_front cmp order TP HO alloc off c Hg) as (s & rs & A & H1 & H2 & H3 & H4 & _). by exists s, rs, A.
Qed.

Definition changes : list (pq_op nat) :=
  family ++ [PIncrease 3 20; PIncrease 2 30; PDecrease 3 2; PUpdate 2 1; PIncrease 4 50; PExtract 2; PDecrease 2 0; PPop; PSize].

Example C29_case : good Nat.compare Gt false 0 start (script changes) /\
  match play Nat.compare Gt false 0 pq_init (script changes) with
  | Ok (s, rs) => drop 8 rs = [RBool true; RBool true; RBool true; RBool true; RBool true; RPtr 2; RBool false; RResult OK; RNum 2%Z] /\
     pq_front s = 1
  | _ => False
  end.
Proof.
  split; [|by vm_compute]. unfold changes, family. cbn [script good app].
  repeat (good_step; [permitted|..]). all: done.
Qed.

(** C44, priority queue. *)
Theorem C44_pq_clear :
  forall (V : Type) (cmp : V -> V -> comparison) (order : comparison),
  total_preorder cmp -> order = Lt \/ order = Gt ->
  forall (alloc : bool) (off : nat) (c : program V), good cmp order alloc off start c -> forall fn : bool,
  exists s rs A s' ps, play cmp order alloc off pq_init c = Ok (s, rs) /\ trace cmp order alloc start c rs A /\
    pq_clear cmp order alloc s fn = Ok (s', OK, if fn then map (fun p => (fst p, Some (snd p))) ps else []) /\
    map fst ps ≡ₚ elements (queue A) /\ Forall (fun p => vals A !! fst p = Some (snd p)) ps /\
    shows cmp order s' (View ∅ 0 (if alloc then foldr delete (vals A) (map fst ps) else vals A)
           (if alloc then idle A else queue A ∪ idle A) false).
Proof. exact @after_clear. Qed.

Example C44_pq_case : good Nat.compare Lt true 0 start (script [PEmplace 5 10 11; PEmplace 3 20 21; PEmplace 4 0 0]) /\
  match play Nat.compare Lt true 0 pq_init (script [PEmplace 5 10 11; PEmplace 3 20 21; PEmplace 4 0 0; PClear true; PSize]) with
  | Ok (s, rs) => drop 2 rs = [RPtr 0; RDestroyed OK [(20, Some 3); (10, Some 5)]; RNum 0%Z] /\ dat s !! 20 = None
  | _ => False
  end.
Proof.
  split; [|by vm_compute]. cbn [script good].
  repeat (good_step; [permitted|..]). all: done.
Qed.

Print Assumptions C27_alloc_push_refuted.
Print Assumptions C27_alloc_push_offset_refuted.
Print Assumptions C27_emplace_refused_refuted.
Print Assumptions C27_erase_twice_refuted.
Print Assumptions C27_history_partial.
Print Assumptions C28_front_partial.
Print Assumptions C29_lost_refuted.
Print Assumptions C29_clear_forever_refuted.
Print Assumptions C29_validate_refuted.
Print Assumptions C29_history_partial.
Print Assumptions C44_pq_clear.
