(** What calls on an ordered multimap cost that are documented to be O(1). *)
From stdpp Require Import base numbers option gmap fin_maps list.
From Verif Require Import Common LinkHeap OrderSpec MapOps OmModel OmmOps OmmModel OmmSpec OmmCases CostModel
  OmmCostModel OmmCostSpec OmmCostBounds OmmEndsSpec OmmEndsCost OmmEndsDear OmmEndsCases.
From Verif Require OmWalkCost.

(** C56. After max (or min) every further max, pop_max, search for the greatest
    key and insertion of it runs the loop of splay exactly once, and no other
    loop, as long as an element with that key remains. *)
Theorem C56_duplicates :
  forall (K V : Type) (cmp : K -> K -> comparison), total_preorder cmp ->
  forall (alloc : bool) (off : nat) (d : bool) (before : list (mm_op K V)) rs A l1 x kx l2 os rs' A',
  calls cmp (OmmSpec.kept alloc off) start before rs A -> extreme cmp A d l1 x l2 -> vals A !! x = Some kx ->
  steady cmp (OmmSpec.kept alloc off) d (fst kx) A os rs' A' ->
  exists s s1 s2 w w1, omm_run_c cmp alloc off om_init before = Ok ((s, rs), w) /\
    omm_step_c cmp alloc off s (if d then OMax else OMin) = Ok ((s1, OPtr x), w1) /\
    omm_run_c cmp alloc off s1 os = Ok ((s2, rs'), Work (length os) 0).
Proof.
  intros K V cmp Hcmp alloc off d before rs A l1 x kx l2 os rs' A' Hc. apply (calls_are_within cmp Hcmp) in Hc.
  exact (ends_run cmp Hcmp alloc off _ d before rs A l1 x kx l2 os rs' A' Hc).
Qed.

(** A pop of the minimum after a search for it runs it exactly once. *)
Theorem C56_pop_min :
  forall (K V : Type) (cmp : K -> K -> comparison), total_preorder cmp ->
  forall (alloc : bool) (off : nat) (before : list (mm_op K V)) rs A l1 x l2,
  calls cmp (OmmSpec.kept alloc off) start before rs A -> extreme cmp A false l1 x l2 -> alloc = false \/ off = 0 ->
  exists s s1 s2 w w1, omm_run_c cmp alloc off om_init before = Ok ((s, rs), w) /\
    omm_step_c cmp alloc off s OMin = Ok ((s1, OPtr x), w1) /\
    omm_step_c cmp alloc off s1 OPopMin = Ok ((s2, OResult OK), Work 1 0).
Proof.
  intros K V cmp Hcmp alloc off before rs A l1 x l2 Hc. apply (calls_are_within cmp Hcmp) in Hc.
  exact (pop_min_run cmp Hcmp alloc off _ before rs A l1 x l2 Hc).
Qed.

(** or_insert on an Occupied entry runs no loop, insert_entry that of splay once. *)
Theorem C56_occupied_entry :
  forall (K V : Type) (cmp : K -> K -> comparison), total_preorder cmp ->
  forall (alloc : bool) (off : nat) (before : list (mm_op K V)) rs A k l1 x l2 e kv,
  calls cmp (OmmSpec.kept alloc off) start before rs A -> present cmp A k l1 x l2 ->
  vals A !! e = Some kv -> cmp (fst kv) k = Eq -> e ∉ queue A -> (alloc = true -> e ∈ mem A) ->
  exists s s1 s2 w w1, omm_run_c cmp alloc off om_init before = Ok ((s, rs), w) /\
    omm_entry_c cmp s k = Ok ((s1, occupied_ent x), w1) /\
    omm_or_insert_c cmp s1 (occupied_ent x) e = Ok ((s1, x), idle) /\
    omm_insert_entry_c cmp s1 (occupied_ent x) e = Ok ((s2, e), Work 1 0).
Proof.
  intros K V cmp Hcmp alloc off before rs A k l1 x l2 e kv Hc. apply (calls_are_within cmp Hcmp) in Hc.
  exact (occupied_run cmp Hcmp alloc off _ before rs A k l1 x l2 e kv Hc).
Qed.

(** The same is not true of a pop of the maximum after a search for it: no bound
    holds for the turns it takes. *)
Theorem C56_pop_max_refuted :
  forall c, exists (before : list (mm_op Z nat)) rs A s s1 s2 w x w1 w2,
  calls Z.compare (OmmSpec.kept false 0) start before rs A /\
  omm_run_c Z.compare false 0 om_init before = Ok ((s, rs), w) /\
  omm_step_c Z.compare false 0 s OMax = Ok ((s1, OPtr x), w1) /\
  omm_step_c Z.compare false 0 s1 OPopMax = Ok ((s2, OResult OK), w2) /\ c < turns w2.
Proof. exact pop_max_dear. Qed.

(** Nor is there one for extract, ... *)
Theorem C56_extract_refuted :
  forall c, exists (before : list (mm_op Z nat)) rs A s s1 w x w1,
  calls Z.compare (OmmSpec.kept false 0) start before rs A /\ x ∈ queue A /\
  omm_run_c Z.compare false 0 om_init before = Ok ((s, rs), w) /\
  omm_step_c Z.compare false 0 s (OExtract x) = Ok ((s1, OPtr x), w1) /\ c < turns w1.
Proof. exact extract_dear. Qed.

(** ... for remove_entry on an Occupied entry, ... *)
Theorem C56_remove_entry_refuted :
  forall c, exists (before : list (mm_op Z nat)) rs A s s1 s2 w en k w1 w2,
  calls Z.compare (OmmSpec.kept false 0) start before rs A /\
  omm_run_c Z.compare false 0 om_init before = Ok ((s, rs), w) /\
  omm_entry_c Z.compare s k = Ok ((s1, en), w1) /\
  omm_remove_entry_c Z.compare false s1 en = Ok ((s2, en), w2) /\ occupied en = true /\ c < turns w2.
Proof. exact remove_entry_dear. Qed.

(** ... and for or_insert and insert_entry on a Vacant one. *)
Theorem C56_vacant_entry_refuted :
  forall c, exists (before : list (mm_op Z nat)) rs A s s1 s2 s3 w en k e kv w1 w2,
  calls Z.compare (OmmSpec.kept false 0) start before rs A /\ vals A !! e = Some kv /\ fst kv = k /\ e ∉ queue A /\
  omm_run_c Z.compare false 0 om_init before = Ok ((s, rs), w) /\
  omm_entry_c Z.compare s k = Ok ((s1, en), w1) /\ occupied en = false /\
  omm_or_insert_c Z.compare s1 en e = Ok ((s2, e), w2) /\
  omm_insert_entry_c Z.compare s1 en e = Ok ((s3, e), w2) /\ c < turns w2.
Proof. exact vacant_insert_dear. Qed.

(** Thirty-two keys, the greatest three times: max takes 16 turns, all that
    follows one each until the last of the three is popped, which takes 9. *)
Definition filling : list (mm_op Z nat) := [ONew 100 0%Z 0 0 0 0 false; ONew 101 0%Z 0 0 0 0 false; ONew 102 0%Z 0 0 0 0 false;
  OInsert 100 0; OInsert 101 0] ++ drop 2 (sinkings 32).
Definition ending : list (mm_op Z nat) := [OPopMax; OMax; OInsert 102 0; OGet 0%Z; OPopMax].
Definition turns_of (ops : list (mm_op Z nat)) : outcome nat := '(_, w) ← omm_run_c Z.compare false 0 om_init ops; Ok (turns w).
Example C56_case :
  (exists rs A l1 x kx l2 rs' A', calls Z.compare (OmmSpec.kept false 0) start filling rs A /\ extreme Z.compare A true l1 x l2 /\
     vals A !! x = Some kx /\ steady Z.compare (OmmSpec.kept false 0) true (fst kx) A ending rs' A') /\
  turns_of filling = Ok 32 /\ turns_of (filling ++ [OMax]) = Ok 48 /\
  turns_of (filling ++ OMax :: ending) = Ok 53 /\ turns_of (filling ++ OMax :: ending ++ [OPopMax]) = Ok 62.
Proof. split; [apply ending_exists; [apply OmWalkCost.total_preorder_Z|]|]; by vm_compute. Qed.
Print Assumptions C56_duplicates.
Print Assumptions C56_pop_min.
Print Assumptions C56_occupied_entry.
Print Assumptions C56_pop_max_refuted.
Print Assumptions C56_extract_refuted.
Print Assumptions C56_remove_entry_refuted.
Print Assumptions C56_vacant_entry_refuted.
