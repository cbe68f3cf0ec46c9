(** What walking an ordered multimap costs, and which way it goes, as documented. *)
From Coq Require Import Sorted.
From stdpp Require Import base numbers option gmap fin_maps list.
From Verif Require Import Common LinkHeap OrderSpec MapOps OmModel OmmOps OmmModel OmmSpec OmmCases OmmCalls OmmHistories CostModel CostErase
  OmmCostModel OmmCostErase OmmCostSpec OmmWalkCost.
From Verif Require OmWalkCost.

(** C69. A whole walk from begin to end, in either direction, follows at most two
    links of the tree per element. *)
Theorem C69_whole_walk :
  forall (K V : Type) (cmp : K -> K -> comparison), total_preorder cmp ->
  forall (alloc : bool) (off : nat) (ops : list (mm_op K V)) rs A (d : bool),
  calls cmp (kept alloc off) start ops rs A ->
  exists s ps w, omm_run cmp alloc off om_init ops = Ok (s, rs) /\ omm_iter_c s d = Ok (ps, w) /\
    omm_iter s d = Ok ps /\ map fst ps ≡ₚ queue A /\ turns w = 0 /\ hops w <= 2 * length (queue A).
Proof. intros K V cmp Hcmp alloc off ops rs A d Hc. exact (history_iter cmp Hcmp alloc off ops rs A Hc d). Qed.

(** A step from an element to one with the same key follows no link of the tree. *)
Theorem C69_duplicates :
  forall (K V : Type) (cmp : K -> K -> comparison), total_preorder cmp ->
  forall (alloc : bool) (off : nat) (ops : list (mm_op K V)) rs A (d : bool) x y a b l1 l2,
  calls cmp (kept alloc off) start ops rs A -> listing cmp A d (l1 ++ x :: y :: l2) ->
  vals A !! x = Some a -> vals A !! y = Some b -> cmp (fst a) (fst b) = Eq ->
  exists s, omm_run cmp alloc off om_init ops = Ok (s, rs) /\ omm_next_c s d x = Ok (y, Work 0 0).
Proof.
  intros K V cmp Hcmp alloc off ops rs A d x y a b l1 l2 Hc Hl Ha Hb He.
  destruct (history_next cmp Hcmp alloc off ops rs A Hc d x l1 (y :: l2) Hl) as (s & [i j] & Hrun & Hn & Ht & _ & Hh).
  exists s. split; [done|]. specialize (Hh y a b eq_refl Ha Hb He). cbn in Ht, Hh. by subst.
Qed.

(** No call of begin or rbegin follows more links than the multimap has elements.
    Missing: O(lg N) on average. *)
Theorem C69_begin_linear_partial :
  forall (K V : Type) (cmp : K -> K -> comparison), total_preorder cmp ->
  forall (alloc : bool) (off : nat) (ops : list (mm_op K V)) rs A (d : bool) l,
  calls cmp (kept alloc off) start ops rs A -> listing cmp A d l ->
  exists s w, omm_run cmp alloc off om_init ops = Ok (s, rs) /\ omm_begin_c s d = Ok (hd 0 l, w) /\
    turns w = 0 /\ hops w <= length (queue A).
Proof. intros K V cmp Hcmp alloc off ops rs A d l Hc. exact (history_begin cmp Hcmp alloc off ops rs A Hc d l). Qed.

(** Nor does a call of next or rnext. Missing: O(1). *)
Theorem C69_next_linear_partial :
  forall (K V : Type) (cmp : K -> K -> comparison), total_preorder cmp ->
  forall (alloc : bool) (off : nat) (ops : list (mm_op K V)) rs A (d : bool) x l1 l2,
  calls cmp (kept alloc off) start ops rs A -> listing cmp A d (l1 ++ x :: l2) ->
  exists s w, omm_run cmp alloc off om_init ops = Ok (s, rs) /\ omm_next_c s d x = Ok (hd 0 l2, w) /\
    turns w = 0 /\ hops w <= length (queue A).
Proof.
  intros K V cmp Hcmp alloc off ops rs A d x l1 l2 Hc Hl.
  destruct (history_next cmp Hcmp alloc off ops rs A Hc d x l1 l2 Hl) as (s & w & ? & ? & ? & ? & _). by exists s, w.
Qed.

(** The rest is false. begin is documented amortized O(lg N), but follows links to
    the end of the tree and leaves it as it is: whatever the constant c, there is a
    sequence of insertions and calls of begin that costs more than c lg N per call. *)
Theorem C69_begin_refuted :
  forall c, exists (ops : list (mm_op Z nat)) rs A s w,
    calls Z.compare (kept false 0) start ops rs A /\ omm_run_c Z.compare false 0 om_init ops = Ok ((s, rs), w) /\
    Forall (fun o => walks o = true -> o = OBegin) ops /\ length (queue A) <= length ops /\
    c * (length ops * (1 + Nat.log2_up (length (queue A) + 1))) < hops w.
Proof. exact begin_dear. Qed.

(** The same of rnext, which is documented O(1). *)
Theorem C69_next_refuted :
  forall c, exists (ops : list (mm_op Z nat)) rs A s w,
    calls Z.compare (kept false 0) start ops rs A /\ omm_run_c Z.compare false 0 om_init ops = Ok ((s, rs), w) /\
    Forall (fun o => walks o = true -> o = ORNext 2) ops /\ length (queue A) <= length ops /\
    c * (length ops * (1 + Nat.log2_up (length (queue A) + 1))) < hops w.
Proof. exact next_dear. Qed.

(** Keys 0, 0, 0, -1, -2, ..., -7 make a chain with three elements in its last node:
    ten elements, eight keys. *)
Definition add (p : nat) (k : Z) : list (mm_op Z nat) := [ONew p k 0 0 0 0 false; OInsert p 0].
Definition tail_heavy : list (mm_op Z nat) := add 2 0 ++ add 3 0 ++ add 4 0 ++ (seq 5 7 ≫= fun p => add p (4 - Z.of_nat p)).
Definition hops_of (o : list (mm_op Z nat)) : outcome nat :=
  '(_, w) ← omm_run_c Z.compare false 0 om_init (tail_heavy ++ o); Ok (hops w).
Definition walk_of (d : bool) : outcome (list nat * nat) :=
  '(s, _) ← omm_run Z.compare false 0 om_init tail_heavy; '(l, w) ← omm_iter_c s d; Ok (map fst l, hops w).
Example C69_case :
  (exists rs A, calls Z.compare (kept false 0) start (tail_heavy ++ [OBegin; ONext 2; ONext 3; ONext 4; ORNext 4; ORNext 2]) rs A) /\
  map (fun o => hops_of [o]) [OBegin; ORBegin; ONext 2; ONext 3; ONext 4; ORNext 4; ORNext 2] =
    [Ok 8; Ok 1; Ok 0; Ok 0; Ok 1; Ok 8; Ok 0] /\
  walk_of false = Ok ([2; 3; 4; 5; 6; 7; 8; 9; 10; 11], 16) /\ walk_of true = Ok ([11; 10; 9; 8; 7; 6; 5; 2; 3; 4], 16).
Proof. split; [apply permitted; by vm_compute|by vm_compute]. Qed.

(** C70. begin is documented to give the oldest minimum and next to go up, rbegin the
    oldest maximum and rnext to go down. It is the other way round. *)
Definition three : list (mm_op nat nat) :=
  [ONew 3 1 0 0 0 0 false; OInsert 3 0; ONew 4 3 0 0 0 0 false; OInsert 4 0; ONew 5 5 0 0 0 0 false; OInsert 5 0].
Lemma three_calls : exists rs s, omm_run Nat.compare false 0 om_init three = Ok (s, rs) /\
  exists A, calls Nat.compare (documented false) start three rs A /\ queue A = [3; 4; 5] /\
    vals A !! 3 = Some (1, 0) /\ vals A !! 4 = Some (3, 0) /\ vals A !! 5 = Some (5, 0) /\
    omm_begin s false = Ok 5 /\ omm_begin s true = Ok 3 /\ omm_next s false 4 = Ok 3 /\ omm_next s true 4 = Ok 5 /\
    exists s', omm_range Nat.compare s false 2 4 = Ok (s', (3, 4)) /\ omm_next s' false 3 = Ok 0.
Proof.
  assert (Hv : match execs Nat.compare (documented false) start three with
    | Some (rs, A) => (rs, queue A, vals A !! 3, vals A !! 4, vals A !! 5) = ([OPtr 3; OEnt false false 3; OPtr 4; OEnt false false 4; OPtr 5; OEnt false false 5], [3; 4; 5], Some (1, 0), Some (3, 0), Some (5, 0))
    | None => False end) by (vm_compute; reflexivity).
  assert (Hm : match omm_run Nat.compare false 0 om_init three with
    | Ok (s, rs) => (rs, omm_begin s false, omm_begin s true, omm_next s false 4, omm_next s true 4) =
        ([OPtr 3; OEnt false false 3; OPtr 4; OEnt false false 4; OPtr 5; OEnt false false 5], Ok 5, Ok 3, Ok 3, Ok 5) /\
        match omm_range Nat.compare s false 2 4 with Ok (s', xy) => (xy, omm_next s' false 3) = ((3, 4), Ok 0) | _ => False end
    | _ => False end) by (vm_compute; split; reflexivity).
  destruct (execs Nat.compare (documented false) start three) as [[rs A]|] eqn:EA; [|destruct Hv].
  destruct (omm_run Nat.compare false 0 om_init three) as [[s rs']| |] eqn:Es; [|destruct Hm|destruct Hm].
  apply execs_sound in EA. destruct Hm as [Hm Hr].
  destruct (omm_range Nat.compare s false 2 4) as [[s' xy]| |] eqn:Er; [|destruct Hr|destruct Hr].
  injection Hv as Hv1 Hv2 Hv3 Hv4 Hv5. injection Hm as Hm1 Hm2 Hm3 Hm4 Hm5. injection Hr as Hr1 Hr2. subst rs rs' xy.
  eexists _, s. split; [reflexivity|]. exists A. split; [exact EA|]. split; [exact Hv2|]. split; [exact Hv3|]. split; [exact Hv4|].
  split; [exact Hv5|]. split; [exact Hm2|]. split; [exact Hm3|]. split; [exact Hm4|]. split; [exact Hm5|].
  exists s'. split; [exact Er|exact Hr2].
Qed.
Lemma three_listing (A : view nat nat) : queue A = [3; 4; 5] ->
  vals A !! 3 = Some (1, 0) -> vals A !! 4 = Some (3, 0) -> vals A !! 5 = Some (5, 0) -> listing Nat.compare A true [3; 4; 5].
Proof.
  intros Hq H3 H4 H5. split; [by rewrite Hq|].
  apply SSorted_cons; [apply SSorted_cons; [apply SSorted_cons; [apply SSorted_nil|apply Forall_nil_2]|]|].
  - apply Forall_cons_2; [|apply Forall_nil_2]. exists (3, 0), (5, 0). split; [exact H4|]. split; [exact H5|]. left. reflexivity.
  - apply Forall_cons_2; [|apply Forall_cons_2; [|apply Forall_nil_2]].
    + exists (1, 0), (3, 0). split; [exact H3|]. split; [exact H4|]. left. reflexivity.
    + exists (1, 0), (5, 0). split; [exact H3|]. split; [exact H5|]. left. reflexivity.
Qed.

Lemma three_extremes (A : view nat nat) : queue A = [3; 4; 5] ->
  vals A !! 3 = Some (1, 0) -> vals A !! 4 = Some (3, 0) -> vals A !! 5 = Some (5, 0) ->
  extreme Nat.compare A false [] 3 [4; 5] /\ extreme Nat.compare A true [3; 4] 5 [].
Proof.
  intros Hq H3 H4 H5. split.
  - split; [exact Hq|]. exists (1, 0). split; [exact H3|]. split; [constructor|].
    constructor; [left; exists (3, 0); split; [exact H4|reflexivity]|]. constructor; [left; exists (5, 0); split; [exact H5|reflexivity]|constructor].
  - split; [exact Hq|]. exists (5, 0). split; [exact H5|]. split; [|constructor].
    constructor; [exists (1, 0); split; [exact H3|reflexivity]|]. constructor; [exists (3, 0); split; [exact H4|reflexivity]|constructor].
Qed.
Lemma three_first (A : view nat nat) :
  vals A !! 3 = Some (1, 0) -> vals A !! 4 = Some (3, 0) -> vals A !! 5 = Some (5, 0) ->
  first (fun z => keyed Nat.compare A Lt 2 z \/ keyed Nat.compare A Eq 2 z) [3; 4; 5] 4 /\
  first (fun z => keyed Nat.compare A Lt 4 z) [3; 4; 5] 5.
Proof.
  intros H3 H4 H5. split.
  - apply first_later; [|apply first_here; left; exists (3, 0); split; [exact H4|reflexivity]].
    intros [(kv & Hkv & Hk)|(kv & Hkv & Hk)]; rewrite H3 in Hkv; injection Hkv as <-; discriminate Hk.
  - apply first_later; [|apply first_later; [|apply first_here; exists (5, 0); split; [exact H5|reflexivity]]].
    + intros (kv & Hkv & Hk). rewrite H3 in Hkv. injection Hkv as <-. discriminate Hk.
    + intros (kv & Hkv & Hk). rewrite H4 in Hkv. injection Hkv as <-. discriminate Hk.
Qed.

Theorem C70_begin_refuted :
  exists (ops : list (mm_op nat nat)) rs A s x y l1 l2 m1 m2,
    calls Nat.compare (documented false) start ops rs A /\ omm_run Nat.compare false 0 om_init ops = Ok (s, rs) /\
    extreme Nat.compare A false l1 x l2 /\ extreme Nat.compare A true m1 y m2 /\ x <> y /\
    omm_begin s false = Ok y /\ omm_begin s true = Ok x.
Proof.
  destruct three_calls as (rs & s & Hrun & A & Hc & Hq & H3 & H4 & H5 & Hb & Hrb & _).
  destruct (three_extremes A Hq H3 H4 H5) as [Hmin Hmax].
  exists three, rs, A, s, 3, 5, [], [4; 5], [3; 4], []. split; [exact Hc|]. split; [exact Hrun|]. split; [exact Hmin|]. split; [exact Hmax|].
  split; [discriminate|]. split; [exact Hb|exact Hrb].
Qed.
Theorem C70_next_refuted :
  exists (ops : list (mm_op nat nat)) rs A s x y z,
    calls Nat.compare (documented false) start ops rs A /\ omm_run Nat.compare false 0 om_init ops = Ok (s, rs) /\
    listing Nat.compare A true [x; y; z] /\ omm_next s false y = Ok x /\ omm_next s true y = Ok z.
Proof.
  destruct three_calls as (rs & s & Hrun & A & Hc & Hq & H3 & H4 & H5 & _ & _ & Hn & Hrn & _).
  exists three, rs, A, s, 3, 4, 5. split; [exact Hc|]. split; [exact Hrun|].
  split; [exact (three_listing A Hq H3 H4 H5)|]. split; [exact Hn|exact Hrn].
Qed.

(** equal_range (a, b) is documented to begin with the first element not less than a
    and to end with the first greater than b. It begins with the first, going down,
    that is not greater than a, and ends with one that next does not come to. *)
Theorem C70_range_refuted :
  exists (ops : list (mm_op nat nat)) rs A s s' l a b x y x' y',
    calls Nat.compare (documented false) start ops rs A /\ omm_run Nat.compare false 0 om_init ops = Ok (s, rs) /\
    listing Nat.compare A true l /\
    first (fun z => keyed Nat.compare A Lt a z \/ keyed Nat.compare A Eq a z) l x /\
    first (fun z => keyed Nat.compare A Lt b z) l y /\
    omm_range Nat.compare s false a b = Ok (s', (x', y')) /\ x' <> x /\ y' <> y /\
    omm_next s' false x' = Ok 0 /\ y' <> 0 /\ x' <> y'.
Proof.
  destruct three_calls as (rs & s & Hrun & A & Hc & Hq & H3 & H4 & H5 & _ & _ & _ & _ & s' & Hr & Hn).
  destruct (three_first A H3 H4 H5) as [Ha Hb].
  exists three, rs, A, s, s', [3; 4; 5], 2, 4, 4, 5, 3, 4. split; [exact Hc|]. split; [exact Hrun|].
  split; [exact (three_listing A Hq H3 H4 H5)|]. split; [exact Ha|]. split; [exact Hb|]. split; [exact Hr|].
  split; [discriminate|]. split; [discriminate|]. split; [exact Hn|]. split; discriminate.
Qed.

(** What holds: rbegin and rnext go up from the oldest minimum, begin and next down from
    the oldest maximum. Missing: the documented names. *)
Theorem C70_ends_partial :
  forall (K V : Type) (cmp : K -> K -> comparison), total_preorder cmp ->
  forall (alloc : bool) (off : nat) (ops : list (mm_op K V)) rs A (d : bool),
  calls cmp (kept alloc off) start ops rs A -> queue A <> [] ->
  exists s x l1 l2, omm_run cmp alloc off om_init ops = Ok (s, rs) /\ omm_begin s (negb d) = Ok x /\ extreme cmp A d l1 x l2.
Proof.
  intros K V cmp Hcmp alloc off ops rs A d Hc Hne.
  destruct (history_end cmp Hcmp alloc off ops rs A d Hc Hne) as (s & s' & x & l1 & l2 & Hrun & _ & Hx & Hb). by exists s, x, l1, l2.
Qed.
Theorem C70_steps_partial :
  forall (K V : Type) (cmp : K -> K -> comparison), total_preorder cmp ->
  forall (alloc : bool) (off : nat) (ops : list (mm_op K V)) rs A (d : bool) x l1 l2,
  calls cmp (kept alloc off) start ops rs A -> listing cmp A d (l1 ++ x :: l2) ->
  exists s, omm_run cmp alloc off om_init ops = Ok (s, rs) /\ omm_next s d x = Ok (hd 0 l2).
Proof.
  intros K V cmp Hcmp alloc off ops rs A d x l1 l2 Hc Hl.
  destruct (run_Ok cmp Hcmp alloc off om_init start ops rs A (repr_init cmp alloc) Hc) as (s & Hrun & Hr).
  exists s. split; [done|]. by apply (next_Ok cmp Hcmp alloc s A d x l1 l2).
Qed.

Example C70_case :
  (exists rs A, calls Nat.compare (kept false 0) start (three ++ [OBegin; ORBegin; ONext 4; ORNext 4]) rs A) /\
  ('(_, rs) ← omm_run Nat.compare false 0 om_init (three ++ [OBegin; ORBegin; ONext 4; ORNext 4]); Ok (drop 6 rs)) =
    Ok [OPtr 5; OPtr 3; OPtr 3; OPtr 5].
Proof. split; [apply permitted; by vm_compute|by vm_compute]. Qed.

Print Assumptions C69_whole_walk.
Print Assumptions C69_duplicates.
Print Assumptions C69_begin_linear_partial.
Print Assumptions C69_next_linear_partial.
Print Assumptions C69_begin_refuted.
Print Assumptions C69_next_refuted.
Print Assumptions C70_begin_refuted.
Print Assumptions C70_next_refuted.
Print Assumptions C70_range_refuted.
Print Assumptions C70_ends_partial.
Print Assumptions C70_steps_partial.
