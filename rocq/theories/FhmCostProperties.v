(** Amortised cost of resizing the hash map (C59). *)
From stdpp Require Import base numbers option list.
From Verif Require Import Common BufferModel FhmModel FhmSpec FhmMapProofs FhmProperties TickModel FhmCostModel FhmCostSpec FhmCost.

(** C59. The count is taken of the calls of C16: without it they are the same. *)
Theorem C59_same_calls :
  forall (K V : Type) (wide : bool) (hash_fn : K -> N) (eqb : K -> K -> bool) (h : buf (hcell K V)) os,
  untick (fhm_run_c wide hash_fn eqb h os) = fhm_run wide hash_fn eqb h os.
Proof. intros K V wide hash_fn eqb h os. exact (run_erase wide hash_fn eqb os h). Qed.

(** C59. A history from a new map clears and scans at most 26 slots for every call that may
    add an element, besides one table. Missing: histories with clear. *)
Theorem C59_history_partial :
  forall (K V : Type) (wide : bool) (hash_fn : K -> N) (eqb : K -> K -> bool), key_ok hash_fn eqb ->
  forall (cap : nat) (grow : bool) (os : list (fhm_op K V)),
  cap = 0 \/ 6 <= cap -> (N.of_nat cap < 2 ^ 64)%N ->
  exists h tr n, fhm_run_c wide hash_fn eqb (fresh_fhm cap grow) os = Ok (h, tr, n) /\
    n <= 26 * adds_all os + Nat.max 11 cap.
Proof. exact @history_pays. Qed.

(** C59. With clear it is false, though clear without a destructor is called O(1): every
    insertion after it clears the whole table, so [m] insertions can take [c * m] slots for
    any capacity [c]. *)
Theorem C59_clear_refuted :
  forall c m, 6 <= c -> (N.of_nat c < 2 ^ 64)%N ->
  exists (kvs : list (nat * nat)) h n, length kvs = m /\
    rounds_c true N.of_nat Nat.eqb (fresh_fhm c true) kvs = Ok (h, n) /\ n = m * c.
Proof.
  intros c m Hc Hm. exists (replicate m (0, 0)).
  assert (b_cap (fresh_fhm (K := nat) (V := nat) c true) = c) as Hz by apply replicate_length.
  destruct (rounds_cost true N.of_nat Nat.eqb (key_ok_nat N.of_nat) (replicate m (0, 0)) (fresh_fhm c true)) as (h & Hr);
    [by rewrite Hz|by rewrite Hz|].
  exists h. eexists. split; [apply replicate_length|]. split; [exact Hr|]. by rewrite replicate_length, Hz.
Qed.

(** Forty insertions, of which a few meet refused memory, with removals: tables of 11, 37
    and 79 slots. *)
Example C59_case :
  let os := map (fun k => HInsert (k, k) (negb (k =? 9))) (seq 1 30) ++ [HRemove 3; HContains 4 true; HRemoveEntry 5 true] ++
            map (fun k => HOrInsert (k, k) true) (seq 31 10) in
  (exists h tr, fhm_run_c true (fun k : nat => (N.of_nat k * 12345678901234567)%N) Nat.eqb (fresh_fhm 0 true) os
    = Ok (h, tr, 11 + (37 + 11) + (79 + 37)) /\ b_cap h = 79) /\ adds_all os = 40.
Proof. split; [eexists _, _; by vm_compute|done]. Qed.

Print Assumptions C59_same_calls.
Print Assumptions C59_history_partial.
Print Assumptions C59_clear_refuted.
