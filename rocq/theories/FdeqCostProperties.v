(** Amortised cost of the double ended queue (C58). *)
From stdpp Require Import base numbers option list.
From Verif Require Import Common BufferModel FdeqModel FdeqSpec FdeqProofs TickModel FdeqCostModel FdeqCostSpec FdeqCost.

(** C58. The count is taken of the calls of C06-C09: without it they are the same. *)
Theorem C58_same_calls :
  forall (A : Type) (d : fdeq A) os, untick (fdeq_run_c d os) = fdeq_run d os.
Proof. intros A d os. exact (run_erase os d). Qed.

(** C58. A history from a new deque, with any mixture of pushes at both ends, pops, ranges
    and refused memory, writes at most three elements for every element passed to it. *)
Theorem C58_history :
  forall (A : Type) (cap : nat) (grow : bool) (os : list (fdeq_op A)) q rs,
  deq_run (Deq [] cap grow) os = Some (q, rs) ->
  exists d n, fdeq_run_c (fresh_fdeq cap grow) os = Ok (d, rs, n) /\ n <= 3 * offered_all os.
Proof. exact @new_history. Qed.

(** C58. From any deque the elements in it may have to be written once more. *)
Theorem C58_any_history :
  forall (A : Type) (d d' : fdeq A) os rs n, d_sz d <= d_cap d ->
  fdeq_run_c d os = Ok (d', rs, n) -> n <= 3 * offered_all os + d_sz d.
Proof. exact @any_history. Qed.

(** C58. One call: a ring that may not grow writes what it is given, and no more than
    everything is written by one growth. *)
Theorem C58_call :
  forall (A : Type) (d d' : fdeq A) o r n, d_sz d <= d_cap d -> fdeq_step_c d o = Ok (d', r, n) ->
  (d_alloc d = false -> n <= offered o) /\ n <= d_sz d + offered o.
Proof. exact @one_call. Qed.

(** Nine pushes, a range and pops: from 0 to 8, 16 and 42 slots, so that 8 and 12 elements
    move. *)
Example C58_case :
  let os := map (fun x => if Nat.even x then DPushBack x true else DPushFront x true) (seq 0 9) ++
            [DPopFront; DPopBack; DPushBackRange (seq 20 4) true; DPushBack 1 false; DPushFrontRange (seq 30 5) true;
             DPushBack 2 true; DSize] in
  (exists q rs, deq_run (Deq [] 0 true) os = Some (q, rs)) /\
  (exists d rs, fdeq_run_c (fresh_fdeq 0 true) os = Ok (d, rs, 40) /\ d_cap d = 42) /\ offered_all os = 20.
Proof. split; [|split]; [eexists _, _; by vm_compute|eexists _, _; by vm_compute|done]. Qed.

Print Assumptions C58_same_calls.
Print Assumptions C58_history.
Print Assumptions C58_any_history.
Print Assumptions C58_call.
