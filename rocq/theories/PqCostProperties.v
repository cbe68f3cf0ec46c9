(** C51: comparisons made by the priority queue. *)
From stdpp Require Import base numbers option gmap fin_sets list.
From Verif Require Import Common LinkHeap OrderSpec TickModel PqModel PqCostModel PqCostErase PqSpec PqCostSpec PqCost PqProperties.

(** The counted functions are those of the model, with the count added. *)
Theorem C51_same_code :
  forall (V : Type) (cmp : V -> V -> comparison) (order : comparison) (alloc : bool) (off : nat) (s : pmem V),
  (forall o, untick (step_c cmp order alloc off s o) = step cmp order alloc off s o) /\
  (forall c, untick (play_c cmp order alloc off s c) = play cmp order alloc off s c).
Proof.
  intros V cmp order alloc off s. split; [exact (step_untick cmp order alloc off s)|].
  intros c. exact (play_untick cmp order alloc off c s).
Qed.

(** Over any permitted history the comparisons made do not exceed the sum of the
    shares of the calls, which are logarithmic in the number of elements stored
    at the time of the call, that is 6 + 7 lg m on average with never more than m
    elements stored. *)
Theorem C51_amortized :
  forall (V : Type) (cmp : V -> V -> comparison) (order : comparison) (alloc : bool) (off : nat),
  total_preorder cmp -> order = Lt \/ order = Gt ->
  forall c : program V, good cmp order alloc off start c ->
  exists s rs A n l, play_c cmp order alloc off pq_init c = Ok (s, rs, n) /\
    logged cmp order alloc start c rs A l /\ shows cmp order s A /\ n <= bill l /\
    (forall m, Forall (fun p => snd p <= m) l -> n <= length l * (6 + 7 * Nat.log2_up m)).
Proof. exact @history_cost. Qed.

(** The list of calls is that of the trace. *)
Theorem C51_logged_is_trace :
  forall (V : Type) (cmp : V -> V -> comparison) (order : comparison) (alloc : bool) (A A' : view V) c rs,
  trace cmp order alloc A c rs A' <-> exists l, logged cmp order alloc A c rs A' l /\ length l = length rs.
Proof.
  intros V cmp order alloc A A' c rs. split.
  - induction 1 as [A|A o k r A1 rs A2 He _ (l & Hl & Hn)]; [exists []; by split; [constructor|]|].
    exists ((o, size (queue A)) :: l). split; [by econstructor|]. cbn. by rewrite Hn.
  - intros (l & Hl & _). induction Hl; by econstructor.
Qed.

(** One call to push or emplace, to increase in a queue with the largest element
    in front or to decrease in one with the smallest, makes at most one
    comparison: in any memory and with any comparison function. *)
Theorem C51_constant :
  forall (V : Type) (cmp : V -> V -> comparison) (order : comparison) (alloc : bool) (off : nat) (s : pmem V) r n,
  (forall e ans, pq_push_c cmp order alloc off s e ans = Ok (r, n) -> n <= 1) /\
  (forall v a b, pq_emplace_c cmp order alloc off s v a b = Ok (r, n) -> n <= 1).
Proof.
  intros V cmp order alloc off s r n. split.
  - intros e ans. exact (push_within cmp order alloc off s e ans r n).
  - intros v a b. exact (emplace_within cmp order alloc off s v a b r n).
Qed.
Theorem C51_constant_change :
  forall (V : Type) (cmp : V -> V -> comparison) (s : pmem V) e v r n,
  (pq_increase_c cmp Gt s e v = Ok (r, n) -> n <= 1) /\
  (pq_decrease_c cmp Lt s e v = Ok (r, n) -> n <= 1).
Proof.
  intros V cmp s e v r n. split.
  - exact (increase_within cmp Gt s e v eq_refl r n).
  - exact (decrease_within cmp Lt s e v eq_refl r n).
Qed.

(** The comparisons of each call. *)
Fixpoint counts (s : pmem nat) (l : list (pq_op nat)) : outcome (list nat) :=
  match l with
  | [] => Ok []
  | o :: l => '(s1, _, n) ← step_c Nat.compare Gt false 0 s o; ns ← counts s1 l; Ok (n :: ns)
  end.

(** A permitted program: of the 11 elements that the first pop leaves all but one
    lose a comparison, the pops after it make fewer. *)
Definition herd (n : nat) : list (pq_op nat) :=
  map (fun i => PNew i (20 - i) 0 0 0 0) (seq 1 n) ++ map (fun i => PPush i 0) (seq 1 n).
Example C51_case : good Nat.compare Gt false 0 start (script (herd 4 ++ [PIncrease 3 30; PUpdate 3 1; PPop; PPop])) /\
  counts pq_init (herd 12 ++ [PIncrease 9 30; PUpdate 9 1; PPop; PPop; PPop; PPop; PErase 10; PClear true])
  = Ok ([0; 0; 0; 0; 0; 0; 0; 0; 0; 0; 0; 0; 0; 1; 1; 1; 1; 1; 1; 1; 1; 1; 1; 1; 1; 1; 10; 4; 2; 0; 2; 4]).
Proof.
  split; [|by vm_compute]. unfold herd. cbn [map seq app script good].
  repeat (good_step; [permitted|..]). all: done.
Qed.

Print Assumptions C51_same_code.
Print Assumptions C51_amortized.
Print Assumptions C51_logged_is_trace.
Print Assumptions C51_constant.
Print Assumptions C51_constant_change.
