(** Entries, ranges, results and messages as documented in ccc/types.h. *)
From Coq Require Import String.
From stdpp Require Import base numbers option list.
From Verif Require Import TypesModel.

(** What an entry can be marked with, and the status that stands for a set of marks. *)
Inductive mark := Occupied | InsertError | SearchError | DeleteError | InputError | NoUnwrap.
Global Instance mark_dec : EqDecision mark.
Proof. solve_decision. Defined.
Definition place (m : mark) : N :=
  match m with Occupied => 0 | InsertError => 1 | SearchError => 2 | DeleteError => 3 | InputError => 4 | NoUnwrap => 5 end.
Definition status (l : list mark) : N := foldr (fun m st => N.setbit st (place m)) 0%N l.

Lemma place_inj m m' : place m = place m' -> m = m'.
Proof. destruct m, m'; cbn; intros H; (reflexivity || discriminate H). Qed.
Lemma status_bit l m : N.testbit (status l) (place m) = bool_decide (m ∈ l).
Proof.
  induction l as [|m' l IH]; cbn [status foldr]; [by rewrite N.bits_0, bool_decide_eq_false_2 by apply not_elem_of_nil|].
  fold (status l). rewrite N.setbit_eqb, IH. destruct (N.eqb_spec (place m') (place m)) as [H|H].
  - apply place_inj in H as ->. symmetry. apply bool_decide_eq_true_2. apply elem_of_list_here.
  - cbn [orb]. apply bool_decide_ext. rewrite elem_of_cons. split; [by right|]. intros [->|?]; [done|done].
Qed.
Lemma has_bit st n : has st (2 ^ n) = N.testbit st n.
Proof.
  unfold has. destruct (N.testbit st n) eqn:E.
  - apply negb_true_iff, N.eqb_neq. intros H. assert (Hb : N.testbit (N.land st (2 ^ n)) n = true).
    { by rewrite N.land_spec, E, N.pow2_bits_true. }
    rewrite H, N.bits_0 in Hb. discriminate Hb.
  - apply negb_false_iff, N.eqb_eq, N.bits_inj_0. intros k. rewrite N.land_spec, N.pow2_bits_eqb.
    destruct (N.eqb_spec n k) as [<-|]; [by rewrite E|apply andb_false_r].
Qed.
Lemma has_mark l m : has (status l) (2 ^ place m) = bool_decide (m ∈ l).
Proof. by rewrite has_bit, status_bit. Qed.

(** C71. Each question is answered by its own mark, whatever the others. *)
Theorem C71_marks : forall (p : nat) (l : list mark),
  let e := Some (Entry p (status l)) in
  entry_occupied e = bool_decide (Occupied ∈ l) /\ entry_insert_error e = bool_decide (InsertError ∈ l) /\
  entry_input_error e = bool_decide (InputError ∈ l) /\ get_entry_status e = status l /\
  (NoUnwrap ∈ l -> entry_unwrap e = 0) /\ (NoUnwrap ∉ l -> entry_unwrap e = p).
Proof.
  intros p l. cbn. change OCCUPIED with (2 ^ place Occupied)%N. change INSERT_ERROR with (2 ^ place InsertError)%N.
  change INPUT_ERROR with (2 ^ place InputError)%N. change NO_UNWRAP with (2 ^ place NoUnwrap)%N. rewrite !has_mark.
  split_and!; try reflexivity; intros H; [by rewrite bool_decide_eq_true_2|by rewrite bool_decide_eq_false_2].
Qed.

(** NULL is no occupied entry and is unwrapped to NULL, and the bounds of NULL are NULL. *)
Theorem C71_null :
  entry_occupied None = false /\ entry_insert_error None = false /\ entry_unwrap None = 0 /\
  get_entry_status None = status [InputError] /\ begin_range None = 0 /\ end_range None = 0 /\
  (forall b e, begin_range (Some (Range b e)) = b /\ end_range (Some (Range b e)) = e).
Proof. split_and!; try reflexivity. intros b e. split; reflexivity. Qed.

(** Missing in C71_marks: the status of NULL is an input error, but the question for an
    input error is answered no. *)
Theorem C71_input_error_refuted :
  exists e, get_entry_status e = status [InputError] /\ entry_input_error e = false.
Proof. exists None. split; reflexivity. Qed.

(** unwrap is documented to give NULL if the entry is vacant. *)
Theorem C71_unwrap_refuted :
  exists p, p <> 0 /\ let e := Some (Entry p (status [])) in
    entry_occupied e = false /\ get_entry_status e = VACANT /\ entry_unwrap e = p.
Proof. exists 2. split; [discriminate|]. cbn. split_and!; reflexivity. Qed.

(** The result without error, and no other, has the empty message; the messages of
    different results differ. *)
Theorem C71_results : forall r, (result_msg r = ""%string <-> r = 0) /\
  (forall r', r < 4 -> result_msg r = result_msg r' -> r = r').
Proof.
  intros r. split.
  - destruct r as [|[|[|[|r]]]]; cbn; split; intros H; (reflexivity || discriminate H).
  - intros r' Hr. destruct r as [|[|[|[|r]]]]; [..|lia];
      (destruct r' as [|[|[|[|r']]]]; cbn; intros H; (reflexivity || discriminate H)).
Qed.

(** A status with one mark or none has a message of its own. *)
Theorem C71_messages_partial : forall l l',
  length l <= 1 -> entry_status_msg (status l) = entry_status_msg (status l') -> forall m, m ∈ l <-> m ∈ l'.
Proof.
  intros l l' Hl Hmsg m. assert (H : status l = status l').
  { revert Hmsg. generalize (status l') as st. intros st. destruct l as [|m0 [|? ?]]; [|destruct m0|cbn in Hl; lia]; cbn; unfold entry_status_msg;
    repeat (match goal with |- context [N.eqb st ?c] => destruct (N.eqb_spec st c) as [->|] end); cbn; intros H; (reflexivity || discriminate H). }
  rewrite <- (bool_decide_eq_true (m ∈ l)), <- (bool_decide_eq_true (m ∈ l')), <- !status_bit, H. reflexivity.
Qed.
(** Missing: one with more. All such statuses have the same message, of an unknown
    combination. *)
Theorem C71_combined : forall l m m', m ∈ l -> m' ∈ l -> m <> m' ->
  entry_status_msg (status l) = "error: entry encountered an unknown combination of flags"%string.
Proof.
  intros l m m' Hm Hm' Hne. apply (bool_decide_eq_true_2 _) in Hm, Hm'. rewrite <- status_bit in Hm, Hm'.
  revert Hm Hm'. generalize (status l) as st. intros st. unfold entry_status_msg.
  repeat (match goal with |- context [N.eqb st ?c] =>
    destruct (N.eqb_spec st c) as [->|]; [destruct m, m'; cbn; intros Hm Hm'; (discriminate Hm || discriminate Hm' || (destruct (Hne eq_refl)))|] end).
  intros _ _. reflexivity.
Qed.

Example C71_case :
  let e := Some (Entry 7 (status [Occupied; InsertError])) in
  entry_occupied e = true /\ entry_insert_error e = true /\ entry_input_error e = false /\ entry_unwrap e = 7 /\
  entry_unwrap (Some (Entry 7 (status [NoUnwrap]))) = 0 /\
  entry_status_msg (status [SearchError]) = "entry encountered an error while searching for a key"%string /\
  entry_status_msg (status [Occupied; NoUnwrap]) = "error: entry encountered an unknown combination of flags"%string /\
  result_msg 9 = "error: invalid result provided no message exists"%string.
Proof. cbn. split_and!; reflexivity. Qed.

Print Assumptions C71_marks.
Print Assumptions C71_null.
Print Assumptions C71_input_error_refuted.
Print Assumptions C71_unwrap_refuted.
Print Assumptions C71_results.
Print Assumptions C71_messages_partial.
Print Assumptions C71_combined.
