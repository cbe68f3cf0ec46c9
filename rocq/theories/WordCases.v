(** Running histories of sizes, for the examples. *)
From stdpp Require Import base numbers list.
From Verif Require Import Common WordModel WordSpec.
Local Open Scope Z_scope.

Definition reasonable_b (s : store) (o : word_op) : bool :=
  match o with
  | WAlloc c _ => (count s <=? c) && (elem s * c <? 2 ^ 64)
  | WPlus n | WMinus n | WSet n => (0 <=? n) && (count s + n <? 2 ^ 64)
  | WDeque n | WHeapify n => (0 <=? n) && (elem s * n <=? limit)
  | WHash moved => (0 <=? moved) && (2 + moved <=? Z.max 2 (count s))
  | _ => true
  end.
Definition granted_b (asks : list (Z * Z)) (yes : bool) : bool :=
  negb yes || forallb (fun p => snd p <=? limit) asks.

Fixpoint w_run (s : store) (os : list (word_op * bool)) : option (store * list (Z * Z)) :=
  match os with
  | [] => Some (s, [])
  | (o, yes) :: os =>
    let r := w_step s o yes in
    if reasonable_b s o && granted_b (asked r) yes then
      '(s', qs) ← w_run (st r) os; Some (s', asked r ++ qs)
    else None
  end.

Lemma reasonable_ok s o : reasonable_b s o = true -> reasonable s o.
Proof. destruct o; cbn [reasonable_b reasonable]; try done; intros H; apply andb_prop in H as [? ?]; lia. Qed.
Lemma granted_ok l yes : granted_b l yes = true -> granted l yes.
Proof.
  intros H ->. cbn [granted_b negb orb] in H. apply Forall_forall. intros p Hp.
  rewrite forallb_forall in H. apply elem_of_list_In, H in Hp. lia.
Qed.

Lemma run_calls os : forall s s' qs, w_run s os = Some (s', qs) -> calls s os s' qs.
Proof.
  induction os as [|[o yes] os IH]; intros s s' qs; cbn [w_run].
  - intros [= <- <-]. constructor.
  - destruct (reasonable_b s o) eqn:E1; [|done]. destruct (granted_b _ _) eqn:E2; [|done]. cbn [andb].
    destruct (w_run _ os) as [[s1 q1]|] eqn:E3; [|done]. cbn. intros [= <- <-].
    constructor; [by apply reasonable_ok|by apply granted_ok|by apply IH].
Qed.
