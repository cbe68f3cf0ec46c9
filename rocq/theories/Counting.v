(** Lists without repetition, by counting: disjointness becomes arithmetic. *)
From stdpp Require Import base numbers list.

Definition eqn (w x : nat) : nat := if decide (w = x) then 1 else 0.
Definition cnt (w : nat) (l : list nat) : nat := length (filter (eq w) l).

Lemma eqn_refl w : eqn w w = 1.
Proof. unfold eqn. by rewrite decide_True. Qed.
Lemma eqn_ne w x : w <> x -> eqn w x = 0.
Proof. intros. unfold eqn. by rewrite decide_False. Qed.
Lemma cnt_nil w : cnt w [] = 0.
Proof. done. Qed.
Lemma cnt_cons w x l : cnt w (x :: l) = eqn w x + cnt w l.
Proof. unfold cnt, eqn. rewrite filter_cons. by destruct (decide (w = x)). Qed.
Lemma cnt_app w l l' : cnt w (l ++ l') = cnt w l + cnt w l'.
Proof. unfold cnt. by rewrite filter_app, app_length. Qed.
Lemma cnt_perm w l l' : l ≡ₚ l' -> cnt w l = cnt w l'.
Proof. intros H. unfold cnt. by rewrite H. Qed.
Lemma cnt_in w l : w ∈ l <-> 1 <= cnt w l.
Proof.
  induction l as [|x l IH]; [rewrite elem_of_nil, cnt_nil; lia|].
  rewrite elem_of_cons, cnt_cons, IH. unfold eqn. destruct (decide (w = x)); [split; [lia|by left]|].
  split; [intros [?|?]; [done|lia]|right; lia].
Qed.
Lemma cnt_NoDup l : NoDup l <-> forall w, cnt w l <= 1.
Proof.
  induction l as [|x l IH]; [split; [intros _ w; rewrite cnt_nil; lia|constructor]|].
  rewrite NoDup_cons, IH, cnt_in. split.
  - intros [Hx H] w. specialize (H w). rewrite cnt_cons. unfold eqn. destruct (decide (w = x)) as [-> |]; lia.
  - intros H. split.
    + specialize (H x). rewrite cnt_cons, eqn_refl in H. lia.
    + intros w. specialize (H w). rewrite cnt_cons in H. lia.
Qed.
Lemma cnt_opt w x l : w = x \/ w ∈ l -> forall z, eqn z w <= eqn z x + cnt z l.
Proof.
  intros H z. unfold eqn at 1. destruct (decide (z = w)) as [-> |]; [|lia].
  destruct H as [-> |H%cnt_in]; [rewrite eqn_refl|]; lia.
Qed.

Ltac cnt_norm := repeat (rewrite cnt_app in * || rewrite cnt_cons in *); rewrite ?cnt_nil, ?eqn_refl in *.
(** Instantiates all counting facts at [w]. *)
Ltac cnt_at w :=
  repeat match goal with
  | H : forall _ : nat, _ <= _ |- _ => specialize (H w)
  | H : w ∈ _ |- _ => apply cnt_in in H
  end;
  cnt_norm; lia.
(** Goals w ∉ l, w <> x, w ∈ l, NoDup l, and contradictions for [w ∈ l]. *)
Ltac dj :=
  match goal with
  | |- ?w ∉ _ => intros ?%cnt_in; cnt_at w
  | |- ?w ∈ _ => apply cnt_in; cnt_at w
  | |- ?w <> ?x =>
    let H := fresh in
    intros H;
    repeat match goal with
    | H : forall _ : nat, _ <= _ |- _ => specialize (H w)
    | H : w ∈ _ |- _ => apply cnt_in in H
    end;
    cnt_norm; rewrite <- ?H in *; rewrite ?eqn_refl in *; lia
  | |- NoDup _ => apply cnt_NoDup; let w := fresh in intros w; cnt_at w
  end.
