(** The counting loops of CostModel.v do what the loops of TreeModel.v do. *)
From stdpp Require Import base numbers option gmap fin_maps list.
From Verif Require Import Common LinkHeap TreeModel CostModel.

Local Ltac bind := cbn [mbind outcome_bind obind].

(** What is left of a result when the count is dropped. *)
Definition erase_count {A C} (m : outcome (A * C)) : outcome A :=
  match m with Ok (a, _) => Ok a | UB => UB | Fuel => Fuel end.

Lemma erase_Ok {A C} (m : outcome (A * C)) a : erase_count m = Ok a <-> exists n, m = Ok (a, n).
Proof.
  destruct m as [[b n]| |]; cbn.
  - split; [intros [= ->]; by exists n|]. by intros [? [= -> _]].
  - split; [done|]. by intros [? ?].
  - split; [done|]. by intros [? ?].
Qed.

Lemma erase_cbind {A B} (m : counted A) (f : A -> counted B) :
  erase_count (cbind f m) = (a ← erase_count m; erase_count (f a)).
Proof. destruct m as [[a w]| |]; try done. cbn. by destruct (f a) as [[b w']| |]. Qed.
Lemma erase_gratis {A} (m : outcome A) : erase_count (gratis m) = m.
Proof. by destruct m. Qed.

Section erase.
Context (nil : nat).

Lemma splay_loop_erase link probe fuel h sl sr root :
  splay_loop nil link probe fuel h sl sr root = erase_count (splay_loop_c nil link probe fuel h sl sr root).
Proof.
  revert h sl sr root. induction fuel as [|f IH]; intros h sl sr root; [done|]. cbn [splay_loop splay_loop_c].
  destruct (probe root) as [c| |]; try done. bind. destruct (is_eq c); [done|].
  destruct (rd (br h (is_gt c)) root) as [b| |]; try done. bind. destruct (b =? nil); [done|].
  destruct (probe b) as [c'| |]; try done. bind.
  destruct (negb (is_eq c') && Bool.eqb (is_gt c) (is_gt c')).
  - destruct (rd (br h (negb (is_gt c))) b) as [g| |]; try done. bind.
    destruct (link h root _ g) as [h1| |]; try done. bind.
    destruct (link h1 b _ root) as [h2| |]; try done. bind.
    destruct (rd _ b) as [g'| |]; try done. bind. destruct (g' =? nil); [done|].
    destruct (link h2 _ _ b) as [h3| |]; try done. bind.
    destruct (rd _ b) as [n| |]; try done. bind. rewrite IH.
    by destruct (splay_loop_c _ _ _ _ _ _ _ _) as [[? ?]| |].
  - bind. destruct (link h _ _ root) as [h3| |]; try done. bind.
    destruct (rd _ root) as [n| |]; try done. bind. rewrite IH.
    by destruct (splay_loop_c _ _ _ _ _ _ _ _) as [[? ?]| |].
Qed.

Lemma splay_by_erase link probe h root :
  splay_by nil link probe h root = erase_count (splay_by_c nil link probe h root).
Proof.
  unfold splay_by, splay_by_c. destruct (set_links h nil nil) as [h0| |]; try done. bind.
  rewrite splay_loop_erase. destruct (splay_loop_c _ _ _ _ _ _ _ _) as [[[[[h1 sl] sr] r] n]| |]; try done.
  cbn [erase_count]. bind.
  repeat match goal with |- context [mbind _ ?m] => destruct m; try done; bind end.
Qed.

Lemma edge_loop_erase fuel h d n : edge_loop nil fuel h d n = erase_count (edge_loop_c nil fuel h d n).
Proof.
  revert n. induction fuel as [|f IH]; intros n; [done|]. cbn [edge_loop edge_loop_c].
  destruct (rd _ n) as [c| |]; try done. bind. destruct (c =? nil); [done|]. rewrite IH.
  by destruct (edge_loop_c _ _ _ _ _) as [[? ?]| |].
Qed.
Lemma edge_erase h d n : edge nil h d n = erase_count (edge_c nil h d n).
Proof. apply edge_loop_erase. Qed.

Lemma climb_erase fuel h d n p : climb nil fuel h d n p = erase_count (climb_c nil fuel h d n p).
Proof.
  revert n p. induction fuel as [|f IH]; intros n p; [done|]. cbn [climb climb_c].
  destruct (p =? nil); [done|]. destruct (rd (br h (negb d)) p) as [c| |]; try done. bind. destruct (c =? n); [done|].
  destruct (rd (pa h) p) as [p'| |]; try done. bind. rewrite IH.
  by destruct (climb_c _ _ _ _ _ _) as [[? ?]| |].
Qed.

Lemma tree_next_erase h root d n : tree_next nil h root d n = erase_count (tree_next_c nil h root d n).
Proof.
  unfold tree_next, tree_next_c. destruct (rd (pa h) root) as [rp| |]; try done. bind.
  destruct (oassert _); try done. bind. destruct (rd (br h d) n) as [c| |]; try done. bind.
  destruct (negb _); [apply edge_erase|]. destruct (rd (pa h) n) as [p| |]; try done. bind. apply climb_erase.
Qed.
End erase.
