(** Computations with a count of the calls of the comparison function. *)
From stdpp Require Import base numbers option list.
From Verif Require Import Common.

Notation ticked A := (outcome (A * nat)).
Definition plain {A} (m : outcome A) : ticked A := a ← m; Ok (a, 0).
Definition tick {A} (m : outcome A) : ticked A := a ← m; Ok (a, 1).
Definition tbind {A B} (f : A -> ticked B) (m : ticked A) : ticked B :=
  '(a, n) ← m; '(b, n') ← f a; Ok (b, n + n').
Notation "x ⇠ y ; z" := (tbind (fun x => z) y)
  (at level 20, y at level 100, z at level 200, only parsing).
Notation "' x ⇠ y ; z" := (tbind (fun x => z) y)
  (at level 20, x pattern, y at level 100, z at level 200, only parsing).

(** The computation without the count. *)
Definition untick {A} (m : ticked A) : outcome A := '(a, _) ← m; Ok a.

(** At most [n] comparisons are made. *)
Definition within {A} (m : ticked A) (n : nat) : Prop := forall a k, m = Ok (a, k) -> k <= n.

Section lemmas.
Context {A B : Type}.
Implicit Types m : ticked A.
Implicit Types f : A -> ticked B.

Lemma untick_bind m f : untick (tbind f m) = (a ← untick m; untick (f a)).
Proof. by destruct m as [[a n]| |]; cbn; [destruct (f a) as [[b k]| |]|..]. Qed.
Lemma untick_obind (m : outcome A) f : untick (a ← m; f a) = (a ← m; untick (f a)).
Proof. by destruct m. Qed.
Lemma untick_plain (m : outcome A) : untick (plain m) = m.
Proof. by destruct m. Qed.
Lemma untick_tick (m : outcome A) : untick (tick m) = m.
Proof. by destruct m. Qed.
Lemma untick_if (b : bool) m m' : untick (if b then m else m') = if b then untick m else untick m'.
Proof. by destruct b. Qed.
Lemma bind_ext (m m' : outcome A) (f g : A -> outcome B) :
  m = m' -> (forall a, f a = g a) -> (a ← m; f a) = (a ← m'; g a).
Proof. intros <- H. destruct m; cbn; [apply H|done..]. Qed.

Lemma within_plain (m : outcome A) n : within (plain m) n.
Proof. destruct m; intros a' k [= _ <-]; lia. Qed.
Lemma within_tick (m : outcome A) n : 1 <= n -> within (tick m) n.
Proof. intros Hn. destruct m; intros a' k [= _ <-]; lia. Qed.
Lemma within_Ok (a : A) k n : k <= n -> within (Ok (a, k)) n.
Proof. intros Hn a' k' [= _ <-]; lia. Qed.
Lemma within_le m n n' : within m n -> n <= n' -> within m n'.
Proof. intros H Hn a k E. apply H in E. lia. Qed.
Lemma within_bind m f n1 n2 : within m n1 -> (forall a k, m = Ok (a, k) -> within (f a) n2) -> within (tbind f m) (n1 + n2).
Proof.
  intros H1 H2 b k E. destruct m as [[a k1]| |]; cbn in E; [|done..].
  destruct (f a) as [[b' k2]| |] eqn:E2; cbn in E; [|done..]. injection E as <- <-.
  specialize (H1 _ _ eq_refl). specialize (H2 _ _ eq_refl _ _ E2). lia.
Qed.
Lemma within_obind (m : outcome A) f n : (forall a, m = Ok a -> within (f a) n) -> within (a ← m; f a) n.
Proof. intros H. destruct m as [a| |]; cbn; [by apply H|done..]. Qed.
Lemma within_free (m : outcome A) f n : (forall a, m = Ok a -> within (f a) n) -> within (tbind f (plain m)) n.
Proof.
  intros H. change n with (0 + n). apply within_bind; [apply within_plain|]. intros a k E. apply H.
  destruct m; cbn in E; congruence.
Qed.
Lemma tbind_Ok m f b n : tbind f m = Ok (b, n) ->
  exists a k1 k2, m = Ok (a, k1) /\ f a = Ok (b, k2) /\ n = k1 + k2.
Proof.
  intros E. destruct m as [[a k1]| |]; cbn in E; [|done..].
  destruct (f a) as [[b' k2]| |] eqn:E2; cbn in E; [|done..]. injection E as <- <-. eauto 10.
Qed.
End lemmas.

Lemma untick_Ok {A} (m : ticked A) a : untick m = Ok a -> exists n, m = Ok (a, n).
Proof. destruct m as [[a' n]| |]; cbn; [intros [= ->]; eauto|done..]. Qed.

Lemma ok_bind {A B} (x : A) (f : A -> outcome B) : (a ← Ok x; f a) = f x.
Proof. done. Qed.

Ltac un := repeat first
  [ match goal with |- ?x = ?x => reflexivity end
  | progress rewrite ?untick_bind, ?untick_obind, ?untick_plain, ?untick_tick, ?untick_if, ?ok_bind
  | match goal with
    | |- (_ ← _; _) = (_ ← _; _) => apply bind_ext; [|intros ?]
    | |- (let '(_, _) := ?p in _) = _ => destruct p
    | |- untick (let '(_, _) := ?p in _) = _ => destruct p
    | |- (if ?b then _ else _) = _ => destruct b
    | |- untick (if ?b then _ else _) = _ => destruct b
    | |- match ?c with _ => _ end = _ => destruct c
    | |- untick (match ?c with _ => _ end) = _ => destruct c
    end ].
