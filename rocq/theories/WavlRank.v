(** The rank rule of WAVL trees, and its restoration after an insertion and a
    removal. *)
From stdpp Require Import base numbers option gmap fin_maps list.
From Verif Require Import Common LinkHeap PathLemmas OrderSpec TreeModel TreeProofs WavlModel Counting WavlProofs.

Local Ltac bind := cbn [mbind outcome_bind obind].

Lemma odd_pred m : Z.odd (m - 1) = negb (Z.odd m).
Proof. rewrite Z.odd_sub. by destruct (Z.odd m). Qed.
Lemma odd_succ m : Z.odd (m + 1) = negb (Z.odd m).
Proof. rewrite Z.odd_add. by destruct (Z.odd m). Qed.

(** A rank difference of one or two. *)
Definition gap (m n : Z) : Prop := (m - n = 1 \/ m - n = 2)%Z.

Lemma gap_parity m n : gap m n -> (Z.odd m = Z.odd n <-> m - n = 2)%Z.
Proof.
  intros [H|H].
  - replace n with (m - 1)%Z by lia. rewrite odd_pred. destruct (Z.odd m); split; try done; lia.
  - replace n with (m - 1 - 1)%Z by lia. rewrite !odd_pred, negb_involutive. split; [lia|done].
Qed.

(** ** Ranked trees *)

(** [t] obeys the rank rule and has rank [n]: differences are one or two, leaves
    have rank 0, the empty tree rank -1, and the parity bits [P] are those of the
    ranks. *)
Fixpoint ok (P : gmap nat bool) (t : tree) (n : Z) : Prop :=
  match t with
  | E => n = (-1)%Z
  | T l x r =>
    P !! x = Some (Z.odd n) /\ (l = E -> r = E -> n = 0%Z) /\
    exists a b, ok P l a /\ ok P r b /\ gap n a /\ gap n b
  end.

(** A zipper whose hole may be filled with a tree of rank [n]. *)
Fixpoint zok (P : gmap nat bool) (Q : zip) (n : Z) : Prop :=
  match Q with
  | [] => True
  | (d, x, u) :: Q =>
    exists m b, P !! x = Some (Z.odd m) /\ (u = E -> n = (-1)%Z -> m = 0%Z) /\
      ok P u b /\ gap m n /\ gap m b /\ zok P Q m
  end.

Lemma ok_mk P d a x b n :
  ok P (mk d a x b) n <->
  P !! x = Some (Z.odd n) /\ (a = E -> b = E -> n = 0%Z) /\
  exists i j, ok P a i /\ ok P b j /\ gap n i /\ gap n j.
Proof. destruct d; cbn; naive_solver. Qed.

Lemma ok_ge P t n : ok P t n -> (-1 <= n)%Z.
Proof.
  revert n. induction t as [|l IHl x r IHr]; intros n; cbn; [lia|].
  intros (_ & _ & a & b & Ha & Hb & [?|?] & _); apply IHl in Ha; lia.
Qed.
Lemma ok_ge0 P t n : ok P t n -> t <> E -> (0 <= n)%Z.
Proof.
  destruct t as [|l x r]; [done|]. intros (_ & _ & a & b & Ha & _ & [?|?] & _) _; apply ok_ge in Ha; lia.
Qed.
Lemma ok_E P t n : ok P t n -> (n < 0)%Z -> t = E.
Proof. intros H Hn. destruct t; [done|]. apply ok_ge0 in H; [lia|done]. Qed.

Lemma ok_ext P P' t n : (forall x, x ∈ nodes t -> P' !! x = P !! x) -> ok P t n -> ok P' t n.
Proof.
  revert n. induction t as [|l IHl x r IHr]; intros n H; cbn; [done|].
  intros (Hx & Hl & a & b & Ha & Hb & Hga & Hgb).
  split; [rewrite H; [done|apply (elem_of_mk true); auto]|]. split; [done|]. exists a, b. split_and!; try done.
  - apply IHl; [|done]. intros z Hz. apply H. apply (elem_of_mk true). auto.
  - apply IHr; [|done]. intros z Hz. apply H. apply (elem_of_mk true). auto.
Qed.
Lemma ok_insert P t n x b : x ∉ nodes t -> ok P t n -> ok (<[x := b]> P) t n.
Proof. intros Hx. apply ok_ext. intros z Hz. apply lookup_insert_ne. by intros ->. Qed.

Lemma zok_ext P P' Q n : (forall x, x ∈ znodes Q -> P' !! x = P !! x) -> zok P Q n -> zok P' Q n.
Proof.
  revert n. induction Q as [|[[d x] u] Q IH]; intros n H; cbn [zok]; [done|]. cbn [znodes] in H.
  intros (m & b & Hx & Hl & Hu & Hg & Hgb & Hz). exists m, b. split_and!; try done.
  - rewrite H; [done|left].
  - apply (ok_ext P); [|done]. intros z Hz'. apply H. right. apply elem_of_app. by left.
  - apply IH; [|done]. intros z Hz'. apply H. right. apply elem_of_app. by right.
Qed.
Lemma zok_insert P Q n x b : x ∉ znodes Q -> zok P Q n -> zok (<[x := b]> P) Q n.
Proof. intros Hx. apply zok_ext. intros z Hz. apply lookup_insert_ne. by intros ->. Qed.

(** A ranked tree in its ranked surroundings is a ranked tree. *)
Lemma ok_plug P Q t n : zok P Q n -> ok P t n -> exists m, ok P (plug Q t) m.
Proof.
  revert t n. induction Q as [|[[d x] u] Q IH]; intros t n; [by exists n|]. cbn [zok plug].
  intros (m & b & Hx & Hl & Hu & Hg & Hgb & Hz) Ht. apply (IH _ m Hz). apply ok_mk. split_and!; try done.
  - intros -> ->. by apply Hl.
  - by exists b, n.
Qed.
Lemma ok_unplug P Q t m : ok P (plug Q t) m -> exists n, zok P Q n /\ ok P t n.
Proof.
  revert t. induction Q as [|[[d x] u] Q IH]; intros t; [by exists m|]. cbn [zok plug].
  intros H. destruct (IH _ H) as (n & Hz & Ht). apply ok_mk in Ht as (Hx & Hl & b & n' & Hu & Ht & Hgb & Hg).
  exists n'. split; [|done]. exists n, b. split_and!; try done. intros ? ->. apply Hl; [done|]. by eapply ok_E.
Qed.

(** ** Heights *)

Fixpoint height (t : tree) : nat :=
  match t with E => 0 | T l _ r => S (Nat.max (height l) (height r)) end.

Lemma ok_height P t n : ok P t n -> (Z.of_nat (height t) <= n + 1)%Z.
Proof.
  revert n. induction t as [|l IHl x r IHr]; intros n; cbn [ok height]; [lia|].
  intros (_ & _ & a & b & Ha%IHl & Hb%IHr & [?|?] & [?|?]); lia.
Qed.

Lemma ok_size P t n : ok P t n -> (2 ^ (n + 1) <= (Z.of_nat (length (nodes t)) + 1) ^ 2)%Z.
Proof.
  revert n. induction t as [|l IHl x r IHr]; intros n; cbn [ok nodes]; [intros ->; done|].
  intros (_ & Hleaf & a & b & Ha & Hb & Hga & Hgb).
  assert ((-1 <= a)%Z /\ (-1 <= b)%Z) as [Ha1 Hb1] by (split; by eapply ok_ge).
  apply IHl in Ha. apply IHr in Hb. rewrite app_length. cbn [length].
  set (p := (Z.of_nat (length (nodes l)) + 1)%Z) in *. set (q := (Z.of_nat (length (nodes r)) + 1)%Z) in *.
  replace (Z.of_nat (length (nodes l) + S (length (nodes r))) + 1)%Z with (p + q)%Z by lia.
  assert (0 < p /\ 0 < q)%Z as [Hp Hq] by lia.
  destruct (Z.eq_dec n 0%Z) as [-> |Hn0].
  { change (2 ^ (0 + 1))%Z with 2%Z. nia. }
  assert (1 <= n)%Z as Hn by (destruct Hga; lia).
  assert (2 ^ (n - 1) <= p ^ 2)%Z as Hp2.
  { etransitivity; [|exact Ha]. apply Z.pow_le_mono_r; destruct Hga; lia. }
  assert (2 ^ (n - 1) <= q ^ 2)%Z as Hq2.
  { etransitivity; [|exact Hb]. apply Z.pow_le_mono_r; destruct Hgb; lia. }
  replace (n + 1)%Z with (2 + (n - 1))%Z by lia. rewrite Z.pow_add_r by lia. change (2 ^ 2)%Z with 4%Z.
  destruct (Z_le_gt_dec p q); nia.
Qed.

(** The height is at most twice the logarithm of the number of nodes plus one. *)
Lemma ok_log P t n : ok P t n -> 2 ^ height t <= S (length (nodes t)) * S (length (nodes t)).
Proof.
  intros H. pose proof (ok_height P t n H) as Hh. pose proof (ok_size P t n H) as Hs.
  apply Nat2Z.inj_le. rewrite Nat2Z.inj_pow, Nat2Z.inj_mul, (Nat2Z.inj_succ (length _)).
  change (Z.of_nat 2) with 2%Z.
  etransitivity; [apply Z.pow_le_mono_r; [lia|exact Hh]|]. rewrite Z.pow_2_r in Hs. exact Hs.
Qed.

Section fixups.
Context (nil : nat).
Notation ptr := (ptr nil).
Notation rep := (rep nil).
Notation zrep := (zrep nil).
Notation zptr := (zptr nil).
Notation zin := (zin nil).

Definition with_parity (s : wavl) (P : gmap nat bool) : wavl := Wavl (wl s) P (wroot s).

Lemma parity_Ok s x b : wp s !! x = Some b -> parity s x = Ok b.
Proof. intros H. unfold parity. by rewrite H. Qed.
Lemma promote_Ok s x b : x <> nil -> wp s !! x = Some b -> promote nil s x = Ok (with_parity s (<[x := negb b]> (wp s))).
Proof.
  intros Hn H. unfold promote, wparity. rewrite (proj2 (Nat.eqb_neq _ _)) by done.
  rewrite (parity_Ok _ _ _ H). done.
Qed.
Lemma even_child_Ok s p x a b :
  p <> nil -> wp s !! p = Some a -> wp s !! x = Some b -> even_child nil s p x = Ok (Bool.eqb a b).
Proof.
  intros Hn Ha Hb. unfold even_child. rewrite (proj2 (Nat.eqb_neq _ _)) by done.
  by rewrite (parity_Ok _ _ _ Ha), (parity_Ok _ _ _ Hb).
Qed.
Lemma odd_child_Ok s p x a b :
  p <> nil -> wp s !! p = Some a -> wp s !! x = Some b -> odd_child nil s p x = Ok (negb (Bool.eqb a b)).
Proof.
  intros Hn Ha Hb. unfold odd_child. rewrite (proj2 (Nat.eqb_neq _ _)) by done.
  by rewrite (parity_Ok _ _ _ Ha), (parity_Ok _ _ _ Hb).
Qed.
Lemma even_parent_Ok s x p y a b c :
  p <> nil -> wp s !! x = Some a -> wp s !! p = Some b -> wp s !! y = Some c ->
  even_parent nil s x p y = Ok (Bool.eqb a b && Bool.eqb b c).
Proof.
  intros Hn Ha Hb Hc. unfold even_parent. rewrite (proj2 (Nat.eqb_neq _ _)) by done. cbn [negb oassert]. bind.
  by rewrite (parity_Ok _ _ _ Ha), (parity_Ok _ _ _ Hb), (parity_Ok _ _ _ Hc).
Qed.
Lemma is_01_parent_Ok s x p y a b c :
  p <> nil -> wp s !! x = Some a -> wp s !! p = Some b -> wp s !! y = Some c ->
  is_01_parent nil s x p y = Ok (Bool.eqb a b && negb (Bool.eqb b c)).
Proof.
  intros Hn Ha Hb Hc. unfold is_01_parent. rewrite (proj2 (Nat.eqb_neq _ _)) by done. cbn [negb oassert]. bind.
  rewrite (parity_Ok _ _ _ Ha), (parity_Ok _ _ _ Hb), (parity_Ok _ _ _ Hc). bind. by destruct a, b, c.
Qed.
Lemma is_11_parent_Ok s x p y a b c :
  p <> nil -> wp s !! x = Some a -> wp s !! p = Some b -> wp s !! y = Some c ->
  is_11_parent nil s x p y = Ok (negb (Bool.eqb a b) && negb (Bool.eqb b c)).
Proof.
  intros Hn Ha Hb Hc. unfold is_11_parent. rewrite (proj2 (Nat.eqb_neq _ _)) by done. cbn [negb oassert]. bind.
  rewrite (parity_Ok _ _ _ Ha), (parity_Ok _ _ _ Hb), (parity_Ok _ _ _ Hc). bind. by destruct a, b, c.
Qed.

(** The parity of the node a subtree hangs by. *)
Lemma ok_ptr P t n : P !! nil = Some true -> ok P t n -> P !! ptr t = Some (Z.odd n).
Proof. destruct t; cbn; [by intros ? ->|]. by intros _ (? & _). Qed.

Lemma gap_eqb m n : gap m n -> Bool.eqb (Z.odd m) (Z.odd n) = bool_decide (m - n = 2)%Z.
Proof.
  intros H. apply gap_parity in H. destruct (Bool.eqb _ _) eqn:Eq.
  - apply eqb_prop in Eq. rewrite bool_decide_eq_true_2; [done|]. tauto.
  - rewrite bool_decide_eq_false_2; [done|]. intros Hm. apply H in Hm. rewrite Hm, eqb_reflx in Eq. done.
Qed.
Lemma eqb_sym a b : Bool.eqb a b = Bool.eqb b a.
Proof. by destruct a, b. Qed.
(** The same for other distances. *)
Lemma near_eqb m n k : (m - n = k)%Z -> Bool.eqb (Z.odd m) (Z.odd n) = Z.even k.
Proof.
  intros <-. rewrite <- Z.negb_odd, Z.odd_sub. by destruct (Z.odd m), (Z.odd n).
Qed.

(** Nothing but the parity of nodes in [X] differs. *)
Definition same_parity (X : list nat) (P P' : gmap nat bool) : Prop := forall z, z ∉ X -> P' !! z = P !! z.
Lemma same_parity_insert X P P' x b : same_parity X P P' -> x ∈ X -> same_parity X P (<[x := b]> P').
Proof. intros H Hx z Hz. rewrite lookup_insert_ne by (by intros ->). by apply H. Qed.
Lemma same_parity_refl X P : same_parity X P P.
Proof. done. Qed.
Lemma same_parity_trans X P P1 P2 : same_parity X P P1 -> same_parity X P1 P2 -> same_parity X P P2.
Proof. intros H1 H2 z Hz. rewrite H2 by done. by apply H1. Qed.
Lemma same_parity_mono X Y P P' : same_parity X P P' -> (forall z, z ∈ X -> z ∈ Y) -> same_parity Y P P'.
Proof. intros H1 H2 z Hz. apply H1. intros ?. by apply Hz, H2. Qed.

Lemma sibling_Ok s d p u Q t :
  zin (wl s) (wroot s) ((d, p, u) :: Q) t -> t <> E -> sibling_of nil s (ptr t) = Ok (ptr u).
Proof.
  intros Hz Ht. pose proof (zin_cnt _ _ _ _ _ Hz) as Hc. cbn [znodes] in Hc.
  destruct Hz as (Hzr & Hr & _). cbn [WavlProofs.zrep WavlProofs.zptr] in *.
  destruct Hzr as (Hq & Hu & Hpp & Hp & Hru & _). unfold sibling_of.
  assert (pa (wl s) !! ptr t = Some p) as Hpa by (destruct t; [done|]; by destruct Hr as (_ & _ & ? & _)).
  rewrite (up_Ok _ _ _ Hpa). bind. rewrite (proj2 (Nat.eqb_neq _ _)) by done. cbn [negb oassert]. bind.
  pose proof (cnt_ptr nil u) as Hcu.
  assert (ptr t ∈ nodes t) as Hin by (by apply ptr_in).
  assert (ptr u <> ptr t) as Hne.
  { apply not_eq_sym. set (pt := ptr t) in *. set (pu := ptr u) in *. dj. }
  destruct d; cbn [negb br] in *.
  - rewrite (child_Ok _ false p (ptr u)) by done. bind. rewrite (proj2 (Nat.eqb_neq _ _)) by done.
    by rewrite (child_Ok _ false p (ptr u)).
  - rewrite (child_Ok _ false p (ptr t)) by done. bind. rewrite Nat.eqb_refl.
    by rewrite (child_Ok _ true p (ptr u)).
Qed.

(** ** Insertion *)

(** The node [x] below [z] has grown by one to rank [n + 1], being a 1,2 node. *)
Definition grown (P : gmap nat bool) (Q : zip) (d1 : bool) (u1 : tree) (z : nat)
    (d : bool) (u : tree) (x : nat) (t : tree) : Prop :=
  exists n m b, (0 <= n)%Z /\ ok P t n /\ ok P u (n - 1) /\ P !! x = Some (Z.odd (n + 1)) /\
    P !! z = Some (Z.odd m) /\ ok P u1 b /\ gap m n /\ gap m b /\ zok P Q m /\
    ~ (m = n + 1 /\ m - b = 1)%Z.

Lemma insert_climb_Ok fuel s Q d u x t n :
  length Q < fuel -> zin (wl s) (wroot s) Q (mk d u x t) -> wp s !! nil = Some true ->
  wp s !! x = Some (Z.odd n) -> (0 <= n)%Z -> ok (wp s) u (n - 1) -> ok (wp s) t n -> zok (wp s) Q n ->
  exists P o, insert_climb nil fuel s x = Ok (with_parity s P, o) /\
    same_parity (x :: znodes Q) (wp s) P /\
    match o with
    | None => exists m, ok P (plug Q (mk d u x t)) m
    | Some (x', z) => exists Q' d1 u1 d' u' t',
        plug Q (mk d u x t) = plug Q' (mk d1 u1 z (mk d' u' x' t')) /\ grown P Q' d1 u1 z d' u' x' t'
    end.
Proof.
  revert s Q d u x t n. induction fuel as [|f IH]; intros s Q d u x t n Hf Hz Hnil Hx Hn Hu Ht HQ; [lia|].
  pose proof (zin_cnt _ _ _ _ _ Hz) as Hc. setoid_rewrite cnt_mk in Hc.
  assert (x <> nil) as Hxn by dj.
  cbn [insert_climb]. rewrite (promote_Ok _ _ _ Hxn Hx). bind.
  rewrite <- odd_succ. set (P1 := <[x := Z.odd (n + 1)]> (wp s)).
  assert (P1 !! x = Some (Z.odd (n + 1))) as Hx1 by (unfold P1; by rewrite lookup_insert).
  assert (P1 !! nil = Some true) as Hnil1 by (unfold P1; by rewrite lookup_insert_ne).
  assert (ok P1 u (n - 1)) as Hu1 by (apply ok_insert; [dj|done]).
  assert (ok P1 t n) as Ht1 by (apply ok_insert; [dj|done]).
  assert (zok P1 Q n) as HQ1 by (apply zok_insert; [dj|done]).
  assert (same_parity (x :: znodes Q) (wp s) P1) as Hsame by (apply same_parity_insert; [done|left]).
  assert (ok P1 (mk d u x t) (n + 1)) as Hmk.
  { apply ok_mk. split_and!; [done| |].
    - intros -> ->. cbn in Ht1. lia.
    - exists (n - 1)%Z, n. split_and!; try done; [right|left]; lia. }
  assert (pa (wl (with_parity s P1)) !! x = Some (zptr Q)) as Hpx.
  { destruct Hz as (_ & Hr & _). by apply rep_mk in Hr as (_ & _ & ? & _). }
  rewrite (up_Ok _ _ _ Hpx). bind.
  destruct Q as [|[[d1 z] u1] Q]; cbn [WavlProofs.zptr].
  { rewrite Nat.eqb_refl. eexists _, None. split; [done|]. split; [done|]. by exists (n + 1)%Z. }
  cbn [znodes] in Hc. cbn [length] in Hf.
  destruct HQ1 as (m & b & Hm & Hleaf & Hub & Hg & Hgb & HQ1).
  assert (z <> nil) as Hzn by dj. rewrite (proj2 (Nat.eqb_neq _ _)) by done.
  assert (sibling_of nil (with_parity s P1) x = Ok (ptr u1)) as ->.
  { pose proof (sibling_Ok (with_parity s P1) d1 z u1 Q (mk d u x t)) as Hs. rewrite ptr_mk in Hs.
    apply Hs; [done|apply mk_not_E]. }
  bind. erewrite is_01_parent_Ok; [|done|exact Hx1|exact Hm|by apply ok_ptr]. bind.
  rewrite (gap_eqb m b) by done.
  assert (Bool.eqb (Z.odd (n + 1)) (Z.odd m) = bool_decide (m = n + 1)%Z) as ->.
  { destruct Hg as [Hg|Hg].
    - rewrite bool_decide_eq_true_2 by lia. by rewrite (near_eqb (n + 1) m 0) by lia.
    - rewrite bool_decide_eq_false_2 by lia. by rewrite (near_eqb (n + 1) m (-1)) by lia. }
  destruct (bool_decide _ && _) eqn:Etest.
  - apply andb_true_iff in Etest as [->%bool_decide_eq_true_1 Etest].
    apply negb_true_iff in Etest. apply bool_decide_eq_false_1 in Etest.
    destruct (IH (with_parity s P1) Q d1 u1 z (mk d u x t) (n + 1)%Z) as (P & o & Hrun & Hsp & Ho); try done.
    { lia. } { by apply zin_up. } { lia. }
    { cbn. replace (n + 1 - 1)%Z with b; [done|]. destruct Hgb; lia. }
    cbn [wp with_parity] in *. rewrite Hrun. exists P, o. split; [done|]. split; [|done].
    apply (same_parity_trans _ _ P1); [done|]. apply (same_parity_mono _ _ _ _ Hsp).
    intros w. cbn [znodes]. rewrite !elem_of_cons, elem_of_app. tauto.
  - eexists _, (Some (x, z)). split; [done|]. split; [done|]. exists Q, d1, u1, d, u, t. split; [done|].
    exists n, m, b. split_and!; try done. intros [He1 He2].
    rewrite bool_decide_eq_true_2, bool_decide_eq_false_2 in Etest by lia. done.
Qed.

(** The tree [t] in memory, ranked. *)
Definition wavl_ok (s : wavl) (t : tree) : Prop :=
  zin (wl s) (wroot s) [] t /\ wp s !! nil = Some true /\ exists n, ok (wp s) t n.

(** Nothing outside the tree changes. *)
Definition local (X : list nat) (s s' : wavl) : Prop :=
  kept (nil :: X) (wl s) (wl s') /\ same_parity X (wp s) (wp s').

Lemma wavl_ok_plug s Q t n :
  zin (wl s) (wroot s) Q t -> wp s !! nil = Some true -> zok (wp s) Q n -> ok (wp s) t n -> wavl_ok s (plug Q t).
Proof.
  intros Hz Hn HQ Ht. split_and!; [|done|by eapply ok_plug].
  apply zin_plug. cbn [plug]. by apply zin_plug in Hz.
Qed.

Ltac neq := first [done | apply not_eq_sym; done | dj | apply not_eq_sym; dj].
Ltac lookp := rewrite ?lookup_insert; repeat (rewrite lookup_insert_ne by neq; rewrite ?lookup_insert).
Ltac okp := repeat first [apply ok_insert; [dj|] | apply zok_insert; [dj|]].

Lemma insert_fixup_Ok steps s Q d u x t n :
  length Q < steps -> zin (wl s) (wroot s) Q (mk d u x t) -> wp s !! nil = Some true ->
  wp s !! x = Some (Z.odd n) -> (0 <= n)%Z -> ok (wp s) u (n - 1) -> ok (wp s) t n -> zok (wp s) Q n ->
  exists s' t', insert_fixup nil steps s x = Ok s' /\ wavl_ok s' t' /\ nodes t' = nodes (plug Q (mk d u x t)) /\
    local (nodes t') s s'.
Proof.
  intros Hsteps Hz Hnil Hx Hn Hu Ht HQ. unfold insert_fixup.
  assert (forall w, w ∈ x :: znodes Q -> w ∈ nodes (plug Q (mk d u x t))) as Hsub.
  { intros w. rewrite elem_of_plug, elem_of_mk, elem_of_cons. tauto. }
  destruct (insert_climb_Ok steps s Q d u x t n) as (P & o & -> & Hsame & Ho); try done.
  bind. set (s1 := with_parity s P).
  assert (P !! nil = Some true) as Hnil1.
  { rewrite Hsame; [done|]. intros Hi%Hsub. apply zin_plug in Hz as (_ & Hr & _). by eapply rep_nil. }
  destruct o as [[x' z]|].
  2:{ eexists _, _. split; [done|]. split_and!; [|done..|].
      - split; [|done]. apply zin_plug in Hz. by apply zin_plug.
      - split; [apply kept_refl|]. by apply (same_parity_mono _ _ _ _ Hsame). }
  destruct Ho as (Q' & d1 & u1 & d' & u' & t' & Heq & n' & m & b & Hn' & Ht' & Hu' & Hx' & Hm & Hu1 & Hg & Hgb & HQ' & Hnot).
  assert (zin (wl s1) (wroot s1) Q' (mk d1 u1 z (mk d' u' x' t'))) as Hz1.
  { apply zin_plug. rewrite <- Heq. by apply zin_plug in Hz. }
  apply (same_parity_mono _ _ _ _ Hsame) in Hsub as Hsp.
  rewrite Heq in Hsp |- *. clear Hsteps Q d u x t n Hz Hx Hn Hu Ht HQ Heq Hsame Hsub.
  rename Q' into Q, d' into d, u' into u, x' into x, t' into t, n' into n.
  pose proof (zin_cnt _ _ _ _ _ Hz1) as Hc. do 2 setoid_rewrite cnt_mk in Hc.
  assert (x <> nil) as Hxn by dj. assert (z <> nil) as Hzn by dj.
  assert (sibling_of nil s1 x = Ok (ptr u1)) as ->.
  { pose proof (sibling_Ok s1 d1 z u1 Q (mk d u x t)) as Hs. rewrite ptr_mk in Hs.
    apply Hs; [by apply zin_up|apply mk_not_E]. }
  bind. erewrite even_parent_Ok; [|done|exact Hx'|exact Hm|by apply ok_ptr]. bind.
  rewrite (gap_eqb m b) by done.
  assert (Bool.eqb (Z.odd (n + 1)) (Z.odd m) = bool_decide (m = n + 1)%Z) as ->.
  { destruct Hg as [Hg|Hg].
    - rewrite bool_decide_eq_true_2 by lia. by rewrite (near_eqb (n + 1) m 0) by lia.
    - rewrite bool_decide_eq_false_2 by lia. by rewrite (near_eqb (n + 1) m (-1)) by lia. }
  assert (ok P (mk d u x t) (n + 1)) as Hmk.
  { apply ok_mk. split_and!; [done| |].
    - intros -> ->. cbn in Ht'. lia.
    - exists (n - 1)%Z, n. split_and!; try done; [right|left]; lia. }
  destruct (bool_decide_reflect (m = n + 1)%Z) as [-> |Hne]; cbn [andb negb].
  2:{ eexists _, _. split; [done|]. split_and!; [|done|].
      - apply (wavl_ok_plug s1 Q _ m); try done. apply ok_mk. split_and!; [done| |].
        + intros _ Hf. by apply mk_not_E in Hf.
        + exists b, (n + 1)%Z. split_and!; try done. left. destruct Hg; lia.
      - split; [apply kept_refl|done]. }
  assert (n + 1 - b = 2)%Z as Hb2 by (destruct Hgb; [exfalso; apply Hnot; lia|done]).
  rewrite bool_decide_eq_true_2 by done. cbn [negb].
  rewrite (proj2 (Nat.eqb_neq _ _)) by done. cbn [negb oassert]. bind.
  erewrite even_child_Ok; [|done|exact Hm|exact Hx']. rewrite eqb_reflx. bind. cbn [oassert]. bind.
  pose proof Hz1 as (_ & Hr & _). apply rep_mk in Hr as (Hzu & Hzx & Hzp & _ & Hru & Hrx). rewrite ptr_mk in Hzx.
  assert (exists r, br (wl s1) true !! z = Some r /\ (r =? x) = d1) as (r & Hrz & Hd).
  { destruct d1; [exists x; by rewrite Nat.eqb_refl|]. exists (ptr u1). split; [done|]. apply Nat.eqb_neq.
    pose proof (cnt_ptr nil u1) as Hcu. set (pu := ptr u1) in *. apply not_eq_sym. dj. }
  rewrite (child_Ok _ _ _ _ Hrz). bind. rewrite Hd.
  (* inner and outer subtree of x *)
  assert (exists inner outer, mk d u x t = mk d1 inner x outer /\
    ((inner = u /\ outer = t) \/ (inner = t /\ outer = u))) as (inner & outer & Hio & Hcase).
  { destruct d, d1; eauto 6. }
  rewrite Hio in *. apply rep_mk in Hrx as (Hxi & Hxo & _ & _ & Hri & Hro).
  rewrite (child_Ok _ _ _ _ Hxi). bind.
  assert (forall w, cnt w (nodes inner) + cnt w (nodes outer) = cnt w (nodes u) + cnt w (nodes t)) as Hcio.
  { intros w. destruct Hcase as [[-> ->]|[-> ->]]; lia. }
  assert (forall w, eqn w nil + cnt w (znodes Q) +
       (eqn w z + cnt w (nodes u1) + (eqn w x + cnt w (nodes inner) + cnt w (nodes outer))) <= 1) as Hc'.
  { intros w. specialize (Hc w). specialize (Hcio w). lia. }
  clear Hc. clear Hcio.
  destruct Hcase as [[-> ->]|[-> ->]].
  - (* the inner one is the lower *)
    assert ((if ptr u =? nil then Ok true else even_child nil s1 z (ptr u)) = Ok true) as ->.
    { destruct (ptr u =? nil); [done|].
      erewrite even_child_Ok; [|done|exact Hm|by apply ok_ptr]. f_equal. apply (near_eqb _ _ 2). lia. }
    bind.
    assert (exists h r0, rotate nil s1 z x (ptr u) (negb d1) = Ok (Wavl h P r0) /\
       zin h r0 Q (mk d1 (mk d1 u1 z u) x t) /\
       kept (nil :: znodes Q ++ nodes (mk d1 (mk d1 u1 z u) x t)) (wl s1) h) as (h & r0 & -> & Hz2 & Hk).
    { destruct (rotate_Ok nil s1 Q (negb d1) t x u z u1) as (h & r0 & Hrun & Hz2 & Hk).
      { rewrite negb_involutive. replace (mk (negb d1) t x u) with (mk d1 u x t) by (by destruct d1). done. }
      exists h, r0. split; [done|].
      replace (mk d1 (mk d1 u1 z u) x t) with (mk (negb d1) t x (mk (negb d1) u z u1)) by (by destruct d1). done. }
    bind. unfold demote. erewrite promote_Ok; [|done|exact Hm]. cbn [with_parity wl wroot wp].
    rewrite <- odd_pred. replace (n + 1 - 1)%Z with n by lia.
    eexists _, _. split; [done|].
    assert (nodes (plug Q (mk d1 (mk d1 u1 z u) x t)) = nodes (plug Q (mk d1 u1 z (mk d1 u x t)))) as Hnodes.
    { apply plug_nodes. apply (ord_inj d1). rewrite !nodes_mk. by rewrite <- app_assoc. }
    split_and!; [|exact Hnodes|].
    + apply (wavl_ok_plug _ Q _ (n + 1)); [done| | |].
      * cbn [wp wl with_parity]. by lookp.
      * cbn [wp wl with_parity]. by okp.
      * cbn [wp wl with_parity]. apply ok_mk. split_and!.
        -- by lookp.
        -- intros Hf. by apply mk_not_E in Hf.
        -- exists n, n. split_and!; [|by okp|left; lia|left; lia].
           apply ok_mk. split_and!; [by lookp| |].
           ++ intros -> ->. cbn in Hu'. lia.
           ++ exists b, (n - 1)%Z. split_and!; [by okp|by okp|left; lia|left; lia].
    + split.
      * cbn [wp wl with_parity]. apply (kept_mono _ _ _ _ Hk). intros w. rewrite !elem_of_cons, elem_of_app, elem_of_plug. tauto.
      * cbn [wp wl with_parity]. rewrite Hnodes. apply same_parity_insert; [done|]. apply elem_of_plug. right. apply elem_of_mk. by left.
  - (* the inner one is the higher *)
    assert (t <> E) as Htne. { intros ->. cbn in Ht'. lia. }
    destruct (mk_mk d1 t Htne) as (C & y & B & ->).
    rewrite ptr_mk. pose proof Hri as Hri'. apply rep_mk in Hri' as (_ & _ & _ & Hyn & _).
    rewrite (proj2 (Nat.eqb_neq _ _)) by done.
    apply ok_mk in Ht' as (Hy & Hleaf & i & j & HC & HB & Hgi & Hgj).
    assert (Bool.eqb (Z.odd (n + 1)) (Z.odd n) = false) as Hne1 by (apply (near_eqb _ _ 1); lia).
    erewrite even_child_Ok; [|done|exact Hm|exact Hy]. rewrite Hne1. bind.
    erewrite odd_child_Ok; [|done|exact Hm|exact Hy]. rewrite Hne1. bind. cbn [negb oassert]. bind.
    destruct (double_rotate_Ok nil s1 Q d1 u x B y C z u1 Hz1) as (h & r0 & -> & Hz2 & Hk). bind.
    setoid_rewrite cnt_mk in Hc'.
    rewrite (promote_Ok _ y (Z.odd n)) by done. bind. cbn [with_parity wl wroot wp].
    unfold demote. erewrite promote_Ok; [|done|cbn [wp with_parity]; by lookp]. bind. cbn [with_parity wl wroot wp].
    erewrite promote_Ok; [|done|cbn [wp with_parity]; by lookp]. cbn [with_parity wl wroot wp].
    rewrite <- odd_succ, <- odd_pred. replace (n + 1 - 1)%Z with n by lia.
    eexists _, _. split; [done|].
    assert (nodes (plug Q (mk d1 (mk d1 u1 z C) y (mk d1 B x u))) =
      nodes (plug Q (mk d1 u1 z (mk d1 (mk d1 C y B) x u)))) as Hnodes.
    { apply plug_nodes. apply (ord_inj d1). rewrite !nodes_mk. by rewrite <- !app_assoc. }
    split_and!; [|exact Hnodes|].
    + apply (wavl_ok_plug _ Q _ (n + 1)); [done| | |].
      * cbn [wp wl with_parity]. by lookp.
      * cbn [wp wl with_parity]. by okp.
      * cbn [wp wl with_parity]. apply ok_mk. split_and!.
        -- by lookp.
        -- intros Hf. by apply mk_not_E in Hf.
        -- exists n, n. split_and!; [| |left; lia|left; lia].
           ++ apply ok_mk. split_and!; [by lookp| |].
              ** intros -> ->. cbn in Hu1. lia.
              ** exists b, i. split_and!; [by okp|by okp|left; lia|done].
           ++ apply ok_mk. split_and!; [by lookp| |].
              ** intros -> ->. cbn in Hu'. lia.
              ** exists j, (n - 1)%Z. split_and!; [by okp|by okp|done|left; lia].
    + split.
      * cbn [wp wl with_parity]. apply (kept_mono _ _ _ _ Hk). intros w. rewrite !elem_of_cons, elem_of_app, elem_of_plug. tauto.
      * cbn [wp wl with_parity]. rewrite Hnodes.
        repeat (apply same_parity_insert; [|apply elem_of_plug; right; rewrite !elem_of_mk; tauto]). done.
Qed.

(** ** Looking at a node *)
Definition isE (t : tree) : bool := match t with E => true | T _ _ _ => false end.
Lemma ptr_eqb h q t : rep h q t -> (ptr t =? nil) = isE t.
Proof. destruct t; cbn; [by rewrite Nat.eqb_refl|]. intros (_ & _ & _ & ? & _). by apply Nat.eqb_neq. Qed.
Lemma isE_spec t : reflect (t = E) (isE t).
Proof. destruct t; by constructor. Qed.

Lemma look_leaf s q d a x b : rep (wl s) q (mk d a x b) -> is_leaf nil s x = Ok (isE a && isE b).
Proof.
  intros (Ha & Hb & _ & _ & Hra & Hrb)%rep_mk. unfold is_leaf.
  rewrite <- (ptr_eqb _ _ _ Hra), <- (ptr_eqb _ _ _ Hrb).
  destruct d; cbn [negb] in *.
  - by rewrite (child_Ok _ _ _ _ Ha), (child_Ok _ _ _ _ Hb).
  - rewrite (child_Ok _ _ _ _ Ha), (child_Ok _ _ _ _ Hb). bind. by rewrite andb_comm.
Qed.
Lemma look_11 s q d a x b m i j :
  rep (wl s) q (mk d a x b) -> wp s !! nil = Some true -> wp s !! x = Some (Z.odd m) ->
  ok (wp s) a i -> ok (wp s) b j -> gap m i -> gap m j ->
  (l ← child s false x; r ← child s true x; is_11_parent nil s l x r) =
  Ok (bool_decide (m - i = 1)%Z && bool_decide (m - j = 1)%Z).
Proof.
  intros (Ha & Hb & _ & Hx & Hra & Hrb)%rep_mk Hn Hm Hi%(ok_ptr _ _ _ Hn) Hj%(ok_ptr _ _ _ Hn) Hgi Hgj.
  assert (forall i, gap m i -> negb (Bool.eqb (Z.odd m) (Z.odd i)) = bool_decide (m - i = 1)%Z) as Hb1.
  { intros k Hg. rewrite gap_eqb by done. destruct Hg as [Hg|Hg]; rewrite Hg; done. }
  destruct d; cbn [negb] in *; rewrite (child_Ok _ _ _ _ Ha), (child_Ok _ _ _ _ Hb); bind.
  - erewrite is_11_parent_Ok by done. by rewrite (eqb_sym (Z.odd i)), !Hb1.
  - erewrite is_11_parent_Ok by done. rewrite (eqb_sym (Z.odd j)), !Hb1 by done. by rewrite andb_comm.
Qed.
Lemma look_22 s q d a x b m i j :
  rep (wl s) q (mk d a x b) -> wp s !! nil = Some true -> wp s !! x = Some (Z.odd m) ->
  ok (wp s) a i -> ok (wp s) b j -> gap m i -> gap m j ->
  (l ← child s false x; r ← child s true x; even_parent nil s l x r) =
  Ok (bool_decide (m - i = 2)%Z && bool_decide (m - j = 2)%Z).
Proof.
  intros (Ha & Hb & _ & Hx & Hra & Hrb)%rep_mk Hn Hm Hi%(ok_ptr _ _ _ Hn) Hj%(ok_ptr _ _ _ Hn) Hgi Hgj.
  destruct d; cbn [negb] in *; rewrite (child_Ok _ _ _ _ Ha), (child_Ok _ _ _ _ Hb); bind.
  - erewrite even_parent_Ok by done. by rewrite (eqb_sym (Z.odd i)), !gap_eqb.
  - erewrite even_parent_Ok by done. rewrite (eqb_sym (Z.odd j)), !gap_eqb by done. by rewrite andb_comm.
Qed.
(** Which child [x] is. *)
Lemma look_dir s q d u z t :
  rep (wl s) q (mk d u z t) -> NoDup (nodes (mk d u z t)) -> u <> E ->
  exists l r, child s false z = Ok l /\ child s true z = Ok r /\ (l =? ptr t) = negb d /\ (r =? ptr t) = d.
Proof.
  intros (Hu & Ht & _ & _ & Hru & Hrt)%rep_mk Hnd Hne.
  assert (ptr u =? ptr t = false) as Hb.
  { apply Nat.eqb_neq. intros Heq. apply (ptr_in nil) in Hne as Hin. 
    assert (ptr u <> nil) as Hun by (intros Hf; rewrite Hf in Hin; by apply (rep_nil _ _ _ _ Hru)).
    destruct t as [|l x r]; [done|]. rewrite Heq in Hin. cbn in Hin.
    rewrite nodes_mk_perm in Hnd. revert Hnd. rewrite NoDup_cons, NoDup_app. intros (_ & _ & Hd & _).
    apply (Hd x Hin). cbn. rewrite elem_of_app, elem_of_cons. tauto. }
  destruct d; cbn [negb] in *.
  - exists (ptr u), (ptr t). rewrite (child_Ok _ _ _ _ Hu), (child_Ok _ _ _ _ Ht), Nat.eqb_refl. done.
  - exists (ptr t), (ptr u). rewrite (child_Ok _ _ _ _ Hu), (child_Ok _ _ _ _ Ht), Nat.eqb_refl. done.
Qed.
Lemma look_side s q d u z t : rep (wl s) q (mk d u z t) -> child s d z = Ok (ptr t) /\ child s (negb d) z = Ok (ptr u).
Proof. intros (Hu & Ht & _)%rep_mk. split; by apply child_Ok. Qed.

(** ** Removal *)
Lemma rotate_3_Ok s Q d W y V z t m i j :
  zin (wl s) (wroot s) Q (mk d (mk d W y V) z t) -> wp s !! nil = Some true ->
  wp s !! z = Some (Z.odd m) -> ok (wp s) t (m - 3) -> zok (wp s) Q m ->
  wp s !! y = Some (Z.odd (m - 1)) -> ok (wp s) W i -> ok (wp s) V j -> gap (m - 1) i -> gap (m - 1) j ->
  ~ (m - 1 - i = 2 /\ m - 1 - j = 2)%Z ->
  exists s' t', rotate_3_child nil s z (ptr t) y = Ok s' /\ wavl_ok s' t' /\
    nodes t' = nodes (plug Q (mk d (mk d W y V) z t)) /\ local (nodes t') s s'.
Proof.
  intros Hz Hnil Hm Ht HQ Hy HW HV Hgi Hgj Hnot.
  pose proof (zin_cnt _ _ _ _ _ Hz) as Hc. do 2 setoid_rewrite cnt_mk in Hc.
  assert (y <> nil) as Hyn by dj. assert (z <> nil) as Hzn by dj.
  pose proof (ok_ge _ _ _ Ht) as Hge.
  assert (exists q, rep (wl s) q (mk d (mk d W y V) z t)) as (q & Hr) by (destruct Hz as (_ & ? & _); eauto).
  unfold rotate_3_child.
  erewrite odd_child_Ok; [|done|exact Hm|by apply ok_ptr]. bind.
  rewrite (near_eqb m (m - 3) 3) by lia. cbn [Z.even negb oassert]. bind.
  destruct (look_dir s q d (mk d W y V) z t) as (l & r & _ & -> & _ & Hd); [done| |apply mk_not_E|].
  { apply zin_NoDup in Hz. apply NoDup_cons in Hz as [_ Hz]. by apply NoDup_app in Hz as (_ & _ & ?). }
  bind. rewrite Hd. clear l r Hd.
  apply rep_mk in Hr as (Hzy & Hzt & _ & _ & Hry & Hrt). pose proof Hry as Hry'.
  apply look_side in Hry as [HyV HyW]. rewrite HyW. bind.
  erewrite odd_child_Ok; [|done|exact Hy|by apply ok_ptr]. bind. rewrite gap_eqb by done.
  destruct (bool_decide_reflect (m - 1 - i = 2)%Z) as [Hi|Hi]; cbn [negb].
  - assert (m - 1 - j = 1)%Z as Hj by (destruct Hgj; lia).
    rewrite HyV. bind.
    erewrite even_child_Ok; [|done|exact Hy|by apply ok_ptr]. bind. rewrite gap_eqb by done.
    rewrite bool_decide_eq_true_2 by done. cbn [oassert]. bind.
    erewrite odd_child_Ok; [|done|exact Hy|by apply ok_ptr]. bind. rewrite gap_eqb by done.
    rewrite bool_decide_eq_false_2 by lia. cbn [negb oassert]. bind.
    assert (V <> E) as HVne. { intros ->. cbn in HV. lia. }
    destruct (mk_mk (negb d) V HVne) as (C & v & B & ->). rewrite ptr_mk. setoid_rewrite cnt_mk in Hc.
    assert (v <> nil) as Hvn by dj.
    apply ok_mk in HV as (Hv & HleafV & c & b & HC & HB & Hgc & Hgb).
    assert (mk d (mk d W y (mk (negb d) C v B)) z t =
      mk (negb d) t z (mk (negb d) (mk (negb d) C v B) y W)) as Heq by (by destruct d).
    rewrite Heq in *. clear Heq.
    destruct (double_rotate_Ok nil s Q (negb d) W y B v C z t Hz) as (h & r0 & -> & Hz2 & Hk). bind.
    unfold demote. erewrite promote_Ok; [|done|exact Hy]. bind. unfold with_parity. cbn [wl wroot wp].
    rewrite <- odd_pred. replace (m - 1 - 1)%Z with (m - 2)%Z by lia.
    replace j with (m - 2)%Z in * by lia. replace i with (m - 3)%Z in * by lia. clear Hi Hj Hnot i j.
    set (e := negb d) in *. 
    set (s2 := Wavl _ _ _).
    assert (zin (wl s2) (wroot s2) Q (mk e (mk e t z C) v (mk e B y W))) as Hz3 by exact Hz2.
    assert (nodes (plug Q (mk e (mk e t z C) v (mk e B y W))) =
       nodes (plug Q (mk e t z (mk e (mk e C v B) y W)))) as Hnodes.
    { apply plug_nodes. apply (ord_inj e). rewrite !nodes_mk. by rewrite <- !app_assoc. }
    assert (exists q, rep (wl s2) q (mk e t z C)) as (q1 & Hr1).
    { destruct Hz3 as (_ & Hr & _). apply rep_mk in Hr as (_ & _ & _ & _ & ? & _). eauto. }
    assert (exists q, rep (wl s2) q (mk e B y W)) as (q2 & Hr2).
    { destruct Hz3 as (_ & Hr & _). apply rep_mk in Hr as (_ & _ & _ & _ & _ & ?). eauto. }
    assert (Z.odd m = Z.odd (m - 2)) as Hm2.
    { apply eqb_prop, (near_eqb _ _ 2). lia. }
    assert (wp s2 !! nil = Some true) as Hnil2 by (unfold s2; cbn [wp]; by lookp).
    assert (wp s2 !! z = Some (Z.odd (m - 2))) as Hz2' by (unfold s2; cbn [wp]; lookp; by rewrite <- Hm2).
    assert (wp s2 !! y = Some (Z.odd (m - 2))) as Hy2 by (unfold s2; cbn [wp]; by lookp).
    assert (wp s2 !! v = Some (Z.odd m)) as Hv2 by (unfold s2; cbn [wp]; lookp; by rewrite Hm2).
    assert (ok (wp s2) t (m - 3)) as Ht2 by (unfold s2; cbn [wp]; by okp).
    assert (ok (wp s2) C c) as HC2 by (unfold s2; cbn [wp]; by okp).
    assert (ok (wp s2) B b) as HB2 by (unfold s2; cbn [wp]; by okp).
    assert (ok (wp s2) W (m - 3)) as HW2 by (unfold s2; cbn [wp]; by okp).
    assert (zok (wp s2) Q m) as HQ2 by (unfold s2; cbn [wp]; by okp).
    assert (local (nodes (plug Q (mk e (mk e t z C) v (mk e B y W)))) s s2) as Hloc.
    { split.
      - apply (kept_mono _ _ _ _ Hk). intros w. rewrite !elem_of_cons, elem_of_app, elem_of_plug. tauto.
      - apply same_parity_insert; [done|]. apply elem_of_plug. right. rewrite !elem_of_mk. tauto. }
    clearbody s2. clear Hz Hk HW HC HB Ht HQ Hy Hm Hv Hz2 Hnil h r0.
    assert (t = E -> C = E -> m = 2)%Z as Htz. { intros -> ->. cbn in Ht2. lia. }
    assert (W = E -> B = E -> m = 2)%Z as Htw. { intros -> ->. cbn in HW2. lia. }
    assert (ok (wp s2) (mk e t z C) (m - 2)) as Hokz.
    { apply ok_mk. split_and!; [done| |exists (m - 3)%Z, c; split_and!; try done; left; lia].
      intros He1 He2. rewrite Htz by done. lia. }
    assert (ok (wp s2) (mk e B y W) (m - 2)) as Hoky.
    { apply ok_mk. split_and!; [done| |exists b, (m - 3)%Z; split_and!; try done; left; lia].
      intros He1 He2. rewrite Htw by done. lia. }
    rewrite (look_leaf _ _ _ _ _ _ Hr1). bind.
    assert ((if isE t && isE C then Ok false
       else a ← child s2 false z; b0 ← child s2 true z; is_11_parent nil s2 a z b0) =
       Ok (negb (isE t && isE C) && bool_decide (m - 2 - (m - 3) = 1)%Z && bool_decide (m - 2 - c = 1)%Z)) as ->.
    { destruct (isE t && isE C); [done|]. rewrite (look_11 _ _ _ _ _ _ (m - 2) (m - 3) c Hr1); try done. left; lia. }
    bind. rewrite (bool_decide_eq_true_2 (m - 2 - (m - 3) = 1)%Z) by lia. rewrite andb_true_r.
    destruct (negb (isE t && isE C) && _) eqn:Ez.
    { apply andb_true_iff in Ez as [Ez1 Ez2%bool_decide_eq_true_1]. 
      erewrite promote_Ok; [|done|exact Hz2']. rewrite <- odd_succ. replace (m - 2 + 1)%Z with (m - 1)%Z by lia.
      eexists _, _. split; [done|]. split_and!; [|exact Hnodes|].
      - apply (wavl_ok_plug _ Q _ m); [done| | |]; cbn [wp wl with_parity].
        + by lookp.
        + by okp.
        + apply ok_mk. split_and!; [by lookp|intros Hf; by apply mk_not_E in Hf|].
          exists (m - 1)%Z, (m - 2)%Z. split_and!; [|apply ok_insert; [intros Hx%cnt_in; rewrite !cnt_mk in Hx; cnt_at z|done]|left; lia|right; lia].
          apply ok_mk. split_and!; [by lookp| |].
          * intros -> ->. done.
          * exists (m - 3)%Z, c. split_and!; [by okp|by okp|right; lia|right; lia].
      - destruct Hloc as [? ?]. split; [done|]. apply same_parity_insert; [done|].
        apply elem_of_plug. right. rewrite !elem_of_mk. tauto. }
    clear Ez. rewrite (look_leaf _ _ _ _ _ _ Hr2). bind.
    assert ((if isE B && isE W then Ok false
       else a ← child s2 false y; b0 ← child s2 true y; is_11_parent nil s2 a y b0) =
       Ok (negb (isE B && isE W) && (bool_decide (m - 2 - b = 1)%Z && bool_decide (m - 2 - (m - 3) = 1)%Z))) as ->.
    { destruct (isE B && isE W); [done|]. rewrite (look_11 _ _ _ _ _ _ (m - 2) b (m - 3) Hr2); try done. left; lia. }
    bind. rewrite (bool_decide_eq_true_2 (m - 2 - (m - 3) = 1)%Z) by lia. rewrite andb_true_r.
    destruct (negb (isE B && isE W) && _) eqn:Ez.
    { apply andb_true_iff in Ez as [Ez1 Ez2%bool_decide_eq_true_1]. 
      erewrite promote_Ok; [|done|exact Hy2]. rewrite <- odd_succ. replace (m - 2 + 1)%Z with (m - 1)%Z by lia.
      eexists _, _. split; [done|]. split_and!; [|exact Hnodes|].
      - apply (wavl_ok_plug _ Q _ m); [done| | |]; cbn [wp wl with_parity].
        + by lookp.
        + by okp.
        + apply ok_mk. split_and!; [by lookp|intros Hf; by apply mk_not_E in Hf|].
          exists (m - 2)%Z, (m - 1)%Z. split_and!; [apply ok_insert; [intros Hx%cnt_in; rewrite !cnt_mk in Hx; cnt_at y|done]| |right; lia|left; lia].
          apply ok_mk. split_and!; [by lookp| |].
          * intros -> ->. done.
          * exists b, (m - 3)%Z. split_and!; [by okp|by okp|right; lia|right; lia].
      - destruct Hloc as [? ?]. split; [done|]. apply same_parity_insert; [done|].
        apply elem_of_plug. right. rewrite !elem_of_mk. tauto. }
    clear Ez. eexists _, _. split; [done|]. split_and!; [|exact Hnodes|done].
    apply (wavl_ok_plug _ Q _ m); [done..|].
    apply ok_mk. split_and!; [done|intros Hf; by apply mk_not_E in Hf|].
    exists (m - 2)%Z, (m - 2)%Z. split_and!; try done; right; lia.
  - assert (m - 1 - i = 1)%Z as Hi1 by (destruct Hgi; lia).
    rewrite HyV. bind.
    destruct (rotate_Ok nil s Q d W y V z t) as (h & r0 & -> & Hz2 & Hk).
    { replace (mk (negb d) t z (mk d W y V)) with (mk d (mk d W y V) z t); [done|by destruct d]. }
    bind. erewrite promote_Ok; [|done|exact Hy]. bind. unfold with_parity. cbn [wl wroot wp].
    unfold demote. erewrite promote_Ok; [|done|cbn [wp with_parity]; by lookp]. bind. unfold with_parity. cbn [wl wroot wp].
    rewrite <- (odd_succ (m - 1)), <- (odd_pred m). replace (m - 1 + 1)%Z with m by lia.
    set (s2 := Wavl _ _ _).
    assert (zin (wl s2) (wroot s2) Q (mk d W y (mk d V z t))) as Hz3 by exact Hz2.
    assert (nodes (plug Q (mk d W y (mk d V z t))) = nodes (plug Q (mk d (mk d W y V) z t))) as Hnodes.
    { apply plug_nodes. apply (ord_inj d). rewrite !nodes_mk. by rewrite <- !app_assoc. }
    assert (exists q, rep (wl s2) q (mk d V z t)) as (q1 & Hr1).
    { destruct Hz3 as (_ & Hr & _). apply rep_mk in Hr as (_ & _ & _ & _ & _ & ?). eauto. }
    assert (local (nodes (plug Q (mk d W y (mk d V z t)))) s s2) as Hloc.
    { split.
      - apply (kept_mono _ _ _ _ Hk). intros w. rewrite !elem_of_cons, elem_of_app, elem_of_plug. tauto.
      - repeat (apply same_parity_insert; [|apply elem_of_plug; right; rewrite !elem_of_mk; tauto]). done. }
    assert (wp s2 !! nil = Some true) as Hnil2 by (unfold s2; cbn [wp]; by lookp).
    assert (wp s2 !! z = Some (Z.odd (m - 1))) as Hz2' by (unfold s2; cbn [wp]; by lookp).
    assert (wp s2 !! y = Some (Z.odd m)) as Hy2 by (unfold s2; cbn [wp]; by lookp).
    assert (ok (wp s2) t (m - 3)) as Ht2 by (unfold s2; cbn [wp]; by okp).
    assert (ok (wp s2) W i) as HW2 by (unfold s2; cbn [wp]; by okp).
    assert (ok (wp s2) V j) as HV2 by (unfold s2; cbn [wp]; by okp).
    assert (zok (wp s2) Q m) as HQ2 by (unfold s2; cbn [wp]; by okp).
    clearbody s2. clear Hz Hk HW HV Ht HQ Hy Hm Hz2 Hnil h r0.
    rewrite (look_leaf _ _ _ _ _ _ Hr1). bind.
    destruct (isE_spec V) as [-> |HVne]; [destruct (isE_spec t) as [-> |Htne]|]; cbn [andb].
    + cbn in Ht2, HV2. assert (m = 2)%Z as -> by lia. assert (i = 0)%Z as -> by lia. subst j. 
      erewrite promote_Ok; [|done|exact Hz2']. rewrite <- odd_pred. change (2 - 1 - 1)%Z with 0%Z.
      eexists _, _. split; [done|]. split_and!; [|exact Hnodes|].
      * apply (wavl_ok_plug _ Q _ 2); [done| | |]; cbn [wp wl with_parity].
        -- by lookp.
        -- by okp.
        -- apply ok_mk. split_and!; [by lookp|intros ? Hf; by apply mk_not_E in Hf|].
           exists 0%Z, 0%Z. split_and!; [by okp| |right; lia|right; lia].
           apply ok_mk. split_and!; [by lookp|done|]. exists (-1)%Z, (-1)%Z. split_and!; [done|done|left; lia|left; lia].
      * destruct Hloc as [? ?]. split; [done|]. apply same_parity_insert; [done|].
        apply elem_of_plug. right. rewrite !elem_of_mk. tauto.
    + eexists _, _. split; [done|]. split_and!; [|exact Hnodes|done].
      apply (wavl_ok_plug _ Q _ m); [done..|].
      apply ok_mk. split_and!; [done|intros ? Hf; by apply mk_not_E in Hf|].
      exists i, (m - 1)%Z. split_and!; [done| |right; lia|left; lia].
      apply ok_mk. split_and!; [done|done|]. exists j, (m - 3)%Z. split_and!; [done|done|done|right; lia].
    + eexists _, _. split; [done|]. split_and!; [|exact Hnodes|done].
      apply (wavl_ok_plug _ Q _ m); [done..|].
      apply ok_mk. split_and!; [done|intros ? Hf; by apply mk_not_E in Hf|].
      exists i, (m - 1)%Z. split_and!; [done| |right; lia|left; lia].
      apply ok_mk. split_and!; [done|done|]. exists j, (m - 3)%Z. split_and!; [done|done|done|right; lia].
Qed.
End fixups.
