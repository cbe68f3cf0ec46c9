(** The cost of splaying, spread over a sequence of calls. The potential of a tree
    is the product of the weights of all its subtrees; a splay that runs its loop
    [n] times multiplies it by at most the cube of the size over [2 ^ n]. *)
From Coq Require Import Arith.
From stdpp Require Import base numbers option list.
From Verif Require Import Common TreeModel TreeProofs CostModel.

Fixpoint weight (t : tree) : nat :=
  match t with E => 1 | T l _ r => weight l + weight r end.
Fixpoint pot (t : tree) : nat :=
  match t with E => 1 | T l _ r => (weight l + weight r) * (pot l * pot r) end.

Lemma weight_nodes t : weight t = S (length (nodes t)).
Proof. induction t as [|l IHl x r IHr]; [done|]. cbn. rewrite app_length. cbn. lia. Qed.
Lemma weight_pos t : 1 <= weight t.
Proof. rewrite weight_nodes. lia. Qed.
Lemma pot_pos t : 1 <= pot t.
Proof.
  induction t as [|l IHl x r IHr]; [done|]. cbn. pose proof (weight_pos l). 
  assert (1 <= pot l * pot r) by nia. nia.
Qed.
Lemma weight_mk d a x b : weight (mk d a x b) = weight a + weight b.
Proof. destruct d; cbn; lia. Qed.
Lemma pot_mk d a x b : pot (mk d a x b) = (weight a + weight b) * (pot a * pot b).
Proof. destruct d; cbn; [done|]. by rewrite (Nat.add_comm (weight b)), (Nat.mul_comm (pot b)). Qed.

Lemma square_sum p q t : p + q <= t -> 4 * (p * q) <= t * t.
Proof.
  intros H. transitivity ((p + q) * (p + q)); [|by apply Nat.mul_le_mono].
  destruct (Nat.le_ge_cases p q) as [Hpq|Hpq].
  - replace q with (p + (q - p)) by lia. generalize (q - p). intros k. lia.
  - replace p with (q + (p - q)) by lia. generalize (p - q). intros k. lia.
Qed.

(** Products are compared after taking out a common factor. *)
Lemma le_factor c1 c2 P x y : x = c1 * P -> y = c2 * P -> c1 <= c2 -> x <= y.
Proof. intros -> ->. apply Nat.mul_le_mono_r. Qed.
Lemma le_cube v u w : 1 <= w -> v <= u -> v <= u * u * u * w.
Proof.
  intros Hw Hv. destruct u as [|u]; [lia|]. assert (1 <= S u * S u) by lia.
  transitivity (S u * (S u * S u) * 1); [nia|]. transitivity (S u * (S u * S u) * w); [by apply Nat.mul_le_mono_l|].
  lia.
Qed.

Lemma falls_weight g nil t n l x r : falls nil g t n l x r -> weight l + weight r = weight t.
Proof.
  induction 1; try destruct d; rewrite ?weight_mk; cbn [weight] in *; rewrite ?weight_mk; lia.
Qed.

Section cost.
Context (g : nat -> comparison) (nil : nat).

(** A splay, and a splay below a node that has just been passed in direction [d]:
    [A] is the weight of what the node has on its other side. *)
Definition cheap (t : tree) (n : nat) (l r : tree) : Prop :=
  2 ^ n * (pot l * pot r) <= 4 * (weight t * weight t) * pot t.
Definition cheap_below (t : tree) (n : nat) (l r : tree) : Prop :=
  forall d A, g (ptr nil t) <> dirc d ->
    2 * 2 ^ n * (A + weight (if d then l else r)) * (pot l * pot r)
    <= 4 * ((A + weight t) * (A + weight t) * (A + weight t)) * pot t.

Lemma falls_cheap t n l x r : falls nil g t n l x r -> cheap t n l r /\ cheap_below t n l r.
Proof.
  induction 1 as [a x b Hx|d a x Hx|d a x b n l z r Hx Hb Hg Hf [IH1 IH2]|d a x b y Hx Hy|d a x b y c n l z r Hx Hy Hc Hf [IH1 IH2]].
  - pose proof (weight_pos a). pose proof (weight_pos b). split.
    + unfold cheap. cbn [weight pot]. change (2 ^ 1) with 2. set (w := weight a + weight b).
      apply (le_factor 2 (4 * (w * w * w)) (pot a * pot b)); [ring..|].
      pose proof (le_cube 1 w 1). lia.
    + intros d A _. cbn [weight pot]. change (2 ^ 1) with 2. set (w := weight a + weight b).
      apply (le_factor (4 * (A + weight (if d then a else b))) (4 * ((A + w) * (A + w) * (A + w) * w)) (pot a * pot b)); [ring..|].
      apply Nat.mul_le_mono_l, le_cube; [lia|]. destruct d; lia.
  - pose proof (weight_pos a). assert (pot (if d then a else E) * pot (if d then E else a) = pot a) as HP.
    { destruct d; cbn; lia. }
    split.
    + unfold cheap. rewrite HP, weight_mk, pot_mk. change (2 ^ 1) with 2. cbn [weight pot]. set (w := weight a + 1).
      apply (le_factor 2 (4 * (w * w * w)) (pot a)); [ring..|].
      pose proof (le_cube 1 w 1). lia.
    + intros d' A _. rewrite HP, weight_mk, pot_mk. change (2 ^ 1) with 2. cbn [weight pot]. set (w := weight a + 1).
      set (v := weight _). assert (v <= w) by (unfold v, w; destruct d, d'; cbn; lia).
      apply (le_factor (4 * (A + v)) (4 * ((A + w) * (A + w) * (A + w) * w)) (pot a)); [ring..|].
      apply Nat.mul_le_mono_l, le_cube; lia.
  - pose proof (falls_weight _ _ _ _ _ _ _ Hf) as Hw.
    assert (cheap (mk d a x b) (S n) (if d then mk d a x l else l) (if d then r else mk d a x r)) as Hcheap.
    { specialize (IH2 d (weight a) Hg). unfold cheap. rewrite weight_mk, pot_mk, Nat.pow_succ_r'.
      set (w := weight a + weight b) in *.
      apply (Nat.mul_le_mono_r _ _ (pot a)) in IH2.
      transitivity (2 * 2 ^ n * (weight a + weight (if d then l else r)) * (pot l * pot r) * pot a).
      - apply Nat.eq_le_incl. destruct d; rewrite pot_mk; ring.
      - etransitivity; [exact IH2|]. apply Nat.eq_le_incl. ring. }
    split; [done|]. intros d' A Hd'. rewrite ptr_mk, Hx in Hd'.
    assert (d' = negb d) as -> by (destruct d, d'; done).
    rewrite weight_mk, pot_mk, Nat.pow_succ_r'.
    set (p := weight a + weight (if d then l else r)). set (q := A + weight (if d then r else l)).
    set (u := A + (weight a + weight b)).
    assert (4 * (p * q) <= u * u) as Hpq by (apply square_sum; unfold p, q, u; destruct d; lia).
    unfold cheap in IH1.
    transitivity (4 * (p * q) * pot a * (2 ^ n * (pot l * pot r))).
    { apply Nat.eq_le_incl. unfold p, q. destruct d; cbn [negb]; rewrite pot_mk; ring. }
    transitivity (4 * (p * q) * pot a * (4 * (weight b * weight b) * pot b)); [by apply Nat.mul_le_mono_l|].
    apply (le_factor (4 * (4 * (p * q) * (weight b * weight b))) (4 * (u * u * (u * (weight a + weight b)))) (pot a * pot b)); [ring..|].
    apply Nat.mul_le_mono_l, Nat.mul_le_mono; [done|]. apply Nat.mul_le_mono; unfold u; lia.
  - pose proof (weight_pos a). pose proof (weight_pos b).
    assert (pot (if d then mk d a x b else E) * pot (if d then E else mk d a x b) = (weight a + weight b) * (pot a * pot b)) as HP.
    { destruct d; rewrite pot_mk; cbn [pot]; lia. }
    split.
    + unfold cheap. rewrite HP, !weight_mk, !pot_mk, !weight_mk. change (2 ^ 1) with 2. cbn [weight pot].
      set (v := weight b + 1). set (w := weight a + v).
      apply (le_factor (2 * (weight a + weight b)) (4 * (w * w * w * v)) (pot a * pot b)); [ring..|].
      transitivity (4 * (weight a + weight b)); [lia|]. apply Nat.mul_le_mono_l, le_cube; lia.
    + intros d' A _. rewrite HP, !weight_mk, !pot_mk, !weight_mk. change (2 ^ 1) with 2. cbn [weight pot].
      set (v := weight b + 1). set (w := weight a + v).
      set (q := weight (if d' then _ else _)). assert (q <= w) by (unfold q, w, v; destruct d, d'; rewrite ?weight_mk; cbn; lia).
      apply (le_factor (4 * ((A + q) * (weight a + weight b))) (4 * (((A + w) * (A + w) * (A + w) * v) * w)) (pot a * pot b)); [ring..|].
      apply Nat.mul_le_mono_l, Nat.mul_le_mono; [apply le_cube; lia|lia].
  - pose proof (falls_weight _ _ _ _ _ _ _ Hf) as Hw. pose proof (weight_pos a). pose proof (weight_pos b).
    set (s := weight (if d then l else r)).
    assert (s <= weight c) as Hs by (unfold s; destruct d; lia).
    assert (pot (if d then mk d (mk d a x b) y l else l) * pot (if d then r else mk d (mk d a x b) y r)
      = (weight a + weight b + s) * (weight a + weight b) * (pot a * pot b) * (pot l * pot r)) as HP.
    { unfold s. destruct d; rewrite !pot_mk, !weight_mk; ring. }
    unfold cheap in IH1. split.
    + unfold cheap. rewrite HP, !weight_mk, !pot_mk, !weight_mk, Nat.pow_succ_r'.
      set (e := weight a + weight b) in *. set (w := weight a + (weight b + weight c)).
      set (f := weight b + weight c).
      transitivity (2 * ((e + s) * e) * (pot a * pot b) * (2 ^ n * (pot l * pot r))); [apply Nat.eq_le_incl; ring|].
      transitivity (2 * ((e + s) * e) * (pot a * pot b) * (4 * (weight c * weight c) * pot c)); [by apply Nat.mul_le_mono_l|].
      apply (le_factor (4 * (2 * (weight c * e) * ((e + s) * weight c))) (4 * (w * w * (w * f))) (pot a * (pot b * pot c))); [ring..|].
      apply Nat.mul_le_mono_l, Nat.mul_le_mono.
      * assert (4 * (weight c * e) <= w * w) by (apply square_sum; unfold w, e; lia). lia.
      * apply Nat.mul_le_mono; unfold w, f, e; lia.
    + intros d' A Hd'. rewrite ptr_mk, Hx in Hd'. assert (d' = negb d) as -> by (destruct d, d'; done).
      rewrite HP, !weight_mk, !pot_mk, !weight_mk, Nat.pow_succ_r'.
      set (e := weight a + weight b) in *. set (w := weight a + (weight b + weight c)).
      set (f := weight b + weight c).
      set (q := weight (if negb d then _ else _)).
      assert (s + q = weight c) as Hsq by (unfold s, q; destruct d; cbn; lia).
      set (u := A + w).
      transitivity (4 * ((e + s) * (A + q)) * e * (pot a * pot b) * (2 ^ n * (pot l * pot r))); [apply Nat.eq_le_incl; ring|].
      transitivity (4 * ((e + s) * (A + q)) * e * (pot a * pot b) * (4 * (weight c * weight c) * pot c)); [by apply Nat.mul_le_mono_l|].
      apply (le_factor (4 * ((4 * ((e + s) * (A + q))) * e * (weight c * weight c))) (4 * ((u * u) * u * (w * f))) (pot a * (pot b * pot c))); [ring..|].
      apply Nat.mul_le_mono_l. apply Nat.mul_le_mono; [apply Nat.mul_le_mono|].
      * apply square_sum. unfold u, w, e. unfold e in Hsq. lia.
      * unfold u, w, e. lia.
      * apply Nat.mul_le_mono; unfold w, f; lia.
Qed.

(** One splay of a whole tree. *)
Lemma falls_paid t n l x r :
  falls nil g t n l x r -> 2 ^ n * pot (T l x r) <= 4 * weight t ^ 3 * pot t.
Proof.
  intros H. pose proof (falls_weight _ _ _ _ _ _ _ H) as Hw. destruct (falls_cheap _ _ _ _ _ H) as [Hc _].
  unfold cheap in Hc. cbn [pot]. rewrite Hw.
  transitivity (weight t * (2 ^ n * (pot l * pot r))); [apply Nat.eq_le_incl; ring|].
  transitivity (weight t * (4 * (weight t * weight t) * pot t)); [by apply Nat.mul_le_mono_l|].
  apply Nat.eq_le_incl. cbn [Nat.pow]. ring.
Qed.
End cost.

(** ** Budgets *)

(** What one splay, or the linking of one node, may cost in a tree of at most [n]
    nodes, and what [j] of them may: the iterations [turns w] and the rise of the
    potential together. *)
Definition cap (n : nat) : nat := 4 * (n + 1) ^ 3.
Definition spent (n j : nat) (t : tree) (w : work) (t' : tree) : Prop :=
  2 ^ turns w * pot t' <= cap n ^ j * pot t.

Lemma cap_ge n : 4 <= cap n.
Proof. unfold cap. assert (1 <= (n + 1) ^ 3); [|lia]. change 1 with (1 ^ 3) at 1. apply Nat.pow_le_mono_l. lia. Qed.
Lemma cap_pow n j : 1 <= cap n ^ j.
Proof. rewrite <- (Nat.pow_1_l j). apply Nat.pow_le_mono_l. pose proof (cap_ge n). lia. Qed.

Lemma spent_refl n t : spent n 0 t idle t.
Proof. unfold spent. cbn. lia. Qed.
Lemma spent_trans n i j t w t' w' t'' :
  spent n i t w t' -> spent n j t' w' t'' -> spent n (i + j) t (add_work w w') t''.
Proof.
  unfold spent. intros H1 H2. cbn [turns add_work]. rewrite !Nat.pow_add_r.
  transitivity (2 ^ turns w * (cap n ^ j * pot t')).
  - rewrite <- Nat.mul_assoc. by apply Nat.mul_le_mono_l.
  - transitivity (cap n ^ j * (cap n ^ i * pot t)); [|apply Nat.eq_le_incl; ring].
    replace (2 ^ turns w * (cap n ^ j * pot t')) with (cap n ^ j * (2 ^ turns w * pot t')) by ring.
    by apply Nat.mul_le_mono_l.
Qed.
Lemma spent_end n i j t w w' t' : spent n i t w t' -> turns w' = turns w -> i <= j -> spent n j t w' t'.
Proof.
  unfold spent. intros H -> Hij. etrans; [exact H|]. apply Nat.mul_le_mono_r.
  apply Nat.pow_le_mono_r; [|done]. pose proof (cap_ge n). lia.
Qed.

Lemma spent_splay n g nil t i l x r h :
  falls nil g t i l x r -> length (nodes t) <= n -> spent n 1 t (Work i h) (T l x r).
Proof.
  intros Hf Hn. unfold spent. cbn [turns]. rewrite Nat.pow_1_r. etrans; [by eapply falls_paid|].
  apply Nat.mul_le_mono_r. unfold cap. apply Nat.mul_le_mono_l, Nat.pow_le_mono_l. rewrite weight_nodes. lia.
Qed.
(** A new root takes over one side of the tree. *)
Lemma spent_graft n d u x w e :
  length (nodes (mk d u x w)) < n -> spent n 1 (mk d u x w) idle (mk d (mk d u x E) e w).
Proof.
  intros Hn. unfold spent. cbn [turns idle]. rewrite Nat.pow_0_r, Nat.pow_1_r, Nat.mul_1_l.
  rewrite !pot_mk, weight_mk. cbn [weight pot].
  assert (weight u + weight w <= n) as Hw. { rewrite <- (weight_mk d u x w), weight_nodes. lia. }
  pose proof (weight_pos u). pose proof (weight_pos w).
  set (a := weight u) in *. set (b := weight w) in *. set (P := pot u). set (Q := pot w).
  apply (le_factor ((a + 1 + b) * (a + 1)) (cap n * (a + b)) (P * Q)); [ring|ring|].
  unfold cap. cbn [Nat.pow]. rewrite Nat.mul_1_r.
  transitivity ((n + 1) * ((n + 1) * 1)); [apply Nat.mul_le_mono; lia|].
  transitivity ((n + 1) * ((n + 1) * (n + 1))); [apply Nat.mul_le_mono_l, Nat.mul_le_mono_l; lia|].
  transitivity (4 * ((n + 1) * ((n + 1) * (n + 1))) * 1); [lia|]. apply Nat.mul_le_mono_l. lia.
Qed.
Lemma spent_first n e : spent n 1 E idle (T E e E).
Proof. unfold spent. cbn. pose proof (cap_ge n). lia. Qed.
(** Cutting the root off, with the left side splayed, or empty. *)
Lemma spent_cut_splayed n g nil a x b i a' y h :
  falls nil g a i a' y E -> length (nodes (T a x b)) <= n -> spent n 1 (T a x b) (Work i h) (T a' y b).
Proof.
  intros Hf Hn. pose proof (falls_weight _ _ _ _ _ _ _ Hf) as Hw. cbn [weight] in Hw.
  assert (length (nodes a) <= n) as Hna. { cbn in Hn. rewrite app_length in Hn. lia. }
  pose proof (spent_splay n g nil a i a' y E h Hf Hna) as H. unfold spent in *. cbn [turns pot weight] in *.
  rewrite Hw in H. rewrite Nat.mul_1_r in H. pose proof (weight_pos a). pose proof (weight_pos b). pose proof (weight_pos a').
  assert (2 ^ i * pot a' <= cap n ^ 1 * pot a) as H'.
  { transitivity (2 ^ i * (weight a * pot a')); [|done]. apply Nat.mul_le_mono_l. nia. }
  replace (2 ^ i * ((weight a' + weight b) * (pot a' * pot b))) with (2 ^ i * pot a' * ((weight a' + weight b) * pot b)) by ring.
  replace (cap n ^ 1 * ((weight a + weight b) * (pot a * pot b))) with (cap n ^ 1 * pot a * ((weight a + weight b) * pot b)) by ring.
  apply Nat.mul_le_mono; [done|]. apply Nat.mul_le_mono_r. lia.
Qed.
Lemma spent_cut_first n x b : spent n 0 (T E x b) idle b.
Proof.
  unfold spent. cbn [turns idle pot weight]. rewrite !Nat.pow_0_r. pose proof (weight_pos b).
  assert (pot b <= (1 + weight b) * (1 * pot b)); [|lia]. nia.
Qed.
