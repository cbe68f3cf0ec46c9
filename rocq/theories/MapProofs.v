(** Facts about sorted lists of elements shared by the proofs of the ordered maps. *)
From Coq Require Import Sorted.
From stdpp Require Import base numbers option gmap fin_maps list.
From Verif Require Import Common OrderSpec TreeModel TreeProofs MapOps MapSpec.

Lemma app_split_unique {A} (P : A -> Prop) (l1 l2 m1 m2 : list A) :
  (forall z, z ∈ l1 -> P z) -> (forall z, z ∈ m1 -> P z) ->
  (forall z, z ∈ l2 -> ~ P z) -> (forall z, z ∈ m2 -> ~ P z) ->
  l1 ++ l2 = m1 ++ m2 -> l1 = m1 /\ l2 = m2.
Proof.
  revert m1. induction l1 as [|x l1 IH]; intros [|y m1] H1 H2 H3 H4 He; cbn in He; simplify_eq; try done.
  - exfalso. apply (H3 y); [left|]. apply H2. left.
  - exfalso. apply (H4 x); [left|]. apply H1. left.
  - destruct (IH m1) as [-> ->]; try done; intros z Hz; [apply H1|apply H2]; by right.
Qed.

Section facts.
Context {K V : Type} (cmp : K -> K -> comparison) (Hcmp : total_preorder cmp).
Implicit Types (dat : gmap nat (K * V)) (A : view K V).

Notation sorted := (sorted cmp).
Notation side := (side cmp).

Lemma keyed_side A d k x : keyed cmp A (dirc d) k x <-> side (vals A) d k x.
Proof. done. Qed.

Lemma keyed_fun A o o' k x : keyed cmp A o k x -> keyed cmp A o' k x -> o = o'.
Proof. intros (a & Ha & <-) (b & Hb & <-). by simplify_eq. Qed.

Lemma sorted_dat dat l x : sorted dat l -> x ∈ l -> exists kv, dat !! x = Some kv.
Proof. intros [_ H] Hx. rewrite Forall_forall in H. destruct (H x Hx) as [kv ?]. by exists kv. Qed.

(** The split that a search for [k] arrives at. *)
Definition parted A (k : K) (l1 : list nat) (x : nat) (l2 : list nat) : Prop :=
  elems A = l1 ++ x :: l2 /\
  (forall z, z ∈ l1 -> side (vals A) true k z) /\ (forall z, z ∈ l2 -> side (vals A) false k z).

Lemma parted_present A k l1 x l2 m1 y m2 :
  NoDup (elems A) -> parted A k l1 x l2 -> present cmp A k m1 y m2 ->
  y = x /\ m1 = l1 /\ m2 = l2.
Proof.
  intros Hnd (He & H1 & H2) (He' & Hy).
  assert (y ∈ elems A) as Hin by (rewrite He', elem_of_app; right; left).
  rewrite He, elem_of_app, elem_of_cons in Hin. destruct Hin as [Hin|[-> |Hin]].
  - apply H1 in Hin. by pose proof (keyed_fun A Eq Gt k y Hy Hin).
  - split; [done|]. rewrite He in He', Hnd. apply split_unique in He' as [-> ->]; done.
  - apply H2 in Hin. by pose proof (keyed_fun A Eq Lt k y Hy Hin).
Qed.

Lemma parted_absent A k l1 x l2 m1 m2 kv :
  parted A k l1 x l2 -> absent cmp A k m1 m2 -> vals A !! x = Some kv ->
  match cmp k (fst kv) with
  | Eq => False
  | Gt => m1 = l1 ++ [x] /\ m2 = l2
  | Lt => m1 = l1 /\ m2 = x :: l2
  end.
Proof.
  intros (He & H1 & H2) (He' & H3 & H4) Hx. rewrite Forall_forall in H3, H4.
  destruct (cmp k (fst kv)) eqn:E.
  - assert (x ∈ elems A) as Hin by (rewrite He, elem_of_app; right; left).
    assert (keyed cmp A Eq k x) as Hk by (by exists kv).
    rewrite He', elem_of_app in Hin. destruct Hin as [Hin|Hin].
    + by pose proof (keyed_fun A Eq Gt k x Hk (H3 x Hin)).
    + by pose proof (keyed_fun A Eq Lt k x Hk (H4 x Hin)).
  - rewrite He in He'. symmetry in He'. apply (app_split_unique (keyed cmp A Gt k)) in He'; [done|done|done| |].
    + intros z Hz Hz'. by pose proof (keyed_fun A _ _ k z Hz' (H4 z Hz)).
    + intros z [-> |Hz]%elem_of_cons Hz'.
      * destruct Hz' as (w & Hw & Hc). simplify_eq. congruence.
      * by pose proof (keyed_fun A _ _ k z Hz' (H2 z Hz)).
  - rewrite He, (cons_middle x l1 l2), app_assoc in He'. symmetry in He'.
    apply (app_split_unique (keyed cmp A Gt k)) in He'; [done|done| | |].
    + intros z [Hz|Hz%elem_of_list_singleton]%elem_of_app; [by apply H1|]. subst z. by exists kv.
    + intros z Hz Hz'. by pose proof (keyed_fun A _ _ k z Hz' (H4 z Hz)).
    + intros z Hz Hz'. by pose proof (keyed_fun A _ _ k z Hz' (H2 z Hz)).
Qed.

Lemma absent_or_present_excl A k l1 l2 m1 y m2 : absent cmp A k l1 l2 -> present cmp A k m1 y m2 -> False.
Proof.
  intros (He & H1 & H2) (He' & Hy). rewrite Forall_forall in H1, H2.
  assert (y ∈ elems A) as Hin by (rewrite He', elem_of_app; right; left).
  rewrite He, elem_of_app in Hin. destruct Hin as [Hin|Hin].
  - by pose proof (keyed_fun A _ _ k y Hy (H1 y Hin)).
  - by pose proof (keyed_fun A _ _ k y Hy (H2 y Hin)).
Qed.

Lemma absent_not_in A e kv l1 l2 : vals A !! e = Some kv -> absent cmp A (fst kv) l1 l2 -> e ∉ elems A.
Proof.
  intros He Ha Hin. apply elem_of_list_split in Hin as (m1 & m2 & Hm).
  eapply absent_or_present_excl; [done|]. split; [done|]. exists kv. split; [done|by apply cmp_refl].
Qed.

Lemma absent_key A k k' l1 l2 : cmp k k' = Eq -> absent cmp A k l1 l2 -> absent cmp A k' l1 l2.
Proof.
  intros Hk (He & H1 & H2). split; [done|].
  split; [eapply Forall_impl; [exact H1|]|eapply Forall_impl; [exact H2|]];
    intros z (kv & Hz & Hc); exists kv; (split; [done|]); by rewrite <- (cmp_eq_l cmp Hcmp _ _ _ Hk).
Qed.

Lemma cmp_eq_r a b x : cmp a b = Eq -> cmp x a = cmp x b.
Proof.
  intros H. rewrite (tp_opp _ Hcmp a x), (tp_opp _ Hcmp b x).
  by rewrite (cmp_eq_l cmp Hcmp _ _ _ H).
Qed.

Lemma sorted_key dat dat' l :
  sorted dat l ->
  (forall z, z ∈ l -> exists a b, dat !! z = Some a /\ dat' !! z = Some b /\ cmp (fst a) (fst b) = Eq) ->
  sorted dat' l.
Proof.
  intros [Hs Hd] Hk. split.
  - induction Hs as [|x l Hs IH HF]; constructor.
    + apply IH; [by apply Forall_cons in Hd as [_ Hd]|]. intros z Hz. apply Hk. by right.
    + rewrite Forall_forall in HF |- *. intros y Hy.
      destruct (HF y Hy) as (a & b & Ha & Hb & Hab).
      destruct (Hk x) as (a1 & a' & Ha1 & Ha' & Hea); [left|].
      destruct (Hk y) as (b1 & b' & Hb1 & Hb' & Heb); [by right|]. simplify_eq.
      exists a', b'. split_and!; [done..|].
      rewrite <- (cmp_eq_r _ _ _ Heb). by rewrite <- (cmp_eq_l cmp Hcmp _ _ _ Hea).
  - apply Forall_forall. intros z Hz. destruct (Hk z Hz) as (_ & b & _ & ? & _). by exists b.
Qed.

Lemma sorted_same dat dat' l : sorted dat l -> (forall z, z ∈ l -> dat' !! z = dat !! z) -> sorted dat' l.
Proof.
  intros Hs Hk. apply (sorted_key dat); [done|]. intros z Hz.
  destruct (sorted_dat _ _ _ Hs Hz) as [kv Hkv]. exists kv, kv. rewrite Hk by done.
  split_and!; [done..|by apply cmp_refl].
Qed.

Lemma sorted_insert dat l1 l2 e kv :
  sorted dat (l1 ++ l2) -> dat !! e = Some kv ->
  (forall z, z ∈ l1 -> side dat true (fst kv) z) -> (forall z, z ∈ l2 -> side dat false (fst kv) z) ->
  sorted dat (l1 ++ e :: l2).
Proof.
  intros Hs He H1 H2. apply sorted_app in Hs as (Hs1 & Hs2 & H12). apply sorted_app.
  split_and!; [done| |].
  - destruct Hs2 as [Hs2 Hd2]. split.
    + constructor; [done|]. apply Forall_forall. intros z Hz. destruct (H2 z Hz) as (b & Hb & Hc). by exists kv, b.
    + constructor; [by exists kv|done].
  - intros x y Hx [-> |Hy]%elem_of_cons.
    + destruct (H1 x Hx) as (b & Hb & Hc). exists b, kv. split_and!; [done..|]. by apply (cmp_flip cmp Hcmp _ _ Gt).
    + by apply H12.
Qed.

Lemma sorted_remove dat l1 x l2 : sorted dat (l1 ++ x :: l2) -> sorted dat (l1 ++ l2).
Proof.
  rewrite !sorted_app. intros (H1 & [H2 H2'] & H3). split_and!; [done| |].
  - apply StronglySorted_inv in H2 as [? _]. apply Forall_cons in H2' as [_ ?]. done.
  - intros a b Ha Hb. apply H3; [done|by right].
Qed.

Lemma absent_sides A k l1 l2 :
  absent cmp A k l1 l2 ->
  elems A = l1 ++ l2 /\ (forall z, z ∈ l1 -> side (vals A) true k z) /\ (forall z, z ∈ l2 -> side (vals A) false k z).
Proof. intros (He & H1 & H2). rewrite Forall_forall in H1, H2. done. Qed.

(** ** First elements of a range *)

Lemma first_skip (P : nat -> Prop) l1 l2 x :
  (forall z, z ∈ l1 -> ~ P z) -> first P (l1 ++ l2) x <-> first P l2 x.
Proof.
  intros H. induction l1 as [|y l1 IH]; [done|]. cbn [app]. split.
  - intros Hf. inversion Hf; subst; [exfalso; by apply (H x); [left|]|].
    apply IH; [|done]. intros z Hz. apply H. by right.
  - intros Hf. apply first_later; [apply H; left|]. apply IH; [|done]. intros z Hz. apply H. by right.
Qed.

Lemma first_hd (P : nat -> Prop) l x : (forall z, z ∈ l -> P z) -> first P l x -> x = hd 0 l.
Proof. intros H Hf. destruct Hf as [|x l Hx|x l y Hx Hf]; [done|done|]. exfalso. apply Hx, H. left. Qed.
End facts.
