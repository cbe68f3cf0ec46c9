(** How many links the walks over a splay tree follow. *)
From stdpp Require Import base numbers option gmap fin_maps list.
From Verif Require Import Common LinkHeap PathLemmas TreeModel CostModel CostErase TreeProofs.

Local Ltac bind := cbn [mbind outcome_bind obind].

(** Nodes on the way from the root to its last node in direction [d]. *)
Fixpoint edge_length (d : bool) (t : tree) : nat :=
  match t with E => 0 | T l _ r => S (edge_length d (if d then r else l)) end.

(** Links followed from each node of the tree to the next in direction [d], in
    that order, when it takes [c] to climb out of the tree. *)
Fixpoint next_costs (d : bool) (c : nat) (t : tree) : list nat :=
  match t with
  | E => []
  | T l x r =>
    (if d then next_costs d 1 l else next_costs d 1 r) ++
    (match (if d then r else l) with E => c | b => edge_length (negb d) b end) ::
    (if d then next_costs d (S c) r else next_costs d (S c) l)
  end.

Lemma edge_length_mk d a x b : edge_length d (mk d a x b) = S (edge_length d b).
Proof. by destruct d. Qed.
Lemma edge_length_mk_other d a x b : edge_length (negb d) (mk d a x b) = S (edge_length (negb d) a).
Proof. by destruct d. Qed.
Lemma next_costs_mk d c a x b :
  next_costs d c (mk d a x b) =
  next_costs d 1 a ++ (match b with E => c | _ => edge_length (negb d) b end) :: next_costs d (S c) b.
Proof. by destruct d, b. Qed.

Lemma mk_length d a x b : length (nodes (mk d a x b)) = S (length (nodes a) + length (nodes b)).
Proof. rewrite (Permutation_length (nodes_mk_perm d a x b)). cbn. by rewrite app_length. Qed.

Lemma edge_length_le d t : edge_length d t <= length (nodes t).
Proof.
  pattern t; apply (mk_ind _ d); clear t; [done|]. intros a x b _ IH. rewrite edge_length_mk, mk_length. lia.
Qed.

Lemma next_costs_length d c t : length (next_costs d c t) = length (nodes t).
Proof.
  revert c. pattern t; apply (mk_ind _ d); clear t; [done|]. intros a x b IHa IHb c.
  rewrite next_costs_mk, mk_length, app_length. cbn. rewrite IHa, IHb. lia.
Qed.

Lemma next_costs_le d c t i : 1 <= c -> i ∈ next_costs d c t -> i < c + length (nodes t).
Proof.
  revert c i. pattern t; apply (mk_ind _ d); clear t; [by intros c i _ ?%elem_of_nil|]. intros a x b IHa IHb c i Hc.
  rewrite next_costs_mk, mk_length, elem_of_app, elem_of_cons. intros [Hi|[-> |Hi]].
  - apply IHa in Hi; lia.
  - pose proof (edge_length_le (negb d) b) as He. destruct b; lia.
  - apply IHb in Hi; lia.
Qed.

(** A whole walk follows each link at most twice. *)
Lemma next_costs_sum d c t :
  t <> E -> sum_list (next_costs d c t) + edge_length (negb d) t + 1 <= c + 2 * length (nodes t).
Proof.
  revert c. pattern t; apply (mk_ind _ d); clear t; [done|]. intros a x b IHa IHb c _.
  rewrite next_costs_mk, edge_length_mk_other, mk_length, sum_list_with_app. cbn [sum_list_with id].
  assert (sum_list (next_costs d 1 a) + edge_length (negb d) a <= 2 * length (nodes a)) as Ha.
  { destruct a as [|l y r]; [by destruct d|]. specialize (IHa 1 ltac:(done)). lia. }
  destruct b as [|l y r]; [cbn [next_costs sum_list_with nodes length]; lia|]. specialize (IHb (S c) ltac:(done)). lia.
Qed.

Section walk.
Context (nil : nat).
Local Notation rep := (rep nil).
Local Notation ptr := (ptr nil).

Lemma edge_loop_cost h d f t p :
  rep h p t -> t <> E -> length (nodes t) <= f ->
  exists l x, ord d (nodes t) = l ++ [x] /\ edge_loop_c nil f h d (ptr t) = Ok (x, edge_length d t).
Proof.
  revert t p. induction f as [|f IH]; intros t p Hr Ht Hf.
  { destruct t; [done|]. cbn in Hf. rewrite app_length in Hf. cbn in Hf. lia. }
  destruct (mk_mk d t Ht) as (a & x & b & ->). apply rep_mk in Hr as (_ & Hb & _ & _ & _ & Hrb).
  rewrite nodes_mk, ptr_mk, edge_length_mk. cbn [edge_loop_c]. rewrite (rd_Ok _ _ _ Hb). bind.
  assert (b = E \/ b <> E) as [-> |Hne] by (destruct b; auto).
  - cbn [TreeProofs.ptr]. rewrite Nat.eqb_refl. exists (ord d (nodes a)), x. split; [by destruct d|done].
  - destruct (Nat.eqb_spec (ptr b) nil) as [He|_].
    { by apply (rep_ptr_nil nil h x) in He. }
    destruct (IH b x) as (l & y & Hl & ->); [done..|rewrite mk_length in Hf; lia|].
    exists (ord d (nodes a) ++ x :: l), y. split; [|done]. rewrite Hl.
    repeat (rewrite <- ?app_assoc; cbn [app]). done.
Qed.

Lemma edge_cost h d t p :
  rep h p t -> NoDup (nodes t) -> t <> E ->
  exists l x, ord d (nodes t) = l ++ [x] /\ edge_c nil h d (ptr t) = Ok (x, edge_length d t).
Proof.
  intros Hr Hnd Ht. apply (edge_loop_cost h d _ t p); [done..|]. apply rep_size in Hr; [lia|done].
Qed.

Lemma find_sub_cost h p d t n c :
  rep h p t -> n ∈ nodes t ->
  exists u v q a b, rep h q (mk d a n b) /\ ord d (nodes t) = u ++ ord d (nodes (mk d a n b)) ++ v /\
    (b <> E -> next_costs d c t !! (length u + length (nodes a)) = Some (edge_length (negb d) b)).
Proof.
  revert p c. pattern t; apply (mk_ind _ d); clear t; [|intros a x b IHa IHb]; intros p c Hr Hn.
  { by apply elem_of_nil in Hn. }
  pose proof Hr as Hr0. apply rep_mk in Hr as (_ & _ & _ & _ & Hra & Hrb). rewrite next_costs_mk.
  apply elem_of_mk in Hn as [-> |[Hn|Hn]].
  - exists [], [], p, a, b. split; [done|]. rewrite app_nil_r. split; [done|]. intros Hb. cbn [length Nat.add].
    rewrite lookup_app_r by (rewrite next_costs_length; lia). rewrite next_costs_length, Nat.sub_diag. cbn.
    by destruct b.
  - destruct (IHa x 1) as (u & v & q & a' & b' & Hr & Ho & Hc); [done..|].
    exists u, (v ++ x :: ord d (nodes b)), q, a', b'. split; [done|].
    rewrite nodes_mk, Ho. split; [by rewrite <- !app_assoc|]. intros Hb. rewrite lookup_app_l; [by apply Hc|].
    rewrite next_costs_length. apply (f_equal length) in Ho.
    rewrite !app_length, !ord_length, mk_length in Ho. lia.
  - destruct (IHb x (S c)) as (u & v & q & a' & b' & Hr & Ho & Hc); [done..|].
    exists (ord d (nodes a) ++ x :: u), v, q, a', b'. split; [done|].
    rewrite nodes_mk, Ho. split; [by rewrite <- !app_assoc|]. intros Hb.
    rewrite app_length, ord_length. cbn [length].
    rewrite lookup_app_r by (rewrite next_costs_length; lia). rewrite next_costs_length.
    replace (length (nodes a) + S (length u) + length (nodes a') - length (nodes a)) with (S (length u + length (nodes a'))) by lia.
    cbn. by apply Hc.
Qed.

Lemma climb_cost h d t p n l1 l2 c :
  rep h p t -> NoDup (nodes t) -> ord d (nodes t) = l1 ++ n :: l2 -> br h d !! n = Some nil ->
  exists q m, pa h !! n = Some q /\ m < length (nodes t) /\
    match l2 with
    | [] => next_costs d c t !! length l1 = Some (m + c) /\
        forall f, climb_c nil (m + f) h d n q = ('(r, i) ← climb_c nil f h d (ptr t) p; Ok (r, m + i))
    | y :: _ => next_costs d c t !! length l1 = Some (S m) /\ forall f, climb_c nil (S (m + f)) h d n q = Ok (y, S m)
    end.
Proof.
  revert p l1 l2 c. pattern t; apply (mk_ind _ d); clear t; [|intros a x b IHa IHb]; intros p l1 l2 c Hr Hnd Ho Hbr.
  { destruct d, l1; done. }
  pose proof Hnd as Hnd0. apply mk_NoDup in Hnd as (Hxa & Hxb & Hna & Hnb & Hdis).
  apply rep_mk in Hr as (Ha & Hb & Hp & Hx & Hra & Hrb).
  rewrite mk_length, ptr_mk, next_costs_mk.
  pose proof Hnd0 as Hnd1. apply (ord_NoDup d) in Hnd1. rewrite Ho in Hnd1.
  assert (n ∈ nodes (mk d a x b)) as Hn.
  { apply (elem_of_ord d). rewrite Ho, elem_of_app. right. left. }
  rewrite nodes_mk in Ho.
  apply elem_of_mk in Hn as [-> |[Hn|Hn]].
  - symmetry in Ho. apply split_unique in Ho as [-> ->]; [|done].
    assert (b = E) as -> by (apply (rep_ptr_nil nil h x); congruence).
    exists p, 0. split; [done|]. split; [lia|].
    replace (ord d (nodes E)) with (@Datatypes.nil nat) by (by destruct d). split.
    + rewrite lookup_app_r by (rewrite next_costs_length, ord_length; lia).
      by rewrite next_costs_length, ord_length, Nat.sub_diag.
    + intros f. cbn [Nat.add]. by destruct (climb_c _ _ _ _ _ _) as [[]| |].
  - apply (elem_of_ord d), elem_of_list_split in Hn as (m1 & m2 & Hm).
    rewrite Hm in Ho. repeat (rewrite <- app_assoc in Ho; cbn [app] in Ho).
    symmetry in Ho. apply split_unique in Ho as [-> ->]; [|done].
    assert (length m1 < length (nodes a)) as Hlen.
    { apply (f_equal length) in Hm. rewrite ord_length, app_length in Hm. cbn in Hm. lia. }
    rewrite lookup_app_l by (by rewrite next_costs_length).
    destruct (IHa x m1 m2 1 Hra Hna Hm Hbr) as (q & m & Hq & Hlt & Hc).
    exists q, m. split; [done|]. split; [lia|].
    destruct m2 as [|y m2]; cbn [app]; [|done].
    destruct Hc as [Hcost Hc]. rewrite Nat.add_1_r in Hcost. split; [done|]. intros f.
    specialize (Hc (S f)). rewrite Nat.add_succ_r in Hc. rewrite Hc. cbn [climb_c].
    destruct (Nat.eqb_spec x nil) as [He|_]; [done|]. rewrite (rd_Ok _ _ _ Ha). bind.
    rewrite Nat.eqb_refl. bind. by rewrite Nat.add_1_r.
  - assert (ptr a <> ptr b) as Hne.
    { intros He. assert (b <> E) as HbE by (intros ->; by apply elem_of_nil in Hn).
      apply (ptr_in nil) in HbE. rewrite <- He in HbE. destruct a as [|al ay ar].
      - by apply (rep_nil nil h x b) in Hrb.
      - apply (Hdis ay); [apply (ptr_in nil (T al ay ar))|]; done. }
    apply (elem_of_ord d), elem_of_list_split in Hn as (m1 & m2 & Hm).
    rewrite Hm in Ho. rewrite app_comm_cons, app_assoc in Ho.
    symmetry in Ho. apply split_unique in Ho as [-> ->]; [|done].
    rewrite app_length, ord_length. cbn [length].
    rewrite lookup_app_r by (rewrite next_costs_length; lia). rewrite next_costs_length.
    replace (length (nodes a) + S (length m1) - length (nodes a)) with (S (length m1)) by lia. cbn [lookup list_lookup].
    destruct (IHb x m1 m2 (S c) Hrb Hnb Hm Hbr) as (q & m & Hq & Hlt & Hc).
    destruct m2 as [|y m2]; [|exists q, m; split; [done|]; split; [lia|done]].
    exists q, (S m). split; [done|]. split; [lia|].
    destruct Hc as [Hcost Hc]. rewrite Nat.add_succ_r in Hcost. split; [done|]. intros f.
    specialize (Hc (S f)). rewrite Nat.add_succ_r in Hc. cbn [Nat.add]. rewrite Hc. cbn [climb_c].
      destruct (Nat.eqb_spec x nil) as [He|_]; [done|]. rewrite (rd_Ok _ _ _ Ha). bind.
      destruct (Nat.eqb_spec (ptr a) (ptr b)) as [He|_]; [done|].
      rewrite (rd_Ok _ _ _ Hp). bind. destruct (climb_c nil f h d x p) as [[]| |]; bind; [|done..].
      by rewrite Nat.add_succ_r.
Qed.

Lemma tree_next_cost h d t n l1 l2 :
  rep h nil t -> NoDup (nodes t) -> ord d (nodes t) = l1 ++ n :: l2 ->
  exists i, next_costs d 1 t !! length l1 = Some i /\ tree_next_c nil h (ptr t) d n = Ok (default nil (head l2), i).
Proof.
  intros Hr Hnd Ho.
  assert (n ∈ nodes t) as Hn. { apply (elem_of_ord d). rewrite Ho, elem_of_app. right. left. }
  assert (pa h !! ptr t = Some nil) as Hpt.
  { destruct t; [by apply elem_of_nil in Hn|]. by destruct Hr as (_ & _ & ? & _). }
  unfold tree_next_c. rewrite (rd_Ok _ _ _ Hpt). bind. rewrite Nat.eqb_refl. cbn [oassert]. bind.
  destruct (find_sub_cost h nil d t n 1 Hr Hn) as (u & v & q & a & b & Hrs & Hu & Hcost).
  pose proof Hnd as Hnd1. apply (ord_NoDup d) in Hnd1.
  pose proof Hrs as Hrs'. apply rep_mk in Hrs' as (_ & Hb & Hp & _ & _ & Hrb).
  rewrite (rd_Ok _ _ _ Hb). bind.
  assert (b = E \/ b <> E) as [-> |Hne] by (destruct b; auto).
  - cbn [TreeProofs.ptr]. rewrite Nat.eqb_refl. cbn [negb].
    destruct (climb_cost h d t nil n l1 l2 1 Hr Hnd Ho) as (q' & m & Hq & Hm & Hc); [done|].
    rewrite (rd_Ok _ _ _ Hq). bind. apply rep_size in Hr; [|done].
    destruct l2 as [|y l2]; destruct Hc as [Hc1 Hc]; eexists; (split; [exact Hc1|]).
    + specialize (Hc (S (size (lf h) - m))). rewrite Nat.add_succ_r in Hc.
      replace (m + (size (lf h) - m)) with (size (lf h)) in Hc by lia. rewrite Hc.
      cbn [climb_c]. by rewrite Nat.eqb_refl.
    + specialize (Hc (size (lf h) - m)).
      by replace (m + (size (lf h) - m)) with (size (lf h)) in Hc by lia.
  - destruct (Nat.eqb_spec (ptr b) nil) as [He|_].
    { by apply (rep_ptr_nil nil h n) in He. }
    cbn [negb]. rewrite nodes_mk in Hu.
    rewrite Ho in Hu, Hnd1. repeat (rewrite <- app_assoc in Hu; cbn [app] in Hu). rewrite app_assoc in Hu.
    apply split_unique in Hu as [-> ->]; [|done].
    destruct (edge_cost h (negb d) b n) as (l & x & Hl & ->); [done| |done|].
    { apply NoDup_app in Hnd1 as (_ & _ & [_ Hnd1]%NoDup_cons). apply NoDup_app in Hnd1 as (Hnd1 & _).
      by apply ord_NoDup in Hnd1. }
    eexists. split; [rewrite app_length, ord_length; by apply Hcost|].
    rewrite ord_negb in Hl. apply (f_equal (@rev nat)) in Hl.
    rewrite rev_involutive, rev_app_distr in Hl. by rewrite Hl.
Qed.
End walk.
