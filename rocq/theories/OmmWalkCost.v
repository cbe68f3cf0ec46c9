(** What walking an ordered multimap costs: a whole walk is linear and a step to a
    duplicate is free, but a call of begin and a step to another key are linear in
    the worst case, and stay so. *)
From Coq Require Import Sorted.
From stdpp Require Import base numbers option gmap fin_maps list.
From Verif Require Import Common LinkHeap PathLemmas OrderSpec TreeModel TreeProofs SplayModel SplayProofs MapOps OmModel OmmOps
  OmmModel OmmSpec OmmProofs OmmRings OmmGroups OmmWalk OmmCalls OmmHistories CostModel CostErase SplayCostModel SplayCost OmCost WalkCost
  OmmCostModel OmmCostErase OmmCostSpec OmmCostBounds OmmCost OmmEndsCost OmmEndsDear.
From Verif Require MapProofs OmProofs OmWalkCost.
Import OmWalkCost (chain, down, down_last, chain_edge, down_length, total_preorder_Z, outgrows, chain_climb, add_idle).

Local Ltac bind := cbn [mbind outcome_bind obind].
Local Ltac cb := cbn [cbind mbind outcome_bind obind still gratis hopping].

(** ** The tree *)

Lemma edge_c_br h g d n : lf g = lf h -> rt g = rt h -> edge_c nil h d n = edge_c nil g d n.
Proof.
  intros Hl Hr. unfold edge_c. rewrite Hl. generalize (S (size (lf h))) as f. intros f. revert n.
  assert (br g d = br h d) as Hbr by (by destruct d).
  induction f as [|f IH]; intros n; cbn; [done|]. rewrite Hbr. destruct (rd (br h d) n) as [c| |]; bind; try done.
  destruct (c =? nil); [done|]. by rewrite IH.
Qed.

Lemma mclimb_cost D N g h d : shadow D N g h -> tidy N g -> forall f n p, p ∈ nil :: N ->
  mclimb_c f h d n p = climb_c nil f g d n p.
Proof.
  intros Hs Ht. induction f as [|f IH]; intros n p Hp; cbn; [done|].
  destruct (Nat.eqb_spec p nil) as [|Hne]; [done|]. apply elem_of_cons in Hp as [?|Hp]; [done|].
  rewrite (shadow_br D N g h (negb d) Hs). destruct (rd (br g (negb d)) p) as [c| |]; bind; try done.
  destruct (c =? n); [done|]. rewrite (parent_r_Ok D N g h) by done.
  destruct Ht as (_ & Hc & _). destruct (Hc p Hp) as [(q & Hq & Hqi) _].
  rewrite (rd_Ok _ _ _ Hq). bind. by rewrite IH.
Qed.

Lemma mtree_next_cost h t D d n l1 l2 :
  wf h t D -> ord d (nodes t) = l1 ++ n :: l2 ->
  exists i, next_costs d 1 t !! length l1 = Some i /\ mtree_next_c h (ptr t) d n = Ok (default nil (head l2), i).
Proof.
  intros H Ho. destruct (wf_shadow h t D H) as [Hs Ht]. set (g := flat D (nodes t) h) in *.
  assert (n ∈ nodes t) as Hn. { apply (elem_of_ord d). rewrite Ho, elem_of_app. right. left. }
  pose proof (wf_apart _ _ _ H) as (Hnd & Hnil & H0 & _).
  destruct (tree_next_cost nil g d t n l1 l2) as (i & Hi & Hc); [apply (wf_rep _ _ _ H)|done|done|].
  exists i. split; [done|]. rewrite <- Hc.
  unfold mtree_next_c, tree_next_c.
  destruct (Nat.eqb_spec n 0) as [-> |_]; [done|]. destruct (Nat.eqb_spec n nil) as [-> |_]; [done|]. cbn [orb].
  assert (ptr t ∈ nodes t) as Hroot. { apply ptr_in. intros ->. by apply elem_of_nil in Hn. }
  assert (pa g !! ptr t = Some nil) as Hrp.
  { pose proof (wf_rep _ _ _ H) as Hr. destruct t as [|a y b]; [by apply elem_of_nil in Hn|]. by destruct Hr as (_ & _ & ? & _). }
  rewrite !(parent_r_Ok D (nodes t) g h) by done. rewrite (shadow_br D (nodes t) g h d Hs).
  rewrite (rd_Ok _ _ _ Hrp). bind. cbn [oassert Nat.eqb nil]. bind.
  destruct (rd (br g d) n) as [c| |]; bind; try done.
  destruct (c =? nil); cbn [negb].
  - pose proof Ht as (_ & Hcl & _).
    destruct (Hcl n Hn) as [(q & Hq & Hqi) _]. rewrite (rd_Ok _ _ _ Hq). bind.
    by apply (mclimb_cost D (nodes t)).
  - by apply edge_c_br.
Qed.

(** The node that keeps the parent of tree node [n] is enough to continue from [n]. *)
Lemma next_tree_node_cost h t D d n e r l1 l2 :
  wf h t D -> ord d (nodes t) = l1 ++ n :: l2 -> D n = e :: r ->
  next_tree_node_c h (ptr t) d e = mtree_next_c h (ptr t) d n.
Proof.
  intros H Ho ED. destruct (wf_shadow h t D H) as [Hs Ht]. set (g := flat D (nodes t) h) in *.
  assert (n ∈ nodes t) as Hn. { apply (elem_of_ord d). rewrite Ho, elem_of_app. right. left. }
  pose proof (wf_apart _ _ _ H) as (Hnd & Hnil & H0 & HD & Hd & Hi).
  pose proof Hs as (Hlf & Hrt & _ & Hpa & Hring & Hn0 & _).
  assert (pa g !! n = pa h !! e) as Hpe.
  { rewrite (Hpa n) by (by right). by rewrite ED. }
  destruct (Hd n e) as (HeN & Hen & He0); [rewrite ED; left|].
  assert (forall c, c ∈ nodes t -> pa h !! c = Some e <-> c = n) as Hkey.
  { intros c Hc. split.
    - intros Hpc. specialize (Hring c Hc). destruct (D c) as [|d' r'] eqn:EDc.
      + specialize (Hpa c (elem_of_list_further _ _ _ Hc)). rewrite EDc in Hpa. cbn [hd] in Hpa.
        destruct Ht as (_ & Hcl & _). destruct (Hcl c Hc) as [(q & Hq & Hqi) _].
        assert (q = e) as -> by congruence. by apply elem_of_cons in Hqi as [?|?].
      + destruct Hring as (Hp & _). assert (d' = e) as -> by congruence.
        apply (Hi c n e); [rewrite EDc; left|rewrite ED; left].
    - intros ->. specialize (Hring n Hn). rewrite ED in Hring. by destruct Hring as (? & _). }
  unfold next_tree_node_c.
  destruct (rep_parent g nil t n (wf_rep _ _ _ H) Hn) as [[-> Hp]|(p & dd & Hp & Hpp & Hbr)].
  - rewrite Hp in Hpe. rewrite (rd_Ok (pa h) e nil) by done. bind. rewrite Nat.eqb_refl.
    done.
  - rewrite Hpp in Hpe. rewrite (rd_Ok (pa h) e p) by done. bind.
    destruct (Nat.eqb_spec p nil) as [-> |_]; [done|].
    destruct Ht as (_ & Hcl & _). destruct (Hcl p Hp) as [_ Hb].
    assert (forall b, exists o, (c ← rd (br h b) p; if c =? nil then Ok None
        else x ← rd (pa h) c; Ok (if x =? e then Some c else None)) = Ok o /\
        (o = Some n \/ o = None) /\ (b = dd -> o = Some n)) as Hchild.
    { intros b. rewrite (shadow_br D (nodes t) g h b Hs). destruct (Hb b) as (c & Hc & Hci).
      rewrite (rd_Ok _ _ _ Hc). bind. destruct (Nat.eqb_spec c nil) as [-> |Hcn].
      - exists None. split_and!; [done|by right|]. intros ->. exfalso. apply Hnil. congruence.
      - apply elem_of_cons in Hci as [?|Hci]; [done|].
        destruct (wf_node h t D c H Hci) as [_ (_ & _ & [x Hx])]. rewrite (rd_Ok _ _ _ Hx). bind.
        eexists. split; [done|]. destruct (Nat.eqb_spec x e) as [-> |Hxe].
        + apply (Hkey c Hci) in Hx as ->. split; [by left|done].
        + split; [by right|]. intros ->. exfalso. apply Hxe. assert (c = n) as -> by congruence.
          pose proof (proj2 (Hkey n Hn) eq_refl). congruence. }
    destruct (Hchild false) as (o1 & -> & Ho1 & Hd1). bind.
    destruct Ho1 as [-> | ->]; [done|].
    destruct (Hchild true) as (o2 & -> & Ho2 & Hd2). bind.
    destruct Ho2 as [-> | ->]; [done|].
    exfalso. destruct dd; [by specialize (Hd2 eq_refl)|by specialize (Hd1 eq_refl)].
Qed.

(** ** Rows *)

(** Costs of the steps from the elements of the rows of [ns], when those between the
    tree nodes are [is]. *)
Fixpoint spread (D : nat -> list nat) (ns is : list nat) : list nat :=
  match ns, is with
  | n :: ns, i :: is => replicate (length (D n)) 0 ++ i :: spread D ns is
  | _, _ => []
  end.

Lemma spread_sum D ns : forall is, length ns = length is -> sum_list (spread D ns is) = sum_list is.
Proof.
  induction ns as [|n ns IH]; intros [|i is] Hl; try done. cbn [spread sum_list_with]. rewrite sum_list_with_app.
  cbn [sum_list_with]. rewrite IH by (by injection Hl). assert (forall k, sum_list (replicate k 0) = 0) as -> by (by induction k).
  lia.
Qed.
Lemma spread_length D ns : forall is, length ns = length is -> length (spread D ns is) = length (rows D ns).
Proof.
  induction ns as [|n ns IH]; intros [|i is] Hl; try done. cbn [spread]. change (rows D (n :: ns)) with ((n :: D n) ++ rows D ns).
  rewrite !app_length, replicate_length. cbn [length]. rewrite IH by (by injection Hl). lia.
Qed.
Lemma spread_lookup D u n v m1 e m2 : forall is i,
  length (u ++ n :: v) = length is -> is !! length u = Some i -> n :: D n = m1 ++ e :: m2 ->
  spread D (u ++ n :: v) is !! (length (rows D u) + length m1) = Some (match m2 with [] => i | _ => 0 end).
Proof.
  induction u as [|x u IH]; intros [|j is] i Hl Hi Em; try done.
  - cbn in Hi. injection Hi as ->. cbn [app spread rows flat_map length Nat.add].
    apply (f_equal length) in Em. rewrite app_length in Em. cbn [length] in Em.
    destruct m2 as [|y m2]; cbn [length] in Em.
    + rewrite lookup_app_r by (rewrite replicate_length; lia). rewrite replicate_length.
      by replace (length m1 - length (D n)) with 0 by lia.
    + rewrite lookup_app_l by (rewrite replicate_length; lia). apply lookup_replicate_2. lia.
  - cbn [app spread]. change (rows D (x :: u)) with ((x :: D x) ++ rows D u). rewrite app_length. cbn [length].
    rewrite lookup_app_r by (rewrite replicate_length; lia). rewrite replicate_length.
    match goal with |- _ !! ?k = _ => replace k with (S (length (rows D u) + length m1)) by lia end.
    cbn. apply IH; [by injection Hl|done|done].
Qed.

Lemma multimap_next_cost h t D d e l1 l2 :
  wf h t D -> rows D (ord d (nodes t)) = l1 ++ e :: l2 -> NoDup (rows D (ord d (nodes t))) ->
  exists i, spread D (ord d (nodes t)) (next_costs d 1 t) !! length l1 = Some i /\
    multimap_next_c h (ptr t) d e = Ok (default nil (head l2), i) /\
    forall y, head l2 = Some y -> y ∉ nodes t -> i = 0.
Proof.
  intros H Hrows Hndr. destruct (wf_shadow h t D H) as [Hs Ht].
  assert (e ∈ rows D (ord d (nodes t))) as He by (rewrite Hrows, elem_of_app; right; left).
  apply elem_of_rows in He as (n & Hno & He). apply elem_of_list_split in Hno as (u & v & Ho).
  assert (n ∈ nodes t) as Hn. { apply (elem_of_ord d). rewrite Ho, elem_of_app. right. left. }
  destruct (mtree_next_cost h t D d n u v H Ho) as (i & Hi & Hmt).
  assert (forall m1 m2, n :: D n = m1 ++ e :: m2 -> 
    spread D (ord d (nodes t)) (next_costs d 1 t) !! length l1 = Some (match m2 with [] => i | _ => 0 end)) as Hspread.
  { intros m1 m2 Em. assert (l1 = rows D u ++ m1) as ->.
    { rewrite Ho, rows_app in Hrows, Hndr.
      change (rows D (n :: v)) with ((n :: D n) ++ rows D v) in Hrows, Hndr. rewrite Em in Hrows, Hndr.
      rewrite <- app_assoc in Hrows, Hndr. rewrite app_assoc in Hrows, Hndr. cbn [app] in Hrows, Hndr.
      by destruct (split_unique _ _ _ _ _ Hndr Hrows) as [<- _]. }
    rewrite app_length, Ho. apply spread_lookup with (e := e); [|done|done].
    by rewrite <- Ho, ord_length, next_costs_length. }
  assert (forall m1 m2, n :: D n = m1 ++ e :: m2 -> head l2 = match m2 with [] => head v | y :: _ => Some y end) as Hnext.
  { intros m1 m2 Em. rewrite Ho, rows_app in Hrows, Hndr.
    change (rows D (n :: v)) with ((n :: D n) ++ rows D v) in Hrows, Hndr. rewrite Em in Hrows, Hndr.
    rewrite <- app_assoc in Hrows, Hndr. rewrite app_assoc in Hrows, Hndr. cbn [app] in Hrows, Hndr.
    destruct (split_unique _ _ _ _ _ Hndr Hrows) as [_ <-].
    destruct m2; [|done]. cbn [app]. by rewrite head_rows. }
  assert (forall m1 m2, n :: D n = m1 ++ e :: m2 -> multimap_next_c h (ptr t) d e =
    match m2 with [] => Ok (default nil (head v), i) | y :: _ => Ok (y, 0) end ->
    exists i, spread D (ord d (nodes t)) (next_costs d 1 t) !! length l1 = Some i /\
    multimap_next_c h (ptr t) d e = Ok (default nil (head l2), i) /\ (forall y, head l2 = Some y -> y ∉ nodes t -> i = 0)) as Hgoal.
  { intros m1 m2 Em Hc. exists (match m2 with [] => i | _ => 0 end). split; [by apply (Hspread m1)|]. split.
    { rewrite Hc, (Hnext m1 m2 Em). by destruct m2. }
    intros y Hy Hout. destruct m2; [|done]. rewrite (Hnext m1 [] Em) in Hy. exfalso. apply Hout.
    apply (elem_of_ord d). rewrite Ho, elem_of_app, elem_of_cons. right. right. destruct v; [done|]. injection Hy as ->. left. }
  clear Hspread Hnext.
  pose proof (wf_apart _ _ _ H) as (Hnd & Hnil & H0 & HD & Hd & Hii). specialize (Hd n). specialize (HD n).
  destruct (wf_pa_zero h t D n e H Hn He) as (p & Hp & Hp0).
  pose proof (fun x => wf_pa_zero h t D n x H Hn) as Hz.
  pose proof (wf_ring _ _ _ H n Hn) as Hring.
  apply elem_of_cons in He as [-> |He].
  - (* the tree node *)
    assert (p <> 0) as Hpne.
    { intros Hp'. apply Hp0 in Hp'. assert (n ∈ D n) as Hin by (destruct (D n); [done|by right]).
      by destruct (Hd n Hin) as (? & _). }
    apply (Hgoal [] (D n) eq_refl). unfold multimap_next_c. rewrite (rd_Ok _ _ _ Hp). bind.
    rewrite (proj2 (Nat.eqb_neq p 0)) by done.
    assert (is_dup_head h n = Ok false) as ->.
    { unfold is_dup_head. destruct (Nat.eqb_spec n nil) as [|_]; [done|].
      destruct Ht as (_ & Hcl & HNC). destruct (Hcl n Hn) as [_ Hb]. destruct (Hb false) as (c & Hc & Hci).
      rewrite (rd_Ok (lf h) n c) by done. bind. destruct (Nat.eqb_spec c nil) as [|Hcn]; [done|].
      apply elem_of_cons in Hci as [?|Hci]; [done|]. destruct (Hcl c Hci) as [_ Hb']. destruct (Hb' true) as (y & Hy & _).
      rewrite (rd_Ok (rt h) c y) by done. bind. destruct (Nat.eqb_spec y n) as [-> |]; [|done].
      exfalso. by apply (HNC n c). }
    bind. rewrite (has_dups_Ok D (nodes t) (flat D (nodes t) h) h) by (first [done|by right]). bind.
    unfold dup. destruct (D n) as [|e r] eqn:ED.
    + done.
    + destruct Hring as (Hpn & _). do 2 f_equal. congruence.
  - (* in the ring *)
    destruct (D n) as [|e1 r] eqn:ED; [by apply elem_of_nil in He|].
    assert (next_tree_node_c h (ptr t) d e1 = Ok (default nil (head v), i)) as Hntn.
    { by rewrite (next_tree_node_cost h t D d n e1 r u v). }
    destruct (Hz e1) as (p1 & Hp1 & Hp1z); [right; left|]. cbn [tail] in *.
    assert (p1 <> 0) as Hp1ne. { intros Hp1'. apply Hp1z in Hp1'. by apply NoDup_cons in HD as [? _]. }
    destruct Hring as (_ & Hlink & Hall). rewrite Forall_forall in Hall.
    apply elem_of_cons in He as [-> |He].
    + apply (Hgoal [n] r eq_refl). unfold multimap_next_c. rewrite (rd_Ok _ _ _ Hp). bind.
      assert (p <> 0) as Hpne by congruence. rewrite (proj2 (Nat.eqb_neq p 0)) by done.
      assert (is_dup_head h e1 = Ok true) as ->.
      { unfold is_dup_head. destruct (Hd e1) as (_ & He1n & _); [left|].
        rewrite (proj2 (Nat.eqb_neq e1 nil)) by done.
        destruct (ring_last h n e1 r) as (z & Hzin & Hlz & Hrz).
        { pose proof (wf_ring _ _ _ H n Hn) as Hr. by rewrite ED in Hr. }
        rewrite (rd_Ok _ _ _ Hlz). bind. destruct (Hd z Hzin) as (_ & Hzn & _).
        rewrite (proj2 (Nat.eqb_neq z nil)) by done. rewrite (rd_Ok _ _ _ Hrz). bind. by rewrite Nat.eqb_refl. }
      bind.
      pose proof (linked_next h [] e1 r Hlink) as Hrt. rewrite app_nil_r in Hrt.
      unfold is_dup_head_next. rewrite (rd_Ok _ _ _ Hrt). bind. destruct r as [|m r]; cbn [hd].
      * rewrite (rd_Ok _ _ _ Hp1). bind. by rewrite (proj2 (Nat.eqb_neq p1 0)) by done.
      * rewrite (rd_Ok (pa h) m 0) by (apply Hall; left). bind. done.
    + assert (p = 0) as -> by (by apply Hp0).
      apply elem_of_list_split in He as (m1 & m2 & ->).
      change (e1 :: m1 ++ e :: m2) with ((e1 :: m1) ++ e :: m2) in *.
      pose proof (linked_next _ _ _ _ Hlink) as Hrt.
      apply (Hgoal (n :: e1 :: m1) m2 eq_refl). unfold multimap_next_c. rewrite (rd_Ok _ _ _ Hp). bind. cbn [Nat.eqb].
      unfold is_dup_head_next. rewrite (rd_Ok _ _ _ Hrt). bind. destruct m2 as [|m m2]; cbn [hd app].
      * rewrite (rd_Ok _ _ _ Hp1). bind. by rewrite (proj2 (Nat.eqb_neq p1 0)) by done.
      * rewrite (rd_Ok (pa h) m 0); [bind; done|]. apply Hall. rewrite elem_of_app. right. right. left.
Qed.

Section walk.
Context {K V : Type} (cmp : K -> K -> comparison) (Hcmp : total_preorder cmp) (alloc : bool).
Implicit Types (s : om K V) (A : view K V).
Notation core := (core cmp alloc).
Notation repr := (repr cmp alloc).

Lemma begin_cost s A t D d l :
  core s A t D -> sz s = Z.of_nat (length (queue A)) -> listing cmp A d l ->
  omm_begin_c s d = Ok (hd 0 l, Work 0 (edge_length (negb d) t)).
Proof.
  intros H Hsz Hl. unfold omm_begin_c. rewrite Hsz.
  pose proof (listing_is cmp Hcmp A _ D d l (co_groups _ _ _ _ _ _ H) Hl) as ->.
  rewrite (co_root _ _ _ _ _ _ H).
  assert (t = E \/ t <> E) as [Et|Hne] by (destruct t; auto).
  - rewrite (proj1 (core_empty cmp alloc s A t D H) Et), Et. by destruct d.
  - assert (queue A <> []) as Hq by (by rewrite <- (core_empty cmp alloc s A t D H)).
    destruct (Z.eqb_spec (Z.of_nat (length (queue A))) 0) as [He|_]; [destruct (queue A); [done|cbn in He; lia]|].
    rewrite (edge_c_br (lk s) (flat D (nodes t) (lk s))) by done.
    destruct (edge_cost nil (flat D (nodes t) (lk s)) (negb d) t nil (wf_rep _ _ _ (co_wf _ _ _ _ _ _ H))
      (core_nodes cmp alloc s A t D H) Hne) as (m & x & Ho & ->).
    rewrite ord_negb in Ho. apply (f_equal (@rev nat)) in Ho. rewrite rev_involutive, rev_app_distr in Ho.
    by rewrite Ho.
Qed.

Lemma next_cost s A t D d e l1 l2 :
  core s A t D -> sz s = Z.of_nat (length (queue A)) -> listing cmp A d (l1 ++ e :: l2) ->
  exists i, spread D (ord d (nodes t)) (next_costs d 1 t) !! length l1 = Some i /\
    omm_next_c s d e = Ok (hd 0 l2, Work 0 i) /\
    (forall y a b, head l2 = Some y -> vals A !! e = Some a -> vals A !! y = Some b -> cmp (fst a) (fst b) = Eq -> i = 0).
Proof.
  intros H Hsz Hl. assert (repr s A) as Hr by (split; [by exists t, D|done]).
  assert (forall z, z ∈ l1 ++ e :: l2 -> z <> 0 /\ z <> nil) as Hz.
  { intros z Hz. apply (repr_ne cmp alloc s A z Hr). by rewrite <- (proj1 Hl). }
  unfold omm_next_c. destruct (Hz e) as [He0 _]; [rewrite elem_of_app; right; left|].
  rewrite (proj2 (Nat.eqb_neq e 0)) by done.
  pose proof (listing_NoDup cmp A d _ (repr_NoDup cmp alloc s A Hr) Hl) as Hnd.
  pose proof (co_groups _ _ _ _ _ _ H) as Hg.
  pose proof (listing_is cmp Hcmp A _ D d _ Hg Hl) as El. rewrite El in Hnd.
  destruct (multimap_next_cost (lk s) t D d e l1 l2 (co_wf _ _ _ _ _ _ H) (eq_sym El) Hnd) as (i & Hi & Hc & Hfree).
  exists i. split; [done|]. rewrite (co_root _ _ _ _ _ _ H), Hc. cb. rewrite add_idle. split.
  - destruct l2 as [|y l2]; [done|]. cbn. destruct (Hz y) as [_ Hy]; [rewrite elem_of_app; right; right; left|].
    by apply Nat.eqb_neq in Hy as ->.
  - intros y a b Hy Ha Hb He. apply (Hfree y Hy). intros Hin.
    assert (e ∈ y :: D y) as Hey.
    { apply (gr_owner cmp (vals A) (nodes t) D (queue A) y e b a); try done.
      - rewrite <- (proj1 Hl), elem_of_app. right. left.
      - by apply (cmp_sym cmp Hcmp). }
    destruct l2 as [|y' l2]; [done|]. injection Hy as ->.
    assert (exists u v, ord d (nodes t) = u ++ y :: v) as (u & v & Ho) by (apply elem_of_list_split; by apply elem_of_ord).
    rewrite Ho, rows_app in El, Hnd. change (rows D (y :: v)) with (y :: D y ++ rows D v) in El, Hnd.
    change (l1 ++ e :: y :: l2) with (l1 ++ [e] ++ y :: l2) in El. rewrite app_assoc in El. symmetry in El.
    destruct (split_unique _ _ _ _ _ Hnd El) as [Eu _].
    apply NoDup_app in Hnd as (_ & Hdis & _). apply (Hdis e); [rewrite Eu, elem_of_app; right; left|].
    change (y :: D y ++ rows D v) with ((y :: D y) ++ rows D v). rewrite elem_of_app. by left.
Qed.

Lemma walk_cost s A t D d ps l1 fuel :
  core s A t D -> sz s = Z.of_nat (length (queue A)) ->
  listing cmp A d (l1 ++ map fst ps) -> Forall (fun p => vals A !! fst p = Some (snd p)) ps -> length ps < fuel ->
  mwalk_c fuel s d (hd 0 (map fst ps)) = Ok (ps, Work 0 (sum_list (drop (length l1) (spread D (ord d (nodes t)) (next_costs d 1 t))))).
Proof.
  intros H Hsz. assert (repr s A) as Hr by (split; [by exists t, D|done]).
  revert ps l1. induction fuel as [|f IH]; intros ps l1 Ho HF Hlen; [lia|].
  destruct ps as [|[x kv] ps]; cbn [map fst hd mwalk_c].
  { cb. rewrite drop_ge; [done|]. cbn [map] in Ho. rewrite app_nil_r in Ho.
    rewrite spread_length by (by rewrite next_costs_length, ord_length).
    by rewrite <- (listing_is cmp Hcmp A _ D d _ (co_groups _ _ _ _ _ _ H) Ho). }
  apply Forall_cons in HF as [Hx HF]. cbn [fst snd] in Hx.
  destruct (repr_live cmp alloc s A x kv Hr Hx) as (_ & Hx0 & _). rewrite (proj2 (Nat.eqb_neq x 0)) by done.
  rewrite (repr_value cmp alloc s A x kv) by done. bind. cbn [map fst] in Ho.
  destruct (next_cost s A t D d x l1 (map fst ps) H Hsz Ho) as (i & Hi & -> & _). cb.
  rewrite (IH ps (l1 ++ [x])); [|by rewrite <- app_assoc|done|cbn in Hlen; lia]. cb.
  rewrite add_idle. unfold add_work. cbn [turns hops]. rewrite app_length. cbn [length].
  rewrite (drop_S _ i (length l1)) by done. cbn [sum_list_with]. unfold id.
  by rewrite (Nat.add_1_r (length l1)).
Qed.

Lemma core_nodes_le s A t D : core s A t D -> length (nodes t) <= length (queue A).
Proof.
  intros H. apply submseteq_length, NoDup_submseteq; [apply (core_nodes cmp alloc s A t D H)|].
  intros n. apply (core_node cmp alloc s A t D H).
Qed.

(** The whole walk. *)
Lemma iter_cost s A d :
  repr s A ->
  exists ps w, omm_iter_c s d = Ok (ps, w) /\ turns w = 0 /\ hops w <= 2 * length ps.
Proof.
  intros Hr. destruct (repr_listing cmp Hcmp alloc s A d Hr) as (l & ps & Hl & [Hps HF]).
  pose proof (repr_length cmp alloc s A Hr) as Hroom. pose proof Hr as [(t & D & H) Hsz].
  assert (length ps = length (queue A)) as Hlen. { by rewrite <- (proj1 Hl), <- Hps, map_length. }
  pose proof (core_nodes_le s A t D H) as Hle.
  eexists ps, _. split.
  - unfold omm_iter_c. rewrite (begin_cost s A t D d l H Hsz Hl). cb. rewrite <- Hps.
    rewrite (walk_cost s A t D d ps []); [|done|done|by cbn [app]; rewrite Hps|done|lia]. cb. cbn [length drop]. reflexivity.
  - cbn [turns hops add_work]. split; [lia|].
    rewrite drop_0, spread_sum by (by rewrite next_costs_length, ord_length).
    destruct t as [|a x b]; [cbn; lia|].
    pose proof (next_costs_sum d 1 (T a x b) ltac:(done)). lia.
Qed.

Lemma spread_elem D ns : forall is i, i ∈ spread D ns is -> i = 0 \/ i ∈ is.
Proof.
  induction ns as [|n ns IH]; intros [|j is] i; try (by intros ?%elem_of_nil). cbn [spread].
  rewrite elem_of_app, elem_of_cons. intros [[-> _]%elem_of_replicate|[-> |Hi]]; [by left|right; left|].
  apply IH in Hi as [|]; [by left|right; by right].
Qed.

Lemma begin_linear s A d l : repr s A -> listing cmp A d l -> exists w, omm_begin_c s d = Ok (hd 0 l, w) /\
  turns w = 0 /\ hops w <= length (queue A).
Proof.
  intros [(t & D & H) Hsz] Hl. eexists. split; [by apply (begin_cost s A t D)|]. cbn [turns hops]. split; [done|].
  pose proof (core_nodes_le s A t D H). pose proof (edge_length_le (negb d) t). lia.
Qed.
Lemma next_linear s A d x l1 l2 : repr s A -> listing cmp A d (l1 ++ x :: l2) ->
  exists w, omm_next_c s d x = Ok (hd 0 l2, w) /\ turns w = 0 /\ hops w <= length (queue A) /\
    (forall y a b, head l2 = Some y -> vals A !! x = Some a -> vals A !! y = Some b -> cmp (fst a) (fst b) = Eq -> hops w = 0).
Proof.
  intros [(t & D & H) Hsz] Hl. destruct (next_cost s A t D d x l1 l2 H Hsz Hl) as (i & Hi & Hn & Hfree).
  eexists. split; [exact Hn|]. cbn [turns hops]. split; [done|]. split; [|done].
  pose proof (core_nodes_le s A t D H). apply elem_of_list_lookup_2, spread_elem in Hi as [-> |Hi]; [lia|].
  apply next_costs_le in Hi; lia.
Qed.
End walk.

(** ** The worst case *)

Lemma sunk_fits m : exists s rs w, run_c om_init (sinkings m) = Ok ((s, rs), w) /\
  fits m s (sunk m) (chain false (down m)) /\ calls Z.compare kept start (sinkings m) rs (sunk m).
Proof. apply sinkings_run. lia. Qed.

Lemma sinkings_length m : length (sinkings m) = m + m.
Proof. induction m as [|m IH]; [done|]. cbn [sinkings]. rewrite app_length, IH. cbn. lia. Qed.
Lemma sinkings_still m : Forall (fun o => walks o = false) (sinkings m).
Proof. induction m as [|m IH]; [by constructor|]. cbn [sinkings]. apply Forall_app. split; [done|]. by repeat constructor. Qed.
Lemma calls_repeat {K V} (cmp : K -> K -> comparison) c (A : view K V) o r m :
  call cmp c A o r A -> calls cmp c A (repeat o m) (repeat r m) A.
Proof. intros Hc. induction m as [|m IH]; cbn; [constructor|by econstructor]. Qed.
Lemma run_hops_app {K V} (cmp : K -> K -> comparison) alloc off (s s1 s2 : om K V) os1 os2 rs1 rs2 w1 w2 :
  omm_run_c cmp alloc off s os1 = Ok ((s1, rs1), w1) -> omm_run_c cmp alloc off s1 os2 = Ok ((s2, rs2), w2) ->
  exists w, omm_run_c cmp alloc off s (os1 ++ os2) = Ok ((s2, rs1 ++ rs2), w) /\ hops w = hops w1 + hops w2.
Proof.
  revert s rs1 w1. induction os1 as [|o os1 IH]; intros s rs1 w1 H1 H2; cbn [omm_run_c app] in *.
  - injection H1 as <- <- <-. by exists w2.
  - destruct (omm_step_c cmp alloc off s o) as [[[s' r] w]| |]; try done.
    revert H1. cb. destruct (omm_run_c cmp alloc off s' os1) as [[[s'' rs] w']| |] eqn:Hrun; try done. cb.
    intros [= <- <- <-]. destruct (IH s' rs w' Hrun H2) as (w'' & -> & Hw). cb.
    eexists. split; [done|]. cbn [hops add_work idle]. lia.
Qed.
Lemma run_repeat {K V} (cmp : K -> K -> comparison) alloc off (s : om K V) o r h :
  (exists w, omm_step_c cmp alloc off s o = Ok ((s, r), w) /\ h <= hops w) ->
  forall m, exists w, omm_run_c cmp alloc off s (repeat o m) = Ok ((s, repeat r m), w) /\ m * h <= hops w.
Proof.
  intros (w1 & H1 & Hw1). induction m as [|m (w2 & H2 & Hw2)]; [by exists idle|].
  eexists. cbn [repeat omm_run_c]. rewrite H1. cb. rewrite H2. cb. split; [done|]. cbn [hops add_work idle]. lia.
Qed.

(** A call that follows a chain. *)
Lemma dear o : (forall m, 1 <= m -> exists r, call Z.compare kept (sunk m) o r (sunk m) /\
    forall s, fits m s (sunk m) (chain false (down m)) -> exists w, omm_step_c Z.compare false 0 s o = Ok ((s, r), w) /\ m <= hops w) ->
  forall c, exists (ops : list (mm_op Z nat)) rs A s w,
    calls Z.compare kept start ops rs A /\ run_c om_init ops = Ok ((s, rs), w) /\
    Forall (fun o' => walks o' = true -> o' = o) ops /\ length (queue A) <= length ops /\
    c * (length ops * (1 + Nat.log2_up (length (queue A) + 1))) < hops w.
Proof.
  intros Hstep c. destruct (outgrows (2 * c)) as (m & Hm & Hout). specialize (Hout m ltac:(lia)).
  destruct (sunk_fits m) as (s & rs & w1 & Hrun1 & Hf & Hc). destruct (Hstep m Hm) as (r & Hcall & Hs).
  destruct (run_repeat Z.compare false 0 s o r m (Hs s Hf) m) as (w2 & Hrun2 & Hw2).
  destruct (run_hops_app _ _ _ _ _ _ _ _ _ _ _ _ Hrun1 Hrun2) as (w & Hrun & Hw).
  exists (sinkings m ++ repeat o m), (rs ++ repeat r m), (sunk m), s, w. split_and!; [|exact Hrun| | |].
  - eapply calls_app; [exact Hc|]. by apply calls_repeat.
  - apply Forall_app. split.
    + eapply Forall_impl; [apply sinkings_still|]. cbn. intros o' -> ?. done.
    + apply Forall_forall. intros o' Ho' _. by apply elem_of_list_In, repeat_spec in Ho'.
  - rewrite app_length, repeat_length, sinkings_length, sunk_length. lia.
  - rewrite app_length, repeat_length, sinkings_length, sunk_length. nia.
Qed.

Lemma begin_dear c : exists (ops : list (mm_op Z nat)) rs A s w,
  calls Z.compare kept start ops rs A /\ run_c om_init ops = Ok ((s, rs), w) /\
  Forall (fun o' => walks o' = true -> o' = OBegin) ops /\ length (queue A) <= length ops /\
  c * (length ops * (1 + Nat.log2_up (length (queue A) + 1))) < hops w.
Proof.
  apply dear. intros m Hm. destruct (sunk_fits m) as (s0 & _ & _ & _ & Hf0 & _). pose proof (fits_repr Z.compare false m _ _ _ Hf0) as Hr0.
  destruct (repr_listing Z.compare total_preorder_Z false s0 (sunk m) false Hr0) as (l & _ & Hl & _).
  exists (OPtr (hd 0 l)). split; [by constructor|]. intros s ((D & H) & Hsz & _). eexists. cbn [omm_step_c].
  rewrite (begin_cost Z.compare total_preorder_Z false s (sunk m) _ D false l H Hsz Hl). cb. split; [done|].
  cbn [hops add_work idle]. pose proof (chain_edge false (down m)) as He. rewrite down_length in He. cbn [negb] in *. lia.
Qed.

Lemma chain_nodes l : nodes (chain false l) = l.
Proof. induction l as [|x l IH]; [done|]. cbn. by rewrite IH. Qed.
Lemma rows_single D l : (forall x, x ∈ l -> D x = []) -> rows D l = l.
Proof.
  intros H. induction l as [|x l IH]; [done|]. change (rows D (x :: l)) with (x :: D x ++ rows D l).
  rewrite H by left. cbn [app]. f_equal. apply IH. intros y Hy. apply H. by right.
Qed.
Lemma spread_single D l : (forall x, x ∈ l -> D x = []) -> forall is, length l = length is -> spread D l is = is.
Proof.
  intros H. induction l as [|x l IH]; intros [|i is] Hl; try done. cbn [spread]. rewrite H by left. cbn [replicate length app]. f_equal.
  apply IH; [|by injection Hl]. intros y Hy. apply H. by right.
Qed.
Lemma next_dear c : exists (ops : list (mm_op Z nat)) rs A s w,
  calls Z.compare kept start ops rs A /\ run_c om_init ops = Ok ((s, rs), w) /\
  Forall (fun o' => walks o' = true -> o' = ORNext 2) ops /\ length (queue A) <= length ops /\
  c * (length ops * (1 + Nat.log2_up (length (queue A) + 1))) < hops w.
Proof.
  apply dear. intros m Hm. destruct m as [|m]; [lia|]. destruct (down_last m) as (u & Hu & Hlen & _).
  assert (forall D s, core Z.compare false s (sunk (S m)) (chain false (down (S m))) D -> listing Z.compare (sunk (S m)) true (u ++ [2])) as Hl.
  { intros D s H. pose proof (listing_rows Z.compare total_preorder_Z _ _ D true (co_groups _ _ _ _ _ _ H)) as Hl.
    rewrite rows_single in Hl.
    - cbn [ord] in Hl. by rewrite chain_nodes, Hu in Hl.
    - intros x Hx%elem_of_ord. by apply (sunk_single s (S m) _ D x H). }
  destruct (sunk_fits (S m)) as (s0 & _ & _ & _ & ((D0 & H0) & _) & _). apply Hl in H0. clear Hl.
  exists (OPtr 0). split; [by apply (call_rnext Z.compare kept (sunk (S m)) 2 u [])|]. intros s ((D & H) & Hsz & _).
  destruct (next_cost Z.compare total_preorder_Z false s (sunk (S m)) _ D true 2 u [] H Hsz H0) as (i & Hi & Hn & _).
  eexists. cbn [omm_step_c]. rewrite Hn. cb. split; [done|]. cbn [hops add_work idle].
  rewrite spread_single in Hi; [|intros x Hx%elem_of_ord; by apply (sunk_single s (S m) _ D x H)|by rewrite next_costs_length, ord_length].
  rewrite Hu in Hi. pose proof (chain_climb false u 1 2) as Hc. cbn [negb] in Hc. rewrite Hc in Hi. injection Hi as <-. lia.
Qed.

(** ** Histories *)

Section histories.
Context {K V : Type} (cmp : K -> K -> comparison) (Hcmp : total_preorder cmp) (alloc : bool) (off : nat).
Context (ops : list (mm_op K V)) (rs : list (mm_res K V)) (A : view K V) (Hc : calls cmp (OmmSpec.kept alloc off) start ops rs A).

Lemma history_iter d : exists s ps w, omm_run cmp alloc off om_init ops = Ok (s, rs) /\ omm_iter_c s d = Ok (ps, w) /\
  omm_iter s d = Ok ps /\ map fst ps ≡ₚ queue A /\ turns w = 0 /\ hops w <= 2 * length (queue A).
Proof.
  destruct (run_Ok cmp Hcmp alloc off om_init start ops rs A (repr_init cmp alloc) Hc) as (s & Hrun & Hr).
  destruct (iter_cost cmp Hcmp alloc s A d Hr) as (ps & w & Hi & Ht & Hh). exists s, ps, w.
  assert (omm_iter s d = Ok ps) as Hps by (rewrite <- omm_iter_erase; apply erase_Ok; by exists w).
  assert (map fst ps ≡ₚ queue A) as Hp.
  { destruct (repr_listing cmp Hcmp alloc s A d Hr) as (l & ps' & Hl & Hd). pose proof (iter_Ok cmp Hcmp alloc s A d l ps' Hr Hl Hd) as Hi'.
    assert (ps' = ps) as -> by congruence. destruct Hd as [-> _]. apply Hl. }
  split_and!; try done. by rewrite <- Hp, map_length.
Qed.
Lemma history_begin d l : listing cmp A d l -> exists s w, omm_run cmp alloc off om_init ops = Ok (s, rs) /\
  omm_begin_c s d = Ok (hd 0 l, w) /\ turns w = 0 /\ hops w <= length (queue A).
Proof.
  intros Hl. destruct (run_Ok cmp Hcmp alloc off om_init start ops rs A (repr_init cmp alloc) Hc) as (s & Hrun & Hr).
  destruct (begin_linear cmp Hcmp alloc s A d l Hr Hl) as (w & ?). by exists s, w.
Qed.
Lemma history_next d x l1 l2 : listing cmp A d (l1 ++ x :: l2) -> exists s w, omm_run cmp alloc off om_init ops = Ok (s, rs) /\
  omm_next_c s d x = Ok (hd 0 l2, w) /\ turns w = 0 /\ hops w <= length (queue A) /\
  (forall y a b, head l2 = Some y -> vals A !! x = Some a -> vals A !! y = Some b -> cmp (fst a) (fst b) = Eq -> hops w = 0).
Proof.
  intros Hl. destruct (run_Ok cmp Hcmp alloc off om_init start ops rs A (repr_init cmp alloc) Hc) as (s & Hrun & Hr).
  destruct (next_linear cmp Hcmp alloc s A d x l1 l2 Hr Hl) as (w & ?). by exists s, w.
Qed.
End histories.
