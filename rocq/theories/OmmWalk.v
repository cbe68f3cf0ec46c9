(** Walking the multimap's tree with its rings, and validating it. *)
From Coq Require Import Sorted.
From stdpp Require Import base numbers option gmap fin_maps list.
From Verif Require Import Common LinkHeap PathLemmas OrderSpec TreeModel TreeProofs OmModel OmmModel
  OmmProofs OmmRings OmmGroups.

Local Ltac bind := cbn [mbind outcome_bind obind].

Lemma wf_shadow h t D : wf h t D -> shadow D (nodes t) (flat D (nodes t) h) h /\ tidy (nodes t) (flat D (nodes t) h).
Proof.
  intros H. pose proof (wf_follows h t D [] H NoDup_nil_2) as Hf.
  feed specialize Hf; [by intros z Hz%elem_of_nil|]. destruct Hf as (? & ? & _). done.
Qed.

Lemma ptr_nodes t : ptr t ∈ nil :: nodes t.
Proof. assert (t = E \/ t <> E) as [-> |Hne] by (destruct t; auto); [left|right; by apply ptr_in]. Qed.

(** ** The tree *)

Lemma edge_br h g d n : lf g = lf h -> rt g = rt h -> edge nil h d n = edge nil g d n.
Proof.
  intros Hl Hr. unfold edge. rewrite Hl. generalize (S (size (lf h))) as f. intros f. revert n.
  assert (br g d = br h d) as Hbr by (by destruct d).
  induction f as [|f IH]; intros n; cbn; [done|]. rewrite Hbr. destruct (rd (br h d) n) as [c| |]; bind; try done.
  destruct (c =? nil); [done|]. apply IH.
Qed.

Lemma mclimb_Ok D N g h d : shadow D N g h -> tidy N g -> forall f n p, p ∈ nil :: N ->
  mclimb f h d n p = climb nil f g d n p.
Proof.
  intros Hs Ht. induction f as [|f IH]; intros n p Hp; cbn; [done|].
  destruct (Nat.eqb_spec p nil) as [|Hne]; [done|]. apply elem_of_cons in Hp as [?|Hp]; [done|].
  rewrite (shadow_br D N g h (negb d) Hs). destruct (rd (br g (negb d)) p) as [c| |]; bind; try done.
  destruct (c =? n); [done|]. rewrite (parent_r_Ok D N g h) by done.
  destruct Ht as (_ & Hc & _). destruct (Hc p Hp) as [(q & Hq & Hqi) _].
  rewrite (rd_Ok _ _ _ Hq). bind. by apply IH.
Qed.

Lemma mtree_next_Ok h t D d n l1 l2 :
  wf h t D -> ord d (nodes t) = l1 ++ n :: l2 -> mtree_next h (ptr t) d n = Ok (default nil (head l2)).
Proof.
  intros H Ho. destruct (wf_shadow h t D H) as [Hs Ht]. set (g := flat D (nodes t) h) in *.
  assert (n ∈ nodes t) as Hn. { apply (elem_of_ord d). rewrite Ho, elem_of_app. right. left. }
  pose proof (wf_apart _ _ _ H) as (Hnd & Hnil & H0 & _).
  rewrite <- (tree_next_Ok nil g d t n l1 l2); [|apply (wf_rep _ _ _ H)|done|done].
  unfold mtree_next, tree_next.
  destruct (Nat.eqb_spec n 0) as [-> |_]; [done|]. destruct (Nat.eqb_spec n nil) as [-> |_]; [done|]. cbn [orb].
  assert (ptr t ∈ nodes t) as Hroot. { apply ptr_in. intros ->. by apply elem_of_nil in Hn. }
  assert (pa g !! ptr t = Some nil) as Hrp.
  { pose proof (wf_rep _ _ _ H) as Hr. destruct t as [|a y b]; [by apply elem_of_nil in Hn|]. by destruct Hr as (_ & _ & ? & _). }
  rewrite !(parent_r_Ok D (nodes t) g h) by done. rewrite (shadow_br D (nodes t) g h d Hs).
  rewrite (rd_Ok _ _ _ Hrp). bind. cbn [oassert Nat.eqb nil]. bind.
  destruct (rd (br g d) n) as [c| |]; bind; try done.
  destruct (c =? nil); cbn [negb].
  - pose proof Ht as (_ & Hc & _).
    destruct (Hc n Hn) as [(q & Hq & Hqi) _]. rewrite (rd_Ok _ _ _ Hq). bind.
    by apply (mclimb_Ok D (nodes t)).
  - by apply edge_br.
Qed.

Lemma rep_parent g q t n : rep g q t -> n ∈ nodes t ->
  n = ptr t /\ pa g !! n = Some q \/
  exists p (d : bool), p ∈ nodes t /\ pa g !! n = Some p /\ br g d !! p = Some n.
Proof.
  revert q. induction t as [|l IHl x r IHr]; intros q Hr Hn; [by apply elem_of_nil in Hn|].
  destruct Hr as (Hlf & Hrt & Hpa & Hx & Hrl & Hrr). cbn [nodes] in *.
  assert (x ∈ nodes l ++ x :: nodes r) as Hxin by (rewrite elem_of_app; right; left).
  apply elem_of_app in Hn as [Hn|[-> |Hn]%elem_of_cons].
  - right. destruct (IHl x Hrl Hn) as [[-> Hp]|(p & d & Hp & Hpa' & Hbr)].
    + exists x, false. done.
    + exists p, d. split_and!; try done. rewrite elem_of_app. auto.
  - by left.
  - right. destruct (IHr x Hrr Hn) as [[-> Hp]|(p & d & Hp & Hpa' & Hbr)].
    + exists x, true. done.
    + exists p, d. split_and!; try done. rewrite elem_of_app, elem_of_cons. auto.
Qed.

(** The node that keeps the parent of tree node [n] is enough to continue from [n]. *)
Lemma next_tree_node_Ok h t D d n e r l1 l2 :
  wf h t D -> ord d (nodes t) = l1 ++ n :: l2 -> D n = e :: r ->
  next_tree_node h (ptr t) d e = Ok (default nil (head l2)).
Proof.
  intros H Ho ED. destruct (wf_shadow h t D H) as [Hs Ht]. set (g := flat D (nodes t) h) in *.
  assert (n ∈ nodes t) as Hn. { apply (elem_of_ord d). rewrite Ho, elem_of_app. right. left. }
  pose proof (wf_apart _ _ _ H) as (Hnd & Hnil & H0 & HD & Hd & Hi).
  pose proof Hs as (Hlf & Hrt & _ & Hpa & Hring & Hn0 & _).
  assert (pa g !! n = pa h !! e) as Hpe.
  { rewrite (Hpa n) by (by right). by rewrite ED. }
  destruct (Hd n e) as (HeN & Hen & He0); [rewrite ED; left|].
  assert (forall c, c ∈ nodes t -> pa h !! c = Some e <-> c = n) as Hkey.
  { intros c Hc. split.
    - intros Hpc. specialize (Hring c Hc). destruct (D c) as [|d' r'] eqn:EDc.
      + specialize (Hpa c (elem_of_list_further _ _ _ Hc)). rewrite EDc in Hpa. cbn [hd] in Hpa.
        destruct Ht as (_ & Hcl & _). destruct (Hcl c Hc) as [(q & Hq & Hqi) _].
        assert (q = e) as -> by congruence. by apply elem_of_cons in Hqi as [?|?].
      + destruct Hring as (Hp & _). assert (d' = e) as -> by congruence.
        apply (Hi c n e); [rewrite EDc; left|rewrite ED; left].
    - intros ->. specialize (Hring n Hn). rewrite ED in Hring. by destruct Hring as (? & _). }
  unfold next_tree_node.
  destruct (rep_parent g nil t n (wf_rep _ _ _ H) Hn) as [[-> Hp]|(p & dd & Hp & Hpp & Hbr)].
  - rewrite Hp in Hpe. rewrite (rd_Ok (pa h) e nil) by done. bind. rewrite Nat.eqb_refl.
    by apply (mtree_next_Ok h t D d _ l1 l2).
  - rewrite Hpp in Hpe. rewrite (rd_Ok (pa h) e p) by done. bind.
    destruct (Nat.eqb_spec p nil) as [-> |_]; [done|].
    destruct Ht as (_ & Hcl & _). destruct (Hcl p Hp) as [_ Hb].
    assert (forall b, exists o, (c ← rd (br h b) p; if c =? nil then Ok None
        else x ← rd (pa h) c; Ok (if x =? e then Some c else None)) = Ok o /\
        (o = Some n \/ o = None) /\ (b = dd -> o = Some n)) as Hchild.
    { intros b. rewrite (shadow_br D (nodes t) g h b Hs). destruct (Hb b) as (c & Hc & Hci).
      rewrite (rd_Ok _ _ _ Hc). bind. destruct (Nat.eqb_spec c nil) as [-> |Hcn].
      - exists None. split_and!; [done|by right|]. intros ->. exfalso. apply Hnil. congruence.
      - apply elem_of_cons in Hci as [?|Hci]; [done|].
        destruct (wf_node h t D c H Hci) as [_ (_ & _ & [x Hx])]. rewrite (rd_Ok _ _ _ Hx). bind.
        eexists. split; [done|]. destruct (Nat.eqb_spec x e) as [-> |Hxe].
        + apply (Hkey c Hci) in Hx as ->. split; [by left|done].
        + split; [by right|]. intros ->. exfalso. apply Hxe. assert (c = n) as -> by congruence.
          pose proof (proj2 (Hkey n Hn) eq_refl). congruence. }
    destruct (Hchild false) as (o1 & -> & Ho1 & Hd1). bind.
    destruct Ho1 as [-> | ->]; [by apply (mtree_next_Ok h t D d _ l1 l2)|].
    destruct (Hchild true) as (o2 & -> & Ho2 & Hd2). bind.
    destruct Ho2 as [-> | ->]; [by apply (mtree_next_Ok h t D d _ l1 l2)|].
    exfalso. destruct dd; [by specialize (Hd2 eq_refl)|by specialize (Hd1 eq_refl)].
Qed.

(** ** Rows *)

(** Elements of the map know whether they are in the middle of a ring. *)
Lemma wf_pa_zero h t D n x : wf h t D -> n ∈ nodes t -> x ∈ n :: D n ->
  exists p, pa h !! x = Some p /\ (p = 0 <-> x ∈ tail (D n)).
Proof.
  intros H Hn Hx. destruct (wf_shadow h t D H) as [Hs Ht].
  pose proof (wf_apart _ _ _ H) as (Hnd & Hnil & H0 & HD & Hd & Hi).
  pose proof (wf_ring _ _ _ H n Hn) as Hring. specialize (Hd n). specialize (HD n).
  destruct Ht as (_ & Hcl & _). destruct (Hcl n Hn) as [(p & Hp & Hpi) _]. rewrite flat_in in Hp by done.
  assert (p <> 0) as Hp0. { intros ->. by apply elem_of_cons in Hpi as [?|?]. }
  destruct (D n) as [|e r]; cbn [hd tail] in *.
  - apply elem_of_list_singleton in Hx as ->. exists p. split; [done|]. split; [done|by intros ?%elem_of_nil].
  - destruct Hring as (Hpn & _ & Hz). apply NoDup_cons in HD as [HD _].
    apply elem_of_cons in Hx as [-> |[-> |Hx]%elem_of_cons].
    + exists e. split; [done|]. split; [intros ->; by destruct (Hd 0) as (_ & _ & ?); [left|]|].
      intros Hin. by destruct (Hd n) as (? & _); [by right|].
    + exists p. done.
    + exists 0. rewrite Forall_forall in Hz. split; [by apply Hz|done].
Qed.

Lemma head_rows D l : head (rows D l) = head l.
Proof. by destruct l. Qed.

Lemma multimap_next_Ok h t D d e l1 l2 :
  wf h t D -> rows D (ord d (nodes t)) = l1 ++ e :: l2 -> NoDup (rows D (ord d (nodes t))) ->
  multimap_next h (ptr t) d e = Ok (default nil (head l2)).
Proof.
  intros H Hrows Hndr. destruct (wf_shadow h t D H) as [Hs Ht].
  assert (e ∈ rows D (ord d (nodes t))) as He by (rewrite Hrows, elem_of_app; right; left).
  apply elem_of_rows in He as (n & Hno & He). apply elem_of_list_split in Hno as (u & v & Ho).
  assert (n ∈ nodes t) as Hn. { apply (elem_of_ord d). rewrite Ho, elem_of_app. right. left. }
  assert (forall m1 m2, n :: D n = m1 ++ e :: m2 -> default nil (head l2) =
    match m2 with [] => default nil (head v) | y :: _ => y end) as Hnext.
  { intros m1 m2 Em. rewrite Ho, rows_app in Hrows, Hndr.
    change (rows D (n :: v)) with ((n :: D n) ++ rows D v) in Hrows, Hndr. rewrite Em in Hrows, Hndr.
    rewrite <- app_assoc in Hrows, Hndr. rewrite app_assoc in Hrows, Hndr. cbn [app] in Hrows, Hndr.
    destruct (split_unique _ _ _ _ _ Hndr Hrows) as [_ <-].
    destruct m2; [|done]. cbn [app]. by rewrite head_rows. }
  pose proof (wf_apart _ _ _ H) as (Hnd & Hnil & H0 & HD & Hd & Hi). specialize (Hd n). specialize (HD n).
  destruct (wf_pa_zero h t D n e H Hn He) as (p & Hp & Hp0).
  pose proof (fun x => wf_pa_zero h t D n x H Hn) as Hz.
  pose proof (wf_ring _ _ _ H n Hn) as Hring.
  unfold multimap_next. rewrite (rd_Ok _ _ _ Hp). bind.
  apply elem_of_cons in He as [-> |He].
  - (* the tree node *)
    assert (p <> 0) as Hpne.
    { intros Hp'. apply Hp0 in Hp'. assert (n ∈ D n) as Hin by (destruct (D n); [done|by right]).
      by destruct (Hd n Hin) as (? & _). }
    rewrite (proj2 (Nat.eqb_neq p 0)) by done.
    assert (is_dup_head h n = Ok false) as ->.
    { unfold is_dup_head. destruct (Nat.eqb_spec n nil) as [|_]; [done|].
      destruct Ht as (_ & Hcl & HNC). destruct (Hcl n Hn) as [_ Hb]. destruct (Hb false) as (c & Hc & Hci).
      rewrite (rd_Ok (lf h) n c) by done. bind. destruct (Nat.eqb_spec c nil) as [|Hcn]; [done|].
      apply elem_of_cons in Hci as [?|Hci]; [done|]. destruct (Hcl c Hci) as [_ Hb']. destruct (Hb' true) as (y & Hy & _).
      rewrite (rd_Ok (rt h) c y) by done. bind. destruct (Nat.eqb_spec y n) as [-> |]; [|done].
      exfalso. by apply (HNC n c). }
    bind. rewrite (has_dups_Ok D (nodes t) (flat D (nodes t) h) h) by (first [done|by right]). bind.
    rewrite (Hnext [] (D n) eq_refl). unfold dup. destruct (D n) as [|e r] eqn:ED.
    + by apply (mtree_next_Ok h t D d n u v).
    + destruct Hring as (Hpn & _). f_equal. congruence.
  - (* in the ring *)
    destruct (D n) as [|e1 r] eqn:ED; [by apply elem_of_nil in He|].
    assert (next_tree_node h (ptr t) d e1 = Ok (default nil (head v))) as Hntn.
    { by apply (next_tree_node_Ok h t D d n e1 r u v). }
    destruct (Hz e1) as (p1 & Hp1 & Hp1z); [right; left|]. cbn [tail] in *.
    assert (p1 <> 0) as Hp1ne. { intros Hp1'. apply Hp1z in Hp1'. by apply NoDup_cons in HD as [? _]. }
    destruct Hring as (_ & Hlink & Hall). rewrite Forall_forall in Hall.
    apply elem_of_cons in He as [-> |He].
    + assert (p <> 0) as Hpne by congruence. rewrite (proj2 (Nat.eqb_neq p 0)) by done.
      assert (is_dup_head h e1 = Ok true) as ->.
      { unfold is_dup_head. destruct (Hd e1) as (_ & He1n & _); [left|].
        rewrite (proj2 (Nat.eqb_neq e1 nil)) by done.
        destruct (ring_last h n e1 r) as (z & Hzin & Hlz & Hrz).
        { pose proof (wf_ring _ _ _ H n Hn) as Hr. by rewrite ED in Hr. }
        rewrite (rd_Ok _ _ _ Hlz). bind. destruct (Hd z Hzin) as (_ & Hzn & _).
        rewrite (proj2 (Nat.eqb_neq z nil)) by done. rewrite (rd_Ok _ _ _ Hrz). bind. by rewrite Nat.eqb_refl. }
      bind. rewrite (Hnext [n] r) by done.
      pose proof (linked_next h [] e1 r Hlink) as Hrt. rewrite app_nil_r in Hrt.
      unfold is_dup_head_next. rewrite (rd_Ok _ _ _ Hrt). bind. destruct r as [|m r]; cbn [hd].
      * rewrite (rd_Ok _ _ _ Hp1). bind. by rewrite (proj2 (Nat.eqb_neq p1 0)) by done.
      * rewrite (rd_Ok (pa h) m 0) by (apply Hall; left). bind. done.
    + assert (p = 0) as -> by (by apply Hp0). cbn [Nat.eqb].
      apply elem_of_list_split in He as (m1 & m2 & ->).
      change (e1 :: m1 ++ e :: m2) with ((e1 :: m1) ++ e :: m2) in *.
      pose proof (linked_next _ _ _ _ Hlink) as Hrt.
      rewrite (Hnext (n :: e1 :: m1) m2) by done.
      unfold is_dup_head_next. rewrite (rd_Ok _ _ _ Hrt). bind. destruct m2 as [|m m2]; cbn [hd app].
      * rewrite (rd_Ok _ _ _ Hp1). bind. by rewrite (proj2 (Nat.eqb_neq p1 0)) by done.
      * rewrite (rd_Ok (pa h) m 0); [bind; done|]. apply Hall. rewrite elem_of_app. right. right. left.
Qed.

(** ** Validation *)

Lemma wf_size h t D l : wf h t D -> NoDup l -> (forall x, x ∈ l -> span D (nodes t) x) -> length l <= size (lf h).
Proof.
  intros H Hnd Hsp. assert (list_to_set l ⊆ dom (lf h)) as Hs.
  { intros z Hz%elem_of_list_to_set. apply elem_of_dom. destruct (wf_live h t D z H) as (? & _); auto. }
  apply subseteq_size in Hs. rewrite size_list_to_set in Hs by done. by rewrite size_dom in Hs.
Qed.

Lemma count_loop_Ok h e l : forall f, path (rt h) l e -> e ∉ l -> length l < f ->
  count_loop f h e (hd e l) = Ok (Z.of_nat (length l)).
Proof.
  induction l as [|x l IH]; intros f Hp He Hf; destruct f as [|f]; cbn in Hf; try lia; cbn [count_loop hd].
  - by rewrite Nat.eqb_refl.
  - apply not_elem_of_cons in He as [Hne He]. rewrite (proj2 (Nat.eqb_neq x e)) by done.
    destruct Hp as [Hx Hp]. rewrite (rd_Ok _ _ _ Hx). bind.
    assert (hd e l = match l with [] => e | y :: _ => y end) as Ehd by (by destruct l).
    rewrite <- Ehd || idtac. rewrite IH; [bind; f_equal; cbn [length]; lia|done|done|lia].
Qed.

Lemma count_dups_Ok h t D n : wf h t D -> n ∈ nodes t -> count_dups h n = Ok (Z.of_nat (length (D n))).
Proof.
  intros H Hn. destruct (wf_shadow h t D H) as [Hs Ht]. unfold count_dups.
  rewrite (has_dups_Ok D (nodes t) (flat D (nodes t) h) h) by (first [done|by right]). bind.
  pose proof (wf_ring _ _ _ H n Hn) as Hring. pose proof (wf_apart _ _ _ H) as (_ & _ & _ & HD & _). specialize (HD n).
  assert (length (D n) <= size (lf h)) as Hlen.
  { apply (wf_size h t D); [done|done|]. intros x Hx. right. exists n. split; [done|by right]. }
  unfold dup. destruct (D n) as [|e r] eqn:ED; cbn [negb]; [done|].
  destruct Hring as (Hp & Hlink & _). rewrite (rd_Ok _ _ _ Hp). bind.
  pose proof (linked_next h [] e r Hlink) as Hr. rewrite app_nil_r in Hr. rewrite (rd_Ok _ _ _ Hr). bind.
  destruct Hlink as [Hc _]. unfold circle in Hc. cbn [hd] in Hc. apply NoDup_cons in HD as [HD1 HD2].
  rewrite (count_loop_Ok h e r); [bind; f_equal; cbn [length]; lia| |done|cbn [length] in Hlen; lia].
  change (e :: r) with ([e] ++ r) in Hc. by apply path_app in Hc as [_ ?].
Qed.

Section validate.
Context (h : links) (t : tree) (D : nat -> list nat) (H : wf h t D).
Notation g := (flat D (nodes t) h).

Lemma mrecursive_size_Ok u p f : rep g p u -> (forall z, z ∈ nodes u -> z ∈ nodes t) -> length (nodes u) < f ->
  mrecursive_size f h (ptr u) = Ok (Z.of_nat (length (rows D (nodes u)))).
Proof.
  revert p f. induction u as [|l IHl x r IHr]; intros p f Hr Hin Hf; destruct f as [|f]; try (cbn in Hf; lia).
  { done. }
  destruct Hr as (Hlf & Hrt & Hpa & Hx & Hrl & Hrr). cbn [nodes] in *. rewrite app_length in Hf. cbn [length] in Hf.
  cbn [mrecursive_size ptr TreeProofs.ptr]. rewrite (proj2 (Nat.eqb_neq x nil)) by done.
  rewrite (count_dups_Ok h t D x H) by (apply Hin; rewrite elem_of_app; right; left). bind.
  rewrite (rd_Ok (rt h) x (ptr r)) by done. bind. rewrite (rd_Ok (lf h) x (ptr l)) by done. bind.
  rewrite (IHr x f), (IHl x f); [| done | | lia | done | | lia].
  - bind. f_equal. rewrite rows_app. change (rows D (x :: nodes r)) with ((x :: D x) ++ rows D (nodes r)).
    rewrite !app_length. cbn [length]. lia.
  - intros z Hz. apply Hin. rewrite elem_of_app. auto.
  - intros z Hz. apply Hin. rewrite elem_of_app, elem_of_cons. auto.
Qed.

Lemma mstoring_parent_Ok u p f : rep g p u -> (forall z, z ∈ nodes u -> z ∈ nodes t) -> length (nodes u) < f ->
  mstoring_parent f h p (ptr u) = Ok true.
Proof.
  destruct (wf_shadow h t D H) as [Hs Ht].
  revert p f. induction u as [|l IHl x r IHr]; intros p f Hr Hin Hf; destruct f as [|f]; try (cbn in Hf; lia).
  { done. }
  destruct Hr as (Hlf & Hrt & Hpa & Hx & Hrl & Hrr). cbn [nodes] in *. rewrite app_length in Hf. cbn [length] in Hf.
  cbn [mstoring_parent TreeProofs.ptr]. rewrite (proj2 (Nat.eqb_neq x nil)) by done.
  rewrite (has_dups_Ok D (nodes t) g h) by (first [done|right; apply Hin; rewrite elem_of_app; right; left]). bind.
  rewrite (parent_r_Ok D (nodes t) g h) by (first [done|apply Hin; rewrite elem_of_app; right; left]).
  rewrite (rd_Ok _ _ _ Hpa). bind. rewrite Nat.eqb_refl. cbn [negb].
  rewrite (rd_Ok (lf h) x (ptr l)) by done. bind. rewrite (IHl x f); [|done| |lia].
  - bind. cbn [negb]. rewrite (rd_Ok (rt h) x (ptr r)) by done. bind. apply IHr; [done| |lia].
    intros z Hz. apply Hin. rewrite elem_of_app, elem_of_cons. auto.
  - intros z Hz. apply Hin. rewrite elem_of_app. auto.
Qed.
End validate.

Lemma subtrees_valid_br {K V} (cmp : K -> K -> comparison) (dat : gmap nat (K * V)) isnull h g :
  lf g = lf h -> rt g = rt h -> forall f low r high,
  subtrees_valid cmp nil f isnull dat h low r high = subtrees_valid cmp nil f isnull dat g low r high.
Proof.
  intros Hl Hr. induction f as [|f IH]; intros low r high; cbn [subtrees_valid]; [done|].
  rewrite Hl, Hr. destruct (isnull r); [done|]. destruct (r =? nil); [done|].
  destruct (if low =? nil then _ else _) as [[]| |]; bind; try done. cbn [negb].
  destruct (if high =? nil then _ else _) as [[]| |]; bind; try done. cbn [negb].
  destruct (rd (lf h) r) as [l| |]; bind; try done. rewrite IH.
  destruct (subtrees_valid cmp nil f isnull dat g low l r) as [[]| |]; bind; try done. cbn [negb].
  destruct (rd (rt h) r) as [l'| |]; bind; try done. 
Qed.
