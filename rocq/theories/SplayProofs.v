(** Grafting a new root onto a splay tree and detaching its root. *)
From Coq Require Import Sorted.
From stdpp Require Import base numbers option gmap fin_maps list.
From Verif Require Import Common LinkHeap PathLemmas OrderSpec TreeModel TreeProofs CostModel CostErase SplayModel SplayCostModel.

Local Ltac bind := cbn [mbind outcome_bind obind].

Section proofs.
Context (nil : nat).
Notation rep := (rep nil).
Notation ptr := (ptr nil).

(** In direction d the old root keeps [u] and gives up [w]. *)
Lemma graft_chk_Ok h c u x w e :
  let d := is_gt c in
  rep h nil (mk d u x w) -> NoDup (e :: nodes (mk d u x w)) -> e <> nil -> live h e -> live h nil ->
  exists h', graft_by nil (link_chk nil (e :: nodes (mk d u x w))) h x e c = Ok h' /\ rep h' nil (mk d (mk d u x E) e w) /\
    (forall z, live h z -> live h' z) /\ frame (nil :: e :: nodes (mk d u x w)) h h'.
Proof.
  intros d Hr Hnd Hen Hle Hlive. set (N := e :: nodes (mk d u x w)).
  assert (forall z, z ∈ nil :: N -> live h z) as HlN.
  { intros z [-> |[-> |Hz]%elem_of_cons]%elem_of_cons; [done..|]. by apply (rep_live nil h nil _ _ Hr). }
  apply NoDup_cons in Hnd as [Hin Hnd].
  apply mk_NoDup in Hnd as (Hxu & Hxw & Hnu & Hnw & Huw).
  assert (live h x) as Hlx by (apply (rep_live nil h nil _ _ Hr), elem_of_mk; by left).
  apply rep_mk in Hr as (Hbu & Hbw & Hpx & Hxn & Hru & Hrw).
  rewrite elem_of_mk in Hin.
  assert (e <> x /\ e ∉ nodes u /\ e ∉ nodes w) as (Hex & Heu & Hew) by tauto.
  assert (nil ∉ nodes u /\ nil ∉ nodes w) as [Hnu' Hnw'] by (split; by eapply rep_nil).
  assert (ptr w = nil \/ ptr w ∈ nodes w) as Hpw by (destruct w; [by left|right; by apply ptr_in]).
  assert (ptr w <> x /\ ptr w <> e /\ ptr w ∉ nodes u) as (Hwx & Hwe & Hwu).
  { destruct Hpw as [-> |Hpw]; [done|]. split_and!; [by intros <-|by intros <-|].
    intros Hz. by apply (Huw (ptr w)). }
  assert (live h (ptr w)) as Hlw.
  { destruct Hpw as [-> |Hpw]; [done|]. by apply (rep_live nil h x w). }
  assert (e ∈ nil :: N /\ x ∈ nil :: N /\ ptr w ∈ nil :: N /\ nil ∈ nil :: N) as (HeN & HxN & HwN & HnN).
  { unfold N. rewrite !elem_of_cons, !elem_of_mk. destruct Hpw as [-> |]; tauto. }
  unfold graft_by. fold d. rewrite (rd_Ok _ _ _ Hbw). bind.
  rewrite link_chk_Ok; [|done..|by apply (safe_tree nil h e d x w)|done]. bind.
  set (h1 := set_pa (set_br h d e (ptr w)) (ptr w) e).
  assert (forall z, live h z -> live h1 z) as Hl1 by (intros z Hz; by apply live_link).
  rewrite link_chk_Ok; [|done..|right; right|auto].
  2:{ rewrite Bool.negb_involutive. unfold h1. look. rewrite Hbw. congruence. }
  bind.
  set (h2 := set_pa (set_br h1 (negb d) e x) x e).
  assert (forall z, live h z -> live h2 z) as Hl2 by (intros z Hz; apply live_link; auto).
  rewrite wbr_Ok by (apply live_br; auto). bind.
  set (h3 := set_br h2 d x nil).
  assert (forall z, live h z -> live h3 z) as Hl3 by (intros z Hz; apply live_set_br; auto).
  rewrite link_chk_Ok; [|done..|by left|auto].
  set (h4 := set_pa (set_br h3 false nil e) e nil).
  assert (forall z, live h z -> live h4 z) as Hl4 by (intros z Hz; apply live_link; auto).
  exists h4. split; [done|]. split_and!; [|done|].
  - apply rep_mk. rewrite ptr_mk. split_and!; try done.
    + unfold h4, h3, h2. look. done.
    + unfold h4, h3, h2, h1. look. done.
    + unfold h4. look. done.
    + apply rep_mk. split_and!; try done.
      * unfold h4, h3, h2, h1. look. done.
      * unfold h4, h3. look. done.
      * unfold h4, h3, h2. look. done.
      * unfold h4, h3, h2, h1.
        apply rep_set_pa; [done|]. apply rep_set_br; [done|]. apply rep_set_br; [done|].
        apply rep_set_pa; [done|]. apply rep_set_br; [done|].
        apply rep_set_pa; [done|]. by apply rep_set_br.
    + unfold h4, h3, h2.
      apply rep_set_pa; [done|]. apply rep_set_br; [done|]. apply rep_set_br; [done|].
      apply rep_set_pa; [done|]. apply rep_set_br; [done|].
      unfold h1. apply (rep_reparent _ _ x); [done|]. by apply rep_set_br.
  - assert (forall z, z = e \/ z = nil \/ z = x \/ z = ptr w -> z ∈ nil :: e :: nodes (mk d u x w)) as Hfr.
    { intros z Hz. rewrite !elem_of_cons, elem_of_mk. destruct Hz as [-> |[-> |[-> | ->]]]; tauto. }
    unfold h4, h3, h2, h1.
    eapply frame_trans; [|apply frame_link; auto].
    eapply frame_trans; [|apply frame_set_br; auto].
    eapply frame_trans; apply frame_link; auto.
Qed.

Lemma graft_Ok h c u x w e :
  let d := is_gt c in
  rep h nil (mk d u x w) -> NoDup (e :: nodes (mk d u x w)) -> e <> nil -> live h e -> live h nil ->
  exists h', graft nil h x e c = Ok h' /\ rep h' nil (mk d (mk d u x E) e w) /\
    (forall z, live h z -> live h' z) /\ frame (nil :: e :: nodes (mk d u x w)) h h'.
Proof.
  intros d Hr Hnd Hen Hle Hlive.
  destruct (graft_chk_Ok h c u x w e Hr Hnd Hen Hle Hlive) as (h' & Hrun & H).
  exists h'. split; [|exact H]. revert Hrun. unfold graft, graft_by.
  destruct (rd _ x) as [b| |]; try done. bind.
  destruct (link_chk _ _ h _ _ _) as [h1| |] eqn:E1; try done. bind.
  apply link_chk_inv in E1 as (_ & _ & _ & ->). bind.
  destruct (link_chk _ _ h1 _ _ _) as [h2| |] eqn:E2; try done. bind.
  apply link_chk_inv in E2 as (_ & _ & _ & ->). bind.
  destruct (wbr h2 _ _ _) as [h3| |]; try done. bind.
  intros E3. by apply link_chk_inv in E3 as (_ & _ & _ & ->).
Qed.

Context {K V : Type} (cmp : K -> K -> comparison) (Hcmp : total_preorder cmp).
Lemma splay_by_c_mono (link link' : links -> nat -> bool -> nat -> outcome links) probe h r h' x n :
  (forall h p d q h1, link h p d q = Ok h1 -> link' h p d q = Ok h1) ->
  splay_by_c nil link probe h r = Ok (h', x, n) -> splay_by_c nil link' probe h r = Ok (h', x, n).
Proof.
  intros Hl Hrun.
  destruct (splay_by_c_sim nil eq link link' probe probe) with (h := h) (h' := h) (root := r) (h1 := h') (x := x) (n := n)
    as (h1 & -> & <-); try done.
  - by intros ? ? ->.
  - intros g g' p d q g1 <- Hg. exists g1. auto.
  - intros g g' g1 <- Hg. by exists g1.
Qed.

(** What is left of a tree whose root is cut off: the left side is splayed, in [i]
    turns, and takes over the right side. *)
Definition cut_off (g : nat -> comparison) (a b : tree) (i : nat) (t' : tree) : Prop :=
  (a = E /\ i = 0 /\ t' = b) \/ exists a' y, falls nil g a i a' y E /\ t' = T a' y b.

Lemma detach_chk_c_Ok (dat : gmap nat (K * V)) h a x b kv :
  rep h nil (T a x b) -> sorted cmp dat (nodes (T a x b)) -> dat !! x = Some kv -> live h nil ->
  exists h' t' i, detach_by_c cmp nil (link_chk nil (nodes (T a x b))) dat h x = Ok (h', ptr t', i) /\
    cut_off (keyc cmp dat (fst kv)) a b i t' /\ rep h' nil t' /\ nodes t' = nodes a ++ nodes b /\
    (forall z, live h z -> live h' z) /\ frame (nil :: nodes a ++ nodes b) h h'.
Proof.
  intros Hr Hs Hx Hlive.
  assert (NoDup (nodes (T a x b))) as Hnd by (by apply (sorted_NoDup cmp Hcmp dat)).
  set (N := nodes (T a x b)).
  assert (forall z, z ∈ nil :: N -> live h z) as HlN.
  { intros z [-> |Hz]%elem_of_cons; [done|]. by apply (rep_live nil h nil _ _ Hr). }
  assert (live h x) as Hlx by (apply (rep_live nil h nil _ _ Hr), (elem_of_mk true); by left).
  change (T a x b) with (mk true a x b) in Hnd. apply mk_NoDup in Hnd as (Hxa & Hxb & Hna & Hnb & Hab).
  destruct Hr as (Hlf & Hrt & Hpx & Hxn & Hra & Hrb).
  assert (nil ∉ nodes a /\ nil ∉ nodes b) as [Hnila Hnilb] by (split; by eapply rep_nil).
  assert (ptr b = nil \/ ptr b ∈ nodes b) as Hpb by (destruct b; [by left|right; by apply ptr_in]).
  assert (live h (ptr b)) as Hlb.
  { destruct Hpb as [-> |Hpb]; [done|]. by apply (rep_live nil h x b). }
  assert (ptr b <> x) as Hbx. { destruct Hpb as [-> |Hpb]; [done|]. by intros <-. }
  assert (ptr b ∉ nodes a) as Hba.
  { destruct Hpb as [-> |Hpb]; [done|]. intros Hz. by apply (Hab (ptr b)). }
  assert (ptr b ∈ nil :: nodes a ++ nodes b) as Hbin.
  { rewrite elem_of_cons, elem_of_app. destruct Hpb as [-> |]; auto. }
  assert (forall z, z ∈ nil :: nodes a ++ nodes b -> z ∈ nil :: N) as HN.
  { intros z. unfold N. cbn [nodes]. rewrite !elem_of_cons, !elem_of_app, elem_of_cons. tauto. }
  assert (nil ∈ nil :: N) as HnN by left.
  unfold detach_by_c. rewrite (rd_Ok _ _ _ Hlf). bind.
  assert (a = E \/ a <> E) as [-> |Hane] by (destruct a; auto).
  - cbn [ptr]. rewrite Nat.eqb_refl. rewrite (rd_Ok _ _ _ Hrt). bind.
    rewrite link_chk_Ok; [|auto..|by left|done]. bind.
    eexists _, b, _. split; [done|]. split; [by left|]. split_and!; try done.
    + apply (rep_reparent _ _ x); [done|]. by apply rep_set_br.
    + intros z Hz. by apply live_link.
    + apply frame_link; [left|done].
  - destruct (Nat.eqb_spec (ptr a) nil) as [He|_].
    { by apply (rep_ptr_nil nil h x) in He. }
    unfold value. rewrite Hx. bind.
    assert (sorted cmp dat (nodes a)) as Hsa0 by (by apply sorted_app in Hs as (? & _)).
    destruct (splay_chk_c_Ok nil cmp Hcmp dat h x a (fst kv) Hra Hane Hsa0 Hlive)
      as (h' & a' & y & b' & ky & i & Hrun & Hfalls & Hrep & Hnn & Hf & Hln & Hy & Hsa & Hsb).
    apply (splay_by_c_mono _ (link_chk nil N)) in Hrun.
    2:{ intros g p d q g1. apply link_chk_mono. intros z [-> |Hz]%elem_of_cons; [left|].
        apply HN. rewrite elem_of_cons, elem_of_app. auto. }
    rewrite Hrun. bind.
    assert (b' = E) as ->.
    { destruct b' as [|l w r]; [done|]. exfalso.
      assert (w ∈ nodes (T l w r)) as Hw by (by apply (ptr_in nil (T l w r))).
      destruct (Hsb w Hw) as (kw & Hkw & Hcw).
      assert (w ∈ nodes a) as Hwa. { rewrite <- Hnn. cbn [nodes] in *. rewrite elem_of_app, elem_of_cons. auto. }
      apply sorted_app in Hs as (_ & _ & Hlt).
      destruct (Hlt w x Hwa) as (u & v & Hu & Hv' & Huv); [left|].
      apply (cmp_flip cmp Hcmp) in Huv. cbn in Huv. assert (u = kw) as -> by congruence.
      assert (v = kv) as -> by congruence. cbn in Hcw. congruence. }
    assert (x ∉ nil :: nodes a) as Hfx by (by apply not_elem_of_cons).
    destruct (Hf x Hfx) as (Hf1 & Hf2 & Hf3).
    rewrite (rd_Ok (rt h') x (ptr b)) by (by rewrite Hf2). bind.
    assert (forall z, z ∈ nodes b -> z ∉ nil :: nodes a) as Hfb.
    { intros z Hz [-> |Hz']%elem_of_cons; [done|]. by apply (Hab z). }
    assert (rep h' x b) as Hrb' by (by apply (rep_frame _ (nil :: nodes a) h)).
    assert (live h' (ptr b)) as Hlb'.
    { destruct Hpb as [-> |Hpb]; [done|]. by apply (rep_live nil h' x b). }
    assert (forall z, live h z -> live h' z) as Hl0.
    { intros z Hz. destruct (decide (z ∈ nil :: nodes a)) as [Hin|Hin].
      - apply elem_of_cons in Hin as [-> |Hin]; [done|]. apply (rep_live nil h' nil (T a' y E)); [done|]. by rewrite Hnn.
      - by apply (frame_live (nil :: nodes a) h). }
    destruct Hrep as (Hyl & Hyr & Hyp & Hyn & Hra' & _).
    assert (y ∈ nodes a) as Hya. { rewrite <- Hnn. cbn [nodes]. rewrite elem_of_app, elem_of_cons. auto. }
    assert (live h' y) as Hly by (apply Hl0; by apply (rep_live nil h x a)).
    assert (nodes (T a' y b) = nodes a ++ nodes b) as Hnodes.
    { rewrite <- Hnn. cbn [nodes]. by rewrite <- app_assoc. }
    assert (forall z, z ∈ nodes a' \/ z = y -> z ∈ nodes a) as Hin.
    { intros z Hz. rewrite <- Hnn. cbn [nodes]. rewrite elem_of_app, elem_of_cons. tauto. }
    assert (y ∉ nodes b /\ y ∉ nodes a') as (Hyb & Hya').
    { split; [apply Hab; auto|].
      rewrite <- Hnn in Hna. change (T a' y E) with (mk true a' y E) in Hna. apply mk_NoDup in Hna as (? & _). done. }
    rewrite link_chk_Ok; [|apply HN; rewrite elem_of_cons, elem_of_app; auto|auto| |auto].
    2:{ by apply (safe_tree nil h' y true x b). }
    bind. set (h1 := set_pa _ _ _).
    eexists _, (T a' y b), i. split; [done|]. split; [right; by eexists _, _|].
    assert (ptr b <> y) as Hby. { destruct Hpb as [-> |Hpb]; [done|]. by intros <-. }
    assert (ptr b ∉ nodes a') as Hba'. { intros Hz. apply Hba. auto. }
    split_and!; try done.
    + change (T a' y b) with (mk true a' y b). apply rep_mk. cbn [negb]. split_and!; try done.
      * unfold h1. look. done.
      * unfold h1. look. done.
      * unfold h1. apply rep_set_pa; [done|]. by apply rep_set_br.
      * unfold h1. apply (rep_reparent _ _ x); [done|]. by apply rep_set_br.
    + intros z Hz. apply live_link. auto.
    + eapply frame_trans; [eapply frame_mono; [exact Hf|]|].
      * intros z. rewrite !elem_of_cons, elem_of_app. tauto.
      * apply frame_link; [|done]. rewrite elem_of_cons, elem_of_app. auto.
Qed.

Lemma detach_chk_Ok (dat : gmap nat (K * V)) h a x b kv :
  rep h nil (T a x b) -> sorted cmp dat (nodes (T a x b)) -> dat !! x = Some kv -> live h nil ->
  exists h' t', detach_by cmp nil (link_chk nil (nodes (T a x b))) dat h x = Ok (h', ptr t') /\ rep h' nil t' /\ nodes t' = nodes a ++ nodes b /\
    (forall z, live h z -> live h' z) /\ frame (nil :: nodes a ++ nodes b) h h'.
Proof.
  intros Hr Hs Hx Hlive.
  destruct (detach_chk_c_Ok dat h a x b kv Hr Hs Hx Hlive) as (h' & t' & i & Hrun & _ & H).
  exists h', t'. split; [|exact H]. rewrite detach_by_erase. apply erase_Ok. by exists i.
Qed.

Lemma detach_c_Ok (dat : gmap nat (K * V)) h a x b kv :
  rep h nil (T a x b) -> sorted cmp dat (nodes (T a x b)) -> dat !! x = Some kv -> live h nil ->
  exists h' t' i, detach_by_c cmp nil link_trees dat h x = Ok (h', ptr t', i) /\
    cut_off (keyc cmp dat (fst kv)) a b i t' /\ rep h' nil t' /\ nodes t' = nodes a ++ nodes b /\
    (forall z, live h z -> live h' z) /\ frame (nil :: nodes a ++ nodes b) h h'.
Proof.
  intros Hr Hs Hx Hlive.
  destruct (detach_chk_c_Ok dat h a x b kv Hr Hs Hx Hlive) as (h' & t' & i & Hrun & H).
  exists h', t', i. split; [|exact H]. revert Hrun. unfold detach_by_c.
  assert (forall g p d q g1, link_chk nil (nodes (T a x b)) g p d q = Ok g1 -> link_trees g p d q = Ok g1) as Hl.
  { intros g p d q g1 (_ & _ & _ & ?)%link_chk_inv. done. }
  destruct (rd (lf h) x) as [l| |]; try done. bind. destruct (l =? nil).
  - destruct (rd (rt h) x) as [r| |]; try done. bind.
    destruct (link_chk _ _ h _ _ _) as [h1| |] eqn:E1; try done. bind. apply Hl in E1. by rewrite E1.
  - destruct (value dat x) as [v| |]; try done. bind.
    destruct (splay_by_c _ _ _ h l) as [[[h1 y] n]| |] eqn:E1; try done. bind.
    apply (splay_by_c_mono _ link_trees) in E1; [|done]. rewrite E1. bind.
    destruct (rd (rt h1) x) as [r| |]; try done. bind.
    destruct (link_chk _ _ h1 _ _ _) as [h2| |] eqn:E2; try done. bind. apply Hl in E2. by rewrite E2.
Qed.

Lemma detach_Ok (dat : gmap nat (K * V)) h a x b kv :
  rep h nil (T a x b) -> sorted cmp dat (nodes (T a x b)) -> dat !! x = Some kv -> live h nil ->
  exists h' t', detach cmp nil dat h x = Ok (h', ptr t') /\ rep h' nil t' /\ nodes t' = nodes a ++ nodes b /\
    (forall z, live h z -> live h' z) /\ frame (nil :: nodes a ++ nodes b) h h'.
Proof.
  intros Hr Hs Hx Hlive.
  destruct (detach_c_Ok dat h a x b kv Hr Hs Hx Hlive) as (h' & t' & i & Hrun & _ & H).
  exists h', t'. split; [|exact H]. unfold detach. rewrite detach_by_erase. apply erase_Ok. by exists i.
Qed.
End proofs.
