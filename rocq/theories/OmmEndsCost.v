(** What calls on the ordered multimap cost that follow a search for an end, or
    for the same key. *)
From Coq Require Import Sorted.
From stdpp Require Import base numbers option gmap fin_maps list.
From Verif Require Import Common LinkHeap PathLemmas OrderSpec TreeModel TreeProofs SplayModel SplayProofs MapOps OmModel OmmOps
  OmmModel OmmSpec OmmProofs OmmRings OmmGroups OmmWalk OmmCalls OmmHistories CostModel CostErase SplayCostModel SplayCost OmCost
  OmmCostModel OmmCostErase OmmCostSpec OmmCostBounds OmmCost OmmEndsSpec.
From Verif Require MapProofs OmProofs OmWalkCost.

Local Ltac bind := cbn [mbind outcome_bind obind].
Local Ltac cb := cbn [cbind mbind outcome_bind obind still gratis add_work turns hops idle Nat.add].

Section ends.
Context {K V : Type} (cmp : K -> K -> comparison) (Hcmp : total_preorder cmp) (alloc : bool) (off : nat) (n : nat).
Implicit Types (s : om K V) (A : view K V) (D : nat -> list nat).
Notation core := (core cmp alloc).
Notation fits := (fits cmp alloc n).
Notation c := (OmmSpec.kept alloc off).

(** A search for the key of the root takes one turn. *)
Lemma key_again s A a x b D k kx :
  core s A (T a x b) D -> length (nodes (T a x b)) <= n -> vals A !! x = Some kx -> cmp k (fst kx) = Eq ->
  exists s', splay_key_c cmp s (root s) k = Ok ((s', x), Work 1 0) /\ core s' A (T a x b) D /\ sz s' = sz s.
Proof.
  intros H Hroom Hx Hk.
  assert (queue A <> []) as Hne by (by rewrite <- (core_empty cmp alloc s A _ D H)).
  destruct (core_splay_c cmp Hcmp alloc n s A _ D k H Hne Hroom) as (s' & a' & x' & b' & kv & i & Hrun & Hf & _ & H' & _ & Hsz & _).
  apply falls_again in Hf as (-> & -> & -> & ->); [|unfold keyc; by rewrite Hx]. by exists s'.
Qed.

(** So does one for the end if it is the root. *)
Lemma end_again s A d a x D :
  core s A (mk d a x E) D -> length (nodes (mk d a x E)) <= n ->
  exists s', msplay_c s (root s) (force d) = Ok ((s', x), Work 1 0) /\ core s' A (mk d a x E) D /\ sz s' = sz s.
Proof.
  intros H Hroom.
  assert (queue A <> []) as Hne by (rewrite <- (core_empty cmp alloc s A _ D H); by destruct d).
  destruct (core_splay_end_c cmp Hcmp alloc n s A _ D d H Hne Hroom)
    as (s' & a' & x' & i & g & l & r & Hrun & Hf & Hg & Emk & _ & H' & _ & Hsz).
  apply OmWalkCost.falls_inv in Hf; [|apply Hg; destruct d; cbn; rewrite ?elem_of_app, ?elem_of_cons; auto].
  destruct Hf as [(_ & -> & Hsame)|[(? & ? & ? & ? & _)|[(? & ? & Hb & _)|(? & ? & ? & ? & ? & ? & Hb & _)]]];
    [|done|by destruct d..].
  rewrite Hsame in Emk. apply OmWalkCost.mk_inj in Emk as (<- & <- & _). by exists s'.
Qed.

(** Of several elements with the key of the root the oldest leaves at no cost. *)
Lemma take_dup s A d a x D l1 l2 y r :
  core s A (mk d a x E) D -> queue A = l1 ++ x :: l2 -> D x = y :: r -> length (nodes (mk d a x E)) <= n ->
  exists s', take_front_c cmp s x = Ok ((s', x), idle) /\ gone_t cmp alloc n s A l1 l2 s' (mk d a y E).
Proof.
  intros H Hq HD Hroom. unfold take_front_c.
  assert (x ∈ nodes (mk d a x E)) as Hxn by (destruct d; cbn; rewrite ?elem_of_app, ?elem_of_cons; auto).
  destruct (core_data cmp alloc s A _ D H x) as [kx Hx]; [by apply (core_node cmp alloc s A (mk d a x E) D)|].
  rewrite (core_has_dups cmp alloc s A _ D x H Hxn). bind. unfold dup. rewrite HD.
  rewrite (core_value cmp alloc s A _ D H x kx Hx). bind.
  assert (costs n 0 (mk d a x E) (gratis (pop_front_dup cmp s x (fst kx))) (fun s' t' => gone_t cmp alloc n s A l1 l2 s' t' /\ t' = mk d a y E))
    as (s1 & w & t' & Hrun & _ & Hg & ->).
  { destruct d; by apply (remove_front_c cmp Hcmp alloc n s A _ x _ D l1 l2 y r). }
  unfold gratis in Hrun. destruct (pop_front_dup cmp s x (fst kx)) as [s1'| |]; try done. injection Hrun as -> _. cb.
  destruct (gone_unlink_c cmp alloc n s s1 A l1 x l2 kx _ Hg Hx) as (h & -> & Hg').
  { by apply (not_in_rest cmp alloc s A (mk d a x E) D). }
  cb. by eexists.
Qed.

(** The only one with the key leaves with the cost of the splay that joins the
    subtrees. *)
Lemma cut_single s A a x b D l1 l2 kx :
  core s A (T a x b) D -> queue A = l1 ++ x :: l2 -> D x = [] -> length (nodes (T a x b)) <= n -> vals A !! x = Some kx ->
  exists s' t' i, has_dups (lk s) x = Ok false /\ mremove_from_tree_c cmp s x = Ok (s', Work i 0) /\
    gone_t cmp alloc n s A l1 l2 s' t' /\ exists t1, cut_off nil (keyc cmp (vals A) (fst kx)) a b i t1.
Proof.
  intros H Hq HD Hroom Hx.
  assert (x ∈ nodes (T a x b)) as Hxn by (cbn; rewrite ?elem_of_app, ?elem_of_cons; auto).
  rewrite (core_has_dups cmp alloc s A _ D x H Hxn). bind. unfold dup. rewrite HD.
  destruct (remove_single_c cmp Hcmp alloc n s A a x b D l1 l2 H Hq HD Hroom) as (s1 & w & t1 & Hrun & _ & Hg).
  destruct (wf_detach_c cmp Hcmp (vals A) (lk s) D a x b kx) as (h' & t' & i & Hrun' & Hcut & _);
    [apply H|apply (gr_sorted _ _ _ _ _ (co_groups _ _ _ _ _ _ H))|done..|].
  exists s1, t1, i. split; [done|]. split; [|split; [done|by exists t']].
  rewrite Hrun. unfold mremove_from_tree_c in Hrun. rewrite (co_dat _ _ _ _ _ _ H), Hrun' in Hrun.
  cbn [mbind outcome_bind] in Hrun. by injection Hrun as _ <-.
Qed.
Lemma take_single s A a x b D l1 l2 kx :
  core s A (T a x b) D -> queue A = l1 ++ x :: l2 -> D x = [] -> length (nodes (T a x b)) <= n -> vals A !! x = Some kx ->
  exists s' t' i, take_front_c cmp s x = Ok ((s', x), Work i 0) /\ cut_off nil (keyc cmp (vals A) (fst kx)) a b i t'.
Proof.
  intros H Hq HD Hroom Hx. unfold take_front_c.
  destruct (cut_single s A a x b D l1 l2 kx H Hq HD Hroom Hx) as (s1 & t' & i & -> & Hrun & Hg & t1 & Hcut). bind.
  rewrite Hrun. cb.
  destruct (gone_unlink_c cmp alloc n s s1 A l1 x l2 kx _ Hg Hx) as (h & -> & Hg').
  { by apply (not_in_rest cmp alloc s A (T a x b) D). }
  cb. eexists _, t1, i. split; [|done]. by rewrite OmWalkCost.add_idle.
Qed.

(** Another element with the key of the root joins at the cost of one turn. *)
Lemma insert_again s A p x q e kx kv :
  fits s A (T p x q) -> vals A !! e = Some kv -> e ∉ queue A -> (alloc = true -> e ∈ mem A) ->
  vals A !! x = Some kx -> cmp (fst kv) (fst kx) = Eq ->
  exists s', multimap_insert_c cmp s e = Ok ((s', occupied_ent e), Work 1 0) /\ fits s' (push A e) (T p x q).
Proof.
  intros ((D & H) & Hsz & Hroom) He Hin Hmem Hx Hk. destruct (co_live _ _ _ _ _ _ H e kv He) as (Hle & He0 & Hen).
  unfold multimap_insert_c. rewrite OmProofs.set_links_put by done. bind.
  set (s1 := set_lk s _). pose proof (core_put cmp alloc s A _ D H e nil nil nil Hin Hen) as H1. fold s1 in H1.
  assert (alloc = true -> forall x, x ∈ queue A ++ [e] -> x ∈ mem A) as Hmem'.
  { intros Ha z [Hz|Hz]%elem_of_app; [by apply (co_mem _ _ _ _ _ _ H)|]. apply elem_of_list_singleton in Hz as ->. auto. }
  assert (queue A <> []) as Hne by (by rewrite <- (core_empty cmp alloc s A _ D H)).
  rewrite (mempty_Ok s1 A) by done. rewrite bool_decide_eq_false_2 by done.
  pose proof (core_sz cmp alloc _ _ _ _ (sz s1 + 1)%Z H1) as H1'.
  rewrite (core_value cmp alloc _ A _ D H1' e kv) by done. bind.
  destruct (key_again _ A p x q D (fst kv) kx H1' Hroom Hx Hk) as (s2 & -> & H2 & Hsz2). cb.
  rewrite (core_cmpk cmp alloc _ _ _ _ H2 (fst kv) x kx) by done. bind. rewrite Hk. cbn [is_eq].
  assert (~ span D (nodes (T p x q)) e) as Hsp by (by apply (core_outside cmp alloc s2 A (T p x q) D H2 e kv)).
  assert (root s2 = x) as Hroot2 by apply H2.
  destruct (co_live _ _ _ _ _ _ H2 e kv He) as (Hle2 & _).
  rewrite Hroot2. destruct (wf_add (lk s2) p x q D e) as (h3 & -> & Hw3 & Hin3); [apply H2|done..|]. cb.
  eexists. split; [done|]. split; [|split; [|done]].
  - exists (put D x (D x ++ [e])). apply (core_move cmp alloc s2 A (T p x q) D H2); try done.
    + apply (gr_push_old cmp Hcmp (vals A) _ D _ x e kx kv); try done; [apply H2|]. cbn. rewrite elem_of_app. right. left.
    + apply Hin3.
  - cbn [sz set_lk queue push set_queue]. rewrite Hsz2, app_length. cbn [sz set_sz length]. change (sz s1) with (sz s). lia.
Qed.

(** After an Occupied entry. *)
Lemma occupied_run os1 rs1 A k l1 x l2 e kv :
  calls_within cmp c n start os1 rs1 A -> present cmp A k l1 x l2 ->
  vals A !! e = Some kv -> cmp (fst kv) k = Eq -> e ∉ queue A -> (alloc = true -> e ∈ mem A) ->
  exists s s1 s2 w w1, omm_run_c cmp alloc off om_init os1 = Ok ((s, rs1), w) /\
    omm_entry_c cmp s k = Ok ((s1, occupied_ent x), w1) /\
    omm_or_insert_c cmp s1 (occupied_ent x) e = Ok ((s1, x), idle) /\
    omm_insert_entry_c cmp s1 (occupied_ent x) e = Ok ((s2, e), Work 1 0).
Proof.
  intros Hc Hp He Hk Hin Hm. destruct (history_fits cmp Hcmp alloc off n os1 rs1 A Hc) as (s & w & t & Hrun & Hf).
  destruct (find_yes_c cmp Hcmp alloc n s A t k l1 x l2 Hf Hp) as ([s1 y] & w1 & t1 & Hrun1 & _ & Hy & Hf1 & Hroot & Hx0).
  cbn in Hy, Hf1, Hroot. subst y. pose proof Hf1 as ((D & H1) & _). pose proof (co_root _ _ _ _ _ _ H1) as Hroot1.
  destruct t1 as [|a x' b]; [exfalso|].
  { apply (present_nonempty cmp _ _ _ _ _ Hp). by apply (core_empty cmp alloc s1 A E D H1). }
  cbn [TreeProofs.ptr] in Hroot1. assert (x' = x) as -> by congruence.
  destruct Hp as (_ & (kx & Hx & Hkx) & _).
  destruct (insert_again s1 A a x b e kx kv Hf1 He Hin Hm Hx) as (s2 & Hrun2 & _); [by apply (cmp_eq_trans cmp Hcmp _ k)|].
  exists s, s1, s2, w, (add_work w1 idle). split; [done|]. split; [|split; [done|]].
  - unfold omm_entry_c. rewrite Hrun1. cb. by rewrite (proj2 (Nat.eqb_neq x 0)).
  - unfold omm_insert_entry_c. by rewrite Hrun2.
Qed.

(** ** Calls about the key at the end *)

Definition topped s A d k : Prop := exists a x kx, fits s A (mk d a x E) /\ vals A !! x = Some kx /\ cmp k (fst kx) = Eq.

Lemma topped_present s A d a x kx k : fits s A (mk d a x E) -> vals A !! x = Some kx -> cmp k (fst kx) = Eq ->
  exists l1 l2, present cmp A k l1 x l2.
Proof.
  intros ((D & H) & _) Hx Hk. apply (gr_node_present cmp Hcmp A (nodes (mk d a x E)) D x k kx); try done; [apply H|].
  destruct d; cbn; rewrite ?elem_of_app, ?elem_of_cons; auto.
Qed.
Lemma present_eq A k l1 x l2 l1' x' l2' : NoDup (queue A) -> present cmp A k l1 x l2 -> present cmp A k l1' x' l2' -> x = x'.
Proof.
  intros _ (Hq & Hx & Hl) (Hq' & Hx' & Hl'). rewrite Hq in Hq'. rewrite Forall_forall in Hl, Hl'. clear Hq.
  revert l1' Hq' Hl'. induction l1 as [|y l1 IH]; intros [|y' l1'] Hq' Hl'; cbn in Hq'; injection Hq' as E1 E2; subst.
  - done.
  - exfalso. apply (Hl' y'); [left|done].
  - exfalso. apply (Hl x'); [left|done].
  - apply (IH ltac:(intros z Hz; apply Hl; by right) l1' E2). intros z Hz. apply Hl'. by right.
Qed.

Lemma topped_pop s A d a x kx l1 y l2 :
  fits s A (mk d a x E) -> vals A !! x = Some kx -> extreme cmp A d l1 y l2 -> d = true \/ alloc = false \/ off = 0 ->
  (exists z, z ∈ queue (leaves c A l1 y l2) /\ keyed cmp (leaves c A l1 y l2) Eq (fst kx) z) ->
  exists s' a' x', (if d then omm_pop_max_c cmp alloc s else omm_pop_min_c cmp alloc off s) = Ok ((s', OK), Work 1 0) /\
    fits s' (leaves c A l1 y l2) (mk d a' x' E) /\
    exists kx', vals (leaves c A l1 y l2) !! x' = Some kx' /\ cmp (fst kx) (fst kx') = Eq.
Proof.
  intros Hf Hx Hy Hd (z & Hz & Hkz). pose proof Hf as ((D & H) & Hsz & Hroom). pose proof (fits_repr cmp alloc n s A _ Hf) as Hr.
  assert (y = x) as ->.
  { apply (gr_extreme cmp Hcmp A _ D d l1 y l2 x (ord d (nodes a)) (co_groups _ _ _ _ _ _ H) Hy). by rewrite nodes_mk; destruct d. }
  pose proof (extreme_in cmp _ _ _ _ _ Hy) as Hin. destruct (repr_ne cmp alloc s A x Hr Hin) as [Hx0 Hx1].
  pose proof (extreme_nonempty cmp _ _ _ _ _ Hy) as Hne. destruct Hy as [Hq _].
  assert (x ∈ nodes (mk d a x E)) as Hxn by (destruct d; cbn; rewrite ?elem_of_app, ?elem_of_cons; auto).
  assert (NoDup (queue A)) as Hnd by (by apply (repr_NoDup cmp alloc s)).
  assert (z ∈ l1 ++ l2) as Hz'. { unfold leaves in Hz. by destruct (allocates c). }
  assert (vals (leaves c A l1 x l2) !! z = vals A !! z) as Hvz.
  { unfold leaves. destruct (allocates c); [|done]. cbn. rewrite lookup_delete_ne; [done|]. intros ->.
    by apply (in_rest A l1 z l2 Hnd Hq). }
  destruct Hkz as (kz & Hkz & Hek). rewrite Hvz in Hkz.
  assert (z ∈ D x) as HzD.
  { assert (z ∈ x :: D x) as [-> |?]%elem_of_cons; [|by apply (in_rest A l1 x l2 Hnd Hq) in Hz'|done].
    apply (gr_owner cmp (vals A) (nodes (mk d a x E)) D (queue A) x z kx kz); try done; [apply H|].
    rewrite Hq. apply elem_of_app in Hz' as [?|?]; rewrite elem_of_app; [by left|right; by right]. }
  destruct (D x) as [|y r] eqn:ED; [by apply elem_of_nil in HzD|].
  assert (erase_end_c cmp s d = '(s1, ret) ⇐ msplay_c (set_sz s (sz s - 1)) (root s) (force d); take_front_c cmp s1 ret) as Hee.
  { unfold erase_end_c. by rewrite (mempty_Ok s A Hsz), bool_decide_eq_false_2. }
  destruct (end_again _ A d a x D (core_sz cmp alloc _ _ _ _ (sz s - 1)%Z H) Hroom) as (s1 & Hrun1 & H1 & Hsz1).
  change (root (set_sz s (sz s - 1))) with (root s) in Hrun1. rewrite Hrun1 in Hee. cbn [cbind mbind outcome_bind obind] in Hee.
  destruct (take_dup s1 A d a x D l1 l2 y r H1 Hq ED Hroom) as (s2 & Hrun2 & Hg).
  rewrite Hrun2 in Hee. cbn in Hee.
  pose proof (gone_fits cmp alloc n s1 s2 A l1 x l2 (sz s) _ Hg Hq Hsz1 Hsz) as Hf2.
  destruct (leaves_c cmp Hcmp alloc off n s2 A _ l1 x l2 Hf2) as (s3 & Hs3 & Hf3).
  { by apply (in_rest A). } { done. } { intros Ha. by apply (repr_mem cmp alloc s A). }
  exists s3, a, y. split; [|split; [done|]].
  - destruct d; unfold omm_pop_max_c, omm_pop_min_c; rewrite Hee; cb; rewrite (proj2 (Nat.eqb_neq x 0)) by done.
    + rewrite Hs3. by cb.
    + assert ((if alloc then give_back s2 (x - off) else Ok s2) = Ok s3) as ->; [|by cb].
      rewrite <- Hs3. destruct Hd as [?|[Ha|Ho]]; [done|by rewrite Ha|]. by rewrite Ho, Nat.sub_0_r.
  - assert (y ∈ x :: D x) as Hyx by (rewrite ED; right; left).
    destruct (gr_in cmp (vals A) (nodes (mk d a x E)) D (queue A) x y) as (_ & kx' & ky & Hx' & Hky & Hxy);
      [apply H|done|done|]. simplify_eq. exists ky. split; [|done].
    unfold leaves. destruct (allocates c); [|done]. cbn. rewrite lookup_delete_ne; [done|]. intros <-.
    destruct (wf_apart _ _ _ (co_wf _ _ _ _ _ _ H)) as (_ & _ & _ & _ & Hdd & _).
    destruct (Hdd x x) as [Hno _]; [rewrite ED; left|done].
Qed.

Lemma steady_run d k s A os rs A' :
  topped s A d k -> steady cmp c d k A os rs A' ->
  exists s', omm_run_c cmp alloc off s os = Ok ((s', rs), Work (length os) 0) /\ topped s' A' d k.
Proof.
  intros Ht Hs. revert s Ht. induction Hs as [A|A o r A1 os rs A2 Hc Ho Hl Hs IH]; intros s Ht; [by exists s|].
  cut (exists s', omm_step_c cmp alloc off s o = Ok ((s', r), Work 1 0) /\ topped s' A1 d k).
  { intros (s1 & Hrun1 & Ht1). destruct (IH s1 Ht1) as (s2 & Hrun2 & Ht2). exists s2. split; [|done].
    cbn [omm_run_c]. rewrite Hrun1. cb. rewrite Hrun2. cb. by rewrite OmWalkCost.add_idle. }
  clear IH Hs. destruct Ht as (a & x & kx & Hf & Hx & Hk). pose proof Hf as ((D & H) & Hsz & Hroom).
  pose proof (fits_repr cmp alloc n s A _ Hf) as Hr.
  destruct (topped_present s A d a x kx k Hf Hx Hk) as (p1 & p2 & Hp).
  pose proof (present_nonempty cmp _ _ _ _ _ Hp) as Hne.
  assert (x ∈ queue A) as Hxq. { destruct Hp as [-> _]. rewrite elem_of_app. right. left. }
  destruct (repr_ne cmp alloc s A x Hr Hxq) as [Hx0 Hx1].
  assert (NoDup (queue A)) as Hnd by (by apply (repr_NoDup cmp alloc s)).
  assert (forall s', core s' A (mk d a x E) D -> sz s' = sz s -> fits s' A (mk d a x E)) as Hfits.
  { intros s' H' Hsz'. split; [by exists D|]. split; [congruence|done]. }
  assert (forall l1 y l2, extreme cmp A d l1 y l2 -> y = x) as Hext.
  { intros l1 y l2 Hy.
    apply (gr_extreme cmp Hcmp A _ D d l1 y l2 x (ord d (nodes a)) (co_groups _ _ _ _ _ _ H) Hy). by rewrite nodes_mk; destruct d. }
  assert (forall l1 y l2, extreme cmp A d l1 y l2 -> d = true \/ alloc = false \/ off = 0 -> A1 = leaves c A l1 y l2 ->
    exists s', (if d then omm_pop_max_c cmp alloc s else omm_pop_min_c cmp alloc off s) = Ok ((s', OK), Work 1 0) /\ topped s' A1 d k) as Hpop.
  { intros l1 y l2 Hy Hd ->. destruct (topped_pop s A d a x kx l1 y l2 Hf Hx Hy Hd) as (s' & a' & x' & Hrun & Hf' & kx' & Hx' & Hkx').
    - destruct Hl as (z & Hz & kz & Hkz & Hez). exists z. split; [done|]. exists kz. split; [done|].
      apply (cmp_eq_trans cmp Hcmp _ k); [by apply (cmp_sym cmp Hcmp)|done].
    - exists s'. split; [done|]. exists a', x', kx'. split_and!; [done..|]. by apply (cmp_eq_trans cmp Hcmp _ (fst kx)). }
  assert (exists p q, mk d a x E = T p x q) as (p & q & Hpq) by (destruct d; by eexists _, _).
  destruct Hc; cbn [at_key] in Ho; try done; cbn [omm_step_c].
  - (* get *) rewrite Hpq in *. unfold mfind_c. rewrite (core_root_nil cmp alloc s A _ D H), bool_decide_eq_false_2 by done.
    assert (x0 = x) as ->.
    { eapply (present_eq A k); [done| |exact Hp]. destruct H0 as (? & (k1 & ? & ?) & Hl1). split_and!; [done| |].
      - exists k1. split; [done|]. by apply (cmp_eq_trans cmp Hcmp _ k0).
      - eapply Forall_impl; [exact Hl1|]. intros z Hz (k2 & ? & ?). apply Hz. exists k2. split; [done|].
        apply (cmp_eq_trans cmp Hcmp _ k); [by apply (cmp_sym cmp Hcmp)|done]. }
    assert (cmp k0 (fst kx) = Eq) as Hk0. { apply (cmp_eq_trans cmp Hcmp _ k); [by apply (cmp_sym cmp Hcmp)|done]. }
    destruct (key_again s A p x q D k0 kx H Hroom Hx Hk0) as (s1 & -> & H1 & Hsz1). cb.
    rewrite (core_cmpk cmp alloc _ _ _ _ H1 k0 x kx) by done. cb. rewrite Hk0. cbn [is_eq].
    eexists. split; [done|]. exists a, x, kx. rewrite Hpq. split; [|done]. apply (Hfits s1 H1 Hsz1).
  - exfalso. unfold absent in H0. rewrite Forall_forall in H0. apply (H0 x Hxq). exists kx. split; [done|].
    apply (cmp_eq_trans cmp Hcmp _ k); [by apply (cmp_sym cmp Hcmp)|done].
  - (* insert *) exfalso. destruct Ho as [_ Ho]. by apply Ho.
  - exfalso. destruct Ho as (Ho & _). destruct Ho as (kv' & Hkv' & Hkk). simplify_eq.
    unfold absent in H1. rewrite Forall_forall in H1. apply (H1 x Hxq). exists kx. split; [done|].
    apply (cmp_eq_trans cmp Hcmp _ k); [by apply (cmp_sym cmp Hcmp)|done].
  - destruct Ho as ((kv' & Hkv' & Hkk) & Hans). simplify_eq.
    assert (cmp (fst kv) (fst kx) = Eq) as Hk0. { apply (cmp_eq_trans cmp Hcmp _ k); [by apply (cmp_sym cmp Hcmp)|done]. }
    unfold omm_insert_c. destruct (repr_live cmp alloc s A e kv Hr H0) as (Hle & _).
    apply arrives_cases in H3 as [(Hal & -> & -> & Hin & Hm)|(Hal & -> & -> & Hu)]; [..|done]; cbn [allocates OmmSpec.kept] in Hal.
    + destruct (insert_again s A p x q e kx kv) as (s1 & Hrun & Hf1); [by rewrite <- Hpq|done..|]. rewrite <- Hpq in Hf1.
      rewrite (if_no alloc) by done. rewrite Hrun. cb. eexists. split; [done|]. exists a, x, kx. by split_and!.
    + destruct (OmProofs.live_links _ _ Hle) as (l & r & j & Hlf & Hrt & Hj).
      rewrite (if_yes alloc) by done. rewrite (proj2 (Nat.eqb_neq ans 0)) by done.
      rewrite (repr_value cmp alloc s A e kv Hr H0). bind.
      rewrite (rd_Ok _ _ _ Hlf), (rd_Ok _ _ _ Hrt), (rd_Ok _ _ _ Hj). bind.
      pose proof (unused_queue cmp alloc s A ans Hr Hu) as Hin.
      pose proof (fits_new cmp Hcmp alloc n s A _ ans kv l r j true Hu Hf) as Hf1. cbn in Hf1.
      rewrite Hpq in Hf1.
      destruct (insert_again _ (obtain A ans kv) p x q ans kx kv Hf1) as (s1 & Hrun & Hf2); [|done| | |done|].
      { cbn. by rewrite lookup_insert. } { intros _. cbn. set_solver. }
      { cbn. rewrite lookup_insert_ne; [done|]. by intros ->. }
      rewrite <- Hpq in Hf2. rewrite Hrun. cb. eexists. split; [done|]. exists a, x, kx. split; [done|]. split; [|done].
      cbn. rewrite lookup_insert_ne; [done|]. by intros ->.
  - (* max *) subst d. rewrite (Hext _ _ _ H0). unfold omm_end_c.
    destruct (end_again s A true a x D H Hroom) as (s1 & -> & H1 & Hsz1). cb.
    eexists. split; [done|]. exists a, x, kx. split; [|done]. by apply Hfits.
  - subst d. rewrite (Hext _ _ _ H0). unfold omm_end_c.
    destruct (end_again s A false a x D H Hroom) as (s1 & -> & H1 & Hsz1). cb.
    eexists. split; [done|]. exists a, x, kx. split; [|done]. by apply Hfits.
  - subst d. destruct (Hpop l1 x0 l2) as (s1 & -> & Ht1); [done|by left|done|]. cb. by exists s1.
  - subst d. destruct (Hpop l1 x0 l2) as (s1 & -> & Ht1); [done| |done|].
    { right. destruct H1 as [?|H1]; [by left|right]. cbn in H1. by apply Nat.eqb_eq. }
    cb. by exists s1.
Qed.

(** The end, and then calls about its key. *)
Lemma ends_run d os1 rs1 A l1 x kx l2 os rs A' :
  calls_within cmp c n start os1 rs1 A -> extreme cmp A d l1 x l2 -> vals A !! x = Some kx ->
  steady cmp c d (fst kx) A os rs A' ->
  exists s s1 s2 w w1, omm_run_c cmp alloc off om_init os1 = Ok ((s, rs1), w) /\
    omm_step_c cmp alloc off s (if d then OMax else OMin) = Ok ((s1, OPtr x), w1) /\
    omm_run_c cmp alloc off s1 os = Ok ((s2, rs), Work (length os) 0).
Proof.
  intros Hc Hx Hkx Hs.
  destruct (history_fits cmp Hcmp alloc off n os1 rs1 A Hc) as (s & w & t & Hrun & Hf).
  destruct (end_c cmp Hcmp alloc n s A t d l1 x l2 Hf Hx) as ([s1 y] & w1 & t1 & Hrun1 & _ & Hy & Hf1 & a & ->).
  cbn in Hy, Hf1. subst y.
  destruct (steady_run d (fst kx) s1 A os rs A') as (s2 & Hrun2 & _); [|done|].
  { exists a, x, kx. split; [done|]. split; [done|]. by apply (cmp_refl cmp Hcmp). }
  exists s, s1, s2, w, (add_work w1 idle). split; [done|]. split; [|done].
  destruct d; cbn [omm_step_c]; rewrite Hrun1; done.
Qed.

(** pop_min after min. *)
Lemma pop_min_run os1 rs1 A l1 x l2 :
  calls_within cmp c n start os1 rs1 A -> extreme cmp A false l1 x l2 -> alloc = false \/ off = 0 ->
  exists s s1 s2 w w1, omm_run_c cmp alloc off om_init os1 = Ok ((s, rs1), w) /\
    omm_step_c cmp alloc off s OMin = Ok ((s1, OPtr x), w1) /\
    omm_step_c cmp alloc off s1 OPopMin = Ok ((s2, OResult OK), Work 1 0).
Proof.
  intros Hc Hx Hd.
  destruct (history_fits cmp Hcmp alloc off n os1 rs1 A Hc) as (s & w & t & Hrun & Hf).
  destruct (end_c cmp Hcmp alloc n s A t false l1 x l2 Hf Hx) as ([s1 y] & w1 & t1 & Hrun1 & _ & Hy & Hf1 & a & ->).
  cbn in Hy, Hf1. subst y. pose proof (fits_repr cmp alloc n s1 A _ Hf1) as Hr1. pose proof Hf1 as ((D & H1) & Hsz1 & Hroom).
  destruct (pop_c cmp Hcmp alloc off n s1 A _ false l1 x l2 Hf1 Hx) as ([s2 r] & w2 & t2 & Hrun2 & _ & Hr & _); [by right|].
  cbn in Hr. subst r.
  exists s, s1, s2, w, (add_work w1 idle). split; [done|]. split; [cbn [omm_step_c]; by rewrite Hrun1|].
  cbn [omm_step_c]. rewrite Hrun2. cb. rewrite OmWalkCost.add_idle. cut (w2 = Work 1 0); [by intros ->|].
  unfold omm_pop_min_c, erase_end_c in Hrun2. rewrite (mempty_Ok s1 A Hsz1) in Hrun2.
  rewrite bool_decide_eq_false_2 in Hrun2 by (by eapply extreme_nonempty).
  destruct (end_again _ A false a x D (core_sz cmp alloc _ _ _ _ (sz s1 - 1)%Z H1) Hroom) as (s3 & Hrun3 & H3 & Hsz3).
  rewrite Hrun3 in Hrun2. cbn [cbind mbind outcome_bind obind] in Hrun2.
  destruct Hx as [Hq _].
  assert (exists s4, take_front_c cmp s3 x = Ok ((s4, x), idle)) as (s4 & Hrun4).
  { destruct (D x) as [|y r] eqn:ED.
    - destruct (core_data cmp alloc s3 A _ D H3 x) as [kx Hkx]; [rewrite Hq, elem_of_app; right; left|].
      destruct (take_single s3 A E x a D l1 l2 kx H3 Hq ED Hroom Hkx) as (s4 & t' & i & Hrun4 & [(_ & -> & _)|(? & ? & Hfl & _)]).
      + by exists s4.
      + exfalso. inversion Hfl; by destruct d.
    - destruct (take_dup s3 A false a x D l1 l2 y r H3 Hq ED Hroom) as (s4 & Hrun4 & _). by exists s4. }
  rewrite Hrun4 in Hrun2. cbn in Hrun2.
  rewrite (proj2 (Nat.eqb_neq x 0)) in Hrun2 by (eapply (repr_ne cmp alloc s1 A x Hr1); rewrite Hq, elem_of_app; right; left).
  destruct (if alloc then give_back s4 (x - off) else Ok s4); try done. cbn in Hrun2. by injection Hrun2 as _ <-.
Qed.
End ends.
