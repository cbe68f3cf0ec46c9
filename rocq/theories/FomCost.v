(** What calls on the flat splay map cost: the iterations of the loop of splay are
    paid for by the potential of the tree (SplayCost.v). *)
From Coq Require Import Sorted Arith.
From stdpp Require Import base numbers option gmap fin_maps list.
From Verif Require Import Common LinkHeap PathLemmas OrderSpec Counting TreeModel TreeProofs CostModel CostErase SplayModel SplayCostModel
  SplayProofs SplayCost WavlModel
  WavlProofs WavlRank WavlRemove WavlNode WavlFrame OmProofs MapSpec MapProofs OmCost CostBounds FlatOps FlatSpec FlatModel FlatProofs FlatCalls FlatCostSpec
  WavlCostModel WavlCostErase FrmProofs FomModel FomProofs FomCostModel FomCostErase.

Local Ltac bind := cbn [mbind outcome_bind obind cbind still gratis hopping].

(** ** Trees *)

Lemma plug_pot Q t t' : weight t = weight t' -> pot t = pot t' -> pot (plug Q t) = pot (plug Q t').
Proof.
  revert t t'. induction Q as [|[[d x] b] Q IH]; intros t t' Hw Hp; [done|]. cbn [plug].
  apply IH; [by rewrite !weight_mk, Hw|by rewrite !pot_mk, Hw, Hp].
Qed.

Section proofs.
Context {K V : Type} (cmp : K -> K -> comparison) (Hcmp : total_preorder cmp) (alloc : bool).
Implicit Types (s : flat K V) (A : fview K V).

Notation c := (fom_contract alloc).
Notation facts := (facts cmp).
Notation core := (core cmp tree_ok).
Notation reprT := (reprT cmp tree_ok).
Notation repr := (repr cmp tree_ok).

Lemma splay_core_c s A t k :
  core s A t -> elems (fv A) <> [] ->
  exists w a x b kv m, splay_f_c cmp s (wroot (tr s)) k = Ok ((set_tr s w, x), Work m 0) /\
    falls 0 (keyc cmp (dat s) k) t m a x b /\ core (set_tr s w) A (T a x b) /\
    parted cmp (fv A) k (nodes a) x (nodes b) /\ vals (fv A) !! x = Some kv /\ wroot w = x /\
    (forall i, alive (tr s) i -> alive w i) /\ outside (0 :: nodes t) (with_root (tr s) x) w.
Proof.
  intros Hcore Hne. pose proof Hcore as ((Hc & Ha) & (Hs & _) & Hd & (Hroot & Hrep & Hnd & Hl) & Hn).
  assert (t <> E) as Ht by (intros ->; by cbn in Hn).
  assert (sorted cmp (dat s) (nodes t)) as Hs' by (rewrite Hn; by apply (sorted_same cmp Hcmp (vals (fv A)))).
  destruct (splay_c_Ok 0 cmp Hcmp (dat s) (wl (tr s)) 0 t k Hrep Ht Hs' Hl)
    as (h' & a & x & b & kv & m & Hsp & Hfalls & Hrep' & Hn' & Hf & Hl' & Hx & H1 & H2).
  unfold splay_f_c. rewrite Hroot, Hsp. bind.
  assert (forall z, live (wl (tr s)) z -> live h' z) as Hlive.
  { intros z Hz. destruct (decide (z = 0)) as [-> |Hz0]; [done|].
    destruct (decide (z ∈ nodes t)) as [Hin|Hin].
    - rewrite <- Hn' in Hin. by apply (rep_live 0 h' 0 _ _ Hrep').
    - apply (frame_live (0 :: nodes t) (wl (tr s))); [done| |done]. by intros [?|?]%elem_of_cons. }
  exists (Wavl h' (wp (tr s)) x), a, x, b, kv, m. split; [done|]. split; [done|].
  assert (forall i, alive (tr s) i -> alive (Wavl h' (wp (tr s)) x) i) as Hal.
  { intros i [Hi Hb]. split; [by apply Hlive|done]. }
  assert (elems (fv A) = nodes a ++ x :: nodes b) as He by (by rewrite <- Hn, <- Hn').
  split; [|split_and!; try done].
  - apply (core_links cmp s A t); [done| |done|done]. split_and!; [done|done| |done]. by rewrite Hn'.
  - split_and!; [done|..]; intros z Hz; [destruct (H1 z Hz) as (kz & Hkz & Hk)|destruct (H2 z Hz) as (kz & Hkz & Hk)];
      exists kz; (split; [|done]); rewrite <- Hd; try done; rewrite He, elem_of_app, elem_of_cons; tauto.
  - rewrite <- Hd; [done|]. rewrite He, elem_of_app. right. left.
Qed.

Lemma splay_repr_c s A t k :
  reprT s A t -> elems (fv A) <> [] ->
  exists w a x b kv m, splay_f_c cmp s (wroot (tr s)) k = Ok ((set_tr s w, x), Work m 0) /\
    falls 0 (keyc cmp (dat s) k) t m a x b /\ reprT (set_tr s w) A (T a x b) /\
    parted cmp (fv A) k (nodes a) x (nodes b) /\ vals (fv A) !! x = Some kv /\
    cmpk cmp (dat s) k x = Ok (cmp k (fst kv)).
Proof.
  intros Hr Hne. assert (exists y, y ∈ elems (fv A)) as [y Hy].
  { destruct (elems (fv A)) as [|y l]; [done|]. exists y. left. }
  destruct (reprT_born cmp tree_ok s A t y Hr Hy) as (Hcore & Hsz & Hle).
  destruct (splay_core_c s A t k Hcore Hne) as (w & a & x & b & kv & m & Hsp & Hfalls & Hcore' & Hpt & Hx & _).
  exists w, a, x, b, kv, m. split_and!; try done.
  - split; [by destruct Hr|]. right. by split_and!.
  - apply cmpk_Ok. destruct Hcore as (_ & _ & Hd & _). rewrite Hd; [done|]. destruct Hpt as (-> & _).
    rewrite elem_of_app. right. left.
Qed.

(** Splaying for a key brings its element to the root. *)
Lemma splay_present_c s A t k l1 x l2 :
  reprT s A t -> present_at cmp A k l1 x l2 ->
  exists w a b kv m, splay_f_c cmp s (wroot (tr s)) k = Ok ((set_tr s w, x), Work m 0) /\
    falls 0 (keyc cmp (dat s) k) t m a x b /\ reprT (set_tr s w) A (T a x b) /\
    nodes a = l1 /\ nodes b = l2 /\ vals (fv A) !! x = Some kv /\ cmpk cmp (dat s) k x = Ok Eq.
Proof.
  intros Hr Hp. pose proof (reprT_facts cmp tree_ok s A t Hr) as Hf.
  destruct (splay_repr_c s A t k Hr (present_ne cmp A k _ _ _ Hp)) as (w & a & y & b & kv & m & Hsp & Hfalls & Hr' & Hpt & Hy & Hc).
  destruct (parted_present cmp (fv A) k _ _ _ _ _ _ (facts_NoDup cmp Hcmp A Hf) Hpt Hp) as (<- & Ha & Hb).
  exists w, a, b, kv, m. split_and!; try done. destruct Hp as (_ & kx & Hx & Hk). by simplify_eq/=; rewrite Hc, Hk.
Qed.

Lemma splay_absent_c s A t k l1 l2 :
  reprT s A t -> absent_at cmp A k l1 l2 -> elems (fv A) <> [] ->
  exists w a x b cr m, splay_f_c cmp s (wroot (tr s)) k = Ok ((set_tr s w, x), Work m 0) /\
    falls 0 (keyc cmp (dat s) k) t m a x b /\ reprT (set_tr s w) A (T a x b) /\
    cmpk cmp (dat s) k x = Ok cr /\ cr <> Eq.
Proof.
  intros Hr Hab Hne.
  destruct (splay_repr_c s A t k Hr Hne) as (w & a & y & b & kv & m & Hsp & Hfalls & Hr' & Hpt & Hy & Hc).
  pose proof (parted_absent cmp _ _ _ _ _ _ _ kv Hpt Hab Hy) as Hcr.
  exists w, a, y, b, (cmp k (fst kv)), m. split_and!; try done. by destruct (cmp k (fst kv)).
Qed.

(** The tree after a new element [n] with key [k] was linked. *)
Inductive grown_f (m : gmap nat (K * V)) (k : K) (n : nat) : tree -> tree -> Prop :=
  | grown_f_first : grown_f m k n E (T E n E)
  | grown_f_next t i a x b kx u v : falls 0 (keyc cmp m k) t i a x b -> m !! x = Some kx ->
      T a x b = mk (is_gt (cmp k (fst kx))) u x v ->
      grown_f m k n t (mk (is_gt (cmp k (fst kx))) (mk (is_gt (cmp k (fst kx))) u x E) n v).

Lemma fom_link_c_Ok n0 s A t l1 l2 kv :
  core s A t -> absent_at cmp A (fst kv) l1 l2 ->
  sz s = S (S (count A)) -> sz s <= cap s -> dat s !! S (count A) = Some kv ->
  S (count A) <= n0 ->
  exists w t' c0, fom_link_c cmp s tt (S (count A)) = Ok ((set_tr s w, Some (S (count A))), c0) /\ spent n0 2 t c0 t' /\ tree_ok w t' /\
    nodes t' = l1 ++ S (count A) :: l2 /\ (forall i, alive (tr s) i -> alive w i) /\
    grown_f (dat s) (fst kv) (S (count A)) t t'.
Proof.
  intros Hcore Hab Hsz Hle Hdn Hn0. pose proof Hcore as ((Hc & Ha) & Hf & Hd & Hg & Hn). set (n := S (count A)) in *.
  assert (n ∉ elems (fv A)) as Hnn by (rewrite (facts_range cmp A n Hf); lia).
  unfold fom_link_c. destruct (Ha n) as [Hln Hbn]; [lia|]. rewrite set_links_put by done. bind.
  set (w0 := with_links (tr s) (put_links (wl (tr s)) n 0 0 0)).
  assert (forall i, alive (tr s) i -> alive w0 i) as Hal0.
  { intros i [Hl Hb]. split; [|done]. cbn. apply live_put. by left. }
  assert (outside [n] (tr s) w0) as Ho0.
  { split_and!; [apply frame_put|apply same_parity_refl|done]. }
  assert (tree_ok w0 t) as Hg0.
  { apply (good_outside _ _ (fom_tree (K := K) (V := V)) [n] (tr s)); [done|done| |].
    - rewrite elem_of_list_singleton. lia.
    - intros z ->%elem_of_list_singleton. by rewrite Hn. }
  destruct (Nat.eqb_spec (sz s) 2) as [H2|H2].
  - assert (elems (fv A) = []) as He by (destruct (elems (fv A)) eqn:E; [done|unfold n, count in *; rewrite E in *; cbn in *; lia]).
    assert (l1 = [] /\ l2 = []) as [-> ->] by (destruct Hab as (Hab & _); rewrite He in Hab; by apply app_eq_nil).
    assert (t = E) as -> by (rewrite He in Hn; destruct t as [|u ? ?]; [done|]; cbn in Hn; by apply app_cons_not_nil in Hn || destruct (nodes u)).
    exists (Wavl (wl w0) (wp (tr s)) n), (T E n E), (add_work idle idle). split; [done|].
    split; [eapply spent_end; [apply spent_first|done|lia]|]. split; [|split_and!; [done|done|constructor]].
    + destruct (put_lookups (wl (tr s)) n 0 0 0) as (? & ? & ?). split_and!; try done.
      * cbn. apply NoDup_singleton.
      * by destruct Hg0 as (_ & _ & _ & ?).
  - unfold value. rewrite Hdn. bind.
    set (s0 := set_tr s w0).
    assert (core s0 A t) as Hcore0 by (by apply (core_links cmp s A t)).
    assert (elems (fv A) <> []) as Hne by (intros He; unfold n, count in *; rewrite He in *; cbn in *; lia).
    destruct (splay_core_c s0 A t (fst kv) Hcore0 Hne) as (w & a & x & b & kx & m & Hsp & Hfalls & Hcore' & Hpt & Hx & Hroot & Hal & Ho).
    change (wroot (tr s0)) with (wroot (tr s)) in Hsp. rewrite Hsp. bind.
    assert (dat s !! x = Some kx) as Hdx.
    { rewrite Hd; [done|]. destruct Hpt as (-> & _). rewrite elem_of_app. right. left. }
    rewrite (cmpk_Ok cmp _ (fst kv) x kx) by done. bind.
    pose proof (parted_absent cmp _ _ _ _ _ _ _ kx Hpt Hab Hx) as Hl.
    rewrite (is_eq_ne) by (by destruct (cmp (fst kv) (fst kx))).
    destruct Hcore' as (_ & _ & _ & (Hroot' & Hrep & Hnd & Hl0) & Hn'). cbn [set_tr tr wl] in *.
    set (d := is_gt (cmp (fst kv) (fst kx))) in *.
    assert (exists u v, T a x b = mk d u x v /\ ord d (l1 ++ n :: l2) = ord d (nodes u) ++ x :: n :: ord d (nodes v))
      as (u & v & Hmk & Hord).
    { destruct (cmp (fst kv) (fst kx)); [done| |]; destruct Hl as [-> ->]; cbn in d.
      - exists b, a. split; [done|]. cbn. rewrite rev_app_distr. cbn. by rewrite <- !app_assoc.
      - exists a, b. split; [done|]. cbn. by rewrite <- app_assoc. }
    rewrite Hmk in *.
    destruct (graft_Ok 0 (wl w) (cmp (fst kv) (fst kx)) u x v n) as (h1 & Hgr & Hrep1 & Hl1 & Hf1); try done.
    { fold d. constructor; [by rewrite Hn'|done]. }
    { apply Hal, Hal0, Ha. lia. }
    rewrite Hgr. bind. fold d in Hrep1.
    eexists (Wavl h1 (wp w) n), (mk d (mk d u x E) n v), _. split; [done|].
    split.
    {       eapply spent_end; [eapply spent_trans; [eapply (spent_splay n0 _ _ _ _ _ _ _ 0); [exact Hfalls|]|rewrite Hmk; apply (spent_graft n0 d u x v n)]|cbn; lia|lia].
      - rewrite Hn. unfold n, count in *. lia.
      - rewrite Hn'. unfold n, count in *. lia. }
    assert (nodes (mk d (mk d u x E) n v) = l1 ++ n :: l2) as Hnodes.
    { apply (ord_inj d). rewrite Hord, !nodes_mk, <- app_assoc. cbn [app nodes]. by destruct d. }
    split; [|split; [done|split; [|by eapply grown_f_next]]].
    + split_and!; [by rewrite ptr_mk|done| |by apply Hl1].
      rewrite Hnodes. destruct Hab as (He & _). rewrite <- Permutation_middle. constructor; [by rewrite <- He|].
      rewrite <- He. by apply (facts_NoDup cmp Hcmp A).
    + intros i Hi. apply Hal0, Hal in Hi as [Hi Hb]. split; [by apply Hl1|done].
Qed.

Lemma fom_erase_c_no n0 s A t k l1 l2 :
  reprT s A t -> absent_at cmp A k l1 l2 -> count A <= n0 ->
  exists s' t' c0, fom_erase_c cmp s k = Ok ((s', None), c0) /\ spent n0 2 t c0 t' /\ reprT s' A t'.
Proof.
  intros Hr Hab Hn0. unfold fom_erase_c. rewrite (empty_elems cmp s A t Hr).
  destruct (bool_decide_reflect (elems (fv A) = [])) as [He|Hne]; [eexists s, t, _; split_and!; [done|eapply spent_end; [apply spent_refl|done|lia]|done]|].
  destruct (splay_absent_c s A t k l1 l2 Hr Hab Hne) as (w & a & x & b & cr & m & -> & Hfalls & Hr' & Hc & Hcr). bind.
  cbn [dat set_tr]. rewrite Hc. bind. rewrite is_eq_ne by done. bind. eexists _, _, _. split_and!; [done| |done].
  eapply spent_end; [eapply (spent_splay n0 _ _ _ _ _ _ _ 0); [exact Hfalls|]|cbn; lia|lia]. by rewrite (reprT_nodes cmp tree_ok s A t Hr).
Qed.

Lemma fom_erase_c_yes n0 s A t k l1 x l2 old :
  reprT s A t -> present_at cmp A k l1 x l2 -> shown_at A x old ->
  count A <= n0 ->
  exists s' t' c0, fom_erase_c cmp s k = Ok ((s', Some (count A)), c0) /\ spent n0 2 t c0 t' /\ reprT s' (fremoved A l1 x l2) t' /\ dat s' !! count A = Some old.
Proof.
  intros Hr0 Hp Hold Hn0. unfold fom_erase_c. rewrite (empty_no cmp s A t Hr0 (present_ne cmp A k _ _ _ Hp)).
  destruct (splay_present_c s A t k l1 x l2 Hr0 Hp) as (w & a & b & kv & m & -> & Hfalls & Hr & Hna & Hnb & Hx & Hc). bind.
  cbn [dat set_tr]. rewrite Hc. bind. cbn [is_eq negb]. clear Hc.
  set (s1 := set_tr s w) in *. change (dat s) with (dat s1). pose proof (reprT_facts cmp tree_ok s1 A _ Hr) as Hf.
  pose proof Hp as (He & _).
  assert (x ∈ elems (fv A)) as Hxin by (rewrite He, elem_of_app; right; left).
  pose proof (proj1 (facts_range cmp A x Hf) Hxin) as Hrx.
  pose proof (facts_NoDup cmp Hcmp A Hf) as Hnd.
  destruct (reprT_born cmp tree_ok s1 A _ x Hr Hxin) as (((Hcap & Ha) & (Hs & _) & Hd & (Hroot & Hrep & _ & Hl0) & Hn) & Hsz & Hle).
  assert (vals (fv A) !! x = Some old) as Hvx by done.
  destruct (detach_c_Ok 0 cmp Hcmp (dat s1) (wl (tr s1)) a x b old) as (h1 & t1 & j & Hdet & Hcut & Hrep1 & Hn1 & Hl1 & Hf1); try done.
  { rewrite Hn. by apply (sorted_same cmp Hcmp (vals (fv A))). }
  { by rewrite Hd. }
  change (wl w) with (wl (tr s1)).
  assert (spent n0 2 t (Work (m + j) 0) t1) as Hspent.
  { assert (length (nodes t) <= n0) as Ht by (by rewrite (reprT_nodes cmp tree_ok s A t Hr0)).
    assert (length (nodes (T a x b)) <= n0) as Ht' by (by rewrite Hn).
    assert (spent n0 1 (T a x b) (Work j 0) t1) as Hj.
    { destruct Hcut as [(-> & -> & ->)|(a' & y & Hfa & ->)].
      + eapply (spent_end n0 0); [apply spent_cut_first|done|lia].
      + by apply (spent_cut_splayed n0 _ _ _ _ _ _ _ _ 0 Hfa). }
    eapply (spent_end n0 2); [|by instantiate (1 := add_work (Work m 0) (Work j 0))|done].
    eapply (spent_trans n0 1 1); [|exact Hj]. by apply (spent_splay n0 _ _ _ _ _ _ _ 0 Hfalls). }
  unfold detach_f_c. change (wl (tr s1)) with (wl (tr s1)). rewrite Hdet. bind. rewrite Hna, Hnb in Hn1.
  rewrite He in Hnd. rewrite <- Permutation_middle in Hnd. apply NoDup_cons in Hnd as [Hx12 Hnd].
  set (n := count A) in *. set (w1 := Wavl h1 (wp (tr s1)) (ptr 0 t1)).
  change (set_links_root s1 h1 (ptr 0 t1)) with (set_tr s1 w1).
  assert (tree_ok w1 t1) as Hg1 by (split_and!; [done|done|by rewrite Hn1|by apply Hl1]).
  assert (forall i, alive (tr s1) i -> alive w1 i) as Hal by (intros i [Hi Hb]; split; [by apply Hl1|done]).
  unfold fom_swap_and_pop. change (sz (set_tr s1 w1)) with (sz s1). replace (sz s1 - 1) with n by lia.
  change (sz (set_sz (set_tr s1 w1) n)) with n.
  destruct (Nat.eqb_spec x n) as [Hxn|Hxn].
  - bind. eexists _, t1, _. split; [done|]. split; [eapply spent_end; [exact Hspent|cbn; lia|done]|]. split.
    + apply (popped cmp Hcmp tree_ok s1 A (T a x b) l1 x l2); try done.
      rewrite Hn1. fold n. rewrite Hxn. by rewrite moved_same.
    + change (dat s1 !! n = Some old). by rewrite <- Hxn, Hd, Hvx.
  - assert (n ∈ nodes t1) as Hnt.
    { assert (n ∈ elems (fv A)) as Hnin by (apply (facts_range cmp A _ Hf); fold n; lia).
      rewrite He, elem_of_app, elem_of_cons in Hnin. rewrite Hn1, elem_of_app. naive_solver. }
    destruct (find_zip _ _ Hnt) as (Q & a1 & b1 & Ht1).
    assert (zin 0 (wl w1) (wroot w1) Q (T a1 n b1)) as Hz1.
    { apply zin_at. rewrite <- Ht1. by apply (good_zin _ _ (fom_tree (K := K) (V := V))). }
    assert (x ∉ nodes (plug Q (T a1 n b1))) as Hx1 by (by rewrite <- Ht1, Hn1).
    set (s2 := set_sz (set_tr s1 w1) n).
    destruct (relocate_Ok s2 x Q a1 b1) as (s3 & -> & Hsz3 & Hcap3 & Hz3 & Hal3 & _ & Hdx & Hdn & Hrest).
    { exact Hz1. } { intros i Hi. by apply Hal, Ha. } { lia. } { change (x < cap s1). lia. } { change (n < cap s1). lia. }
    { intros Hin. apply Hx1, elem_of_plug. by left. } { intros Hin. apply Hx1, elem_of_plug. by right. }
    bind. change (sz s2) with n in *. change (dat s2) with (dat s1) in *. change (cap s2) with (cap s1) in *.
    change (tr s2) with w1 in *.
    assert (alive (tr s3) n) as [Hln Hbn] by (apply Hal3, Hal, Ha; lia).
    rewrite set_links_put by done. bind.
    set (w4 := with_links (tr s3) (put_links (wl (tr s3)) n 0 0 0)).
    assert (forall i, alive (tr s3) i -> alive w4 i) as Hal4.
    { intros i [Hl Hb]. split; [|done]. cbn. apply live_put. by left. }
    assert (outside [n] (tr s3) w4) as Ho4.
    { split_and!; [apply frame_put|apply same_parity_refl|done]. }
    change (sz (set_tr s3 w4)) with (sz s3). rewrite Hsz3. eexists _, (plug Q (T a1 x b1)), _. split; [done|].
    split.
    { apply (spent_end n0 2 2 t (Work (m + j) 0)); [|cbn; lia|done]. unfold spent in *. rewrite (plug_pot Q _ (T a1 n b1)), <- Ht1 by done. exact Hspent. }
    pose proof (zin_cnt _ _ _ _ _ Hz3) as Hc3. pose proof (zin_cnt _ _ _ _ _ Hz1) as Hc1. cbn [nodes] in Hc1, Hc3.
    split.
    + apply (popped cmp Hcmp tree_ok s1 A (T a x b) l1 x l2); try done; cbn [set_tr sz cap tr dat].
      * intros i Hi. by apply Hal4, Hal3, Hal.
      * apply (good_outside _ _ (fom_tree (K := K) (V := V)) [n] (tr s3)); [|done| |].
        -- by apply zin_plug in Hz3.
        -- rewrite elem_of_list_singleton. lia.
        -- intros z ->%elem_of_list_singleton Hin. apply elem_of_plug in Hin. cbn [nodes] in Hin.
           rewrite !cnt_in in Hin. pose proof (eqn_ne n x (not_eq_sym Hxn)). cnt_at n.
      * fold n. rewrite (plug_moved Q a1 n b1 x), <- Ht1, Hn1; [done|by rewrite <- Ht1, Hn1].
      * intros z Hz. apply Hrest. rewrite !elem_of_cons, elem_of_nil in *. naive_solver.
    + cbn [set_tr dat]. by rewrite Hdn, Hd, Hvx.
Qed.

(** ** Searches *)

Lemma fom_find_c_yes n0 s A t k l1 x l2 :
  reprT s A t -> present_at cmp A k l1 x l2 -> count A <= n0 ->
  exists s' t' h w, fom_find_c cmp s k = Ok ((s', Some x, h), w) /\ reprT s' A t' /\ spent n0 1 t w t'.
Proof.
  intros Hr Hp Hn0. unfold fom_find_c. rewrite (root_empty cmp s A t Hr).
  rewrite (empty_no cmp s A t Hr (present_ne cmp A k _ _ _ Hp)).
  destruct (splay_present_c s A t k l1 x l2 Hr Hp) as (w & a & b & kv & m & -> & Hfalls & Hr' & _ & _ & _ & Hc). bind.
  cbn [dat set_tr]. rewrite Hc. bind. eexists _, _, _, _. split; [done|]. split; [done|].
  eapply spent_end; [eapply (spent_splay n0 _ _ _ _ _ _ _ 0); [exact Hfalls|]|cbn; lia|lia].
  by rewrite (reprT_nodes cmp tree_ok s A t Hr).
Qed.
Lemma fom_find_c_no n0 s A t k l1 l2 :
  reprT s A t -> absent_at cmp A k l1 l2 -> count A <= n0 ->
  exists s' t' h w, fom_find_c cmp s k = Ok ((s', None, h), w) /\ reprT s' A t' /\ spent n0 1 t w t'.
Proof.
  intros Hr Hab Hn0. unfold fom_find_c. rewrite (root_empty cmp s A t Hr), (empty_elems cmp s A t Hr).
  destruct (bool_decide_reflect (elems (fv A) = [])) as [He|Hne].
  { eexists s, t, _, _. split_and!; [done|done|]. eapply spent_end; [apply spent_refl|done|lia]. }
  destruct (splay_absent_c s A t k l1 l2 Hr Hab Hne) as (w & a & x & b & cr & m & -> & Hfalls & Hr' & Hc & Hcr). bind.
  cbn [dat set_tr]. rewrite Hc. bind. rewrite is_eq_ne by done. eexists _, _, _, _. split; [done|]. split; [done|].
  eapply spent_end; [eapply (spent_splay n0 _ _ _ _ _ _ _ 0); [exact Hfalls|]|cbn; lia|lia].
  by rewrite (reprT_nodes cmp tree_ok s A t Hr).
Qed.

(** ** Insertions *)

Notation alloc_back := (alloc_back alloc fom_seal).

Lemma linked_c_Ok n0 s A t l1 l2 nd kv r :
  core s (resized A r) t -> absent_at cmp A (fst kv) l1 l2 ->
  sz s = S (S (count A)) -> sz s <= cap s -> S (count A) <= n0 ->
  exists s1 s' t' w, write s (S (count A)) (nd, Some kv) = Ok s1 /\
    fom_link_c cmp s1 tt (S (count A)) = Ok ((s', Some (S (count A))), w) /\ spent n0 2 t w t' /\
    reprT s' (pushed A l1 l2 kv r) t' /\ grown_f (<[S (count A) := kv]> (dat s)) (fst kv) (S (count A)) t t'.
Proof.
  intros ((Hc & Ha) & Hf & Hd & Hg & Hn) Hab Hsz Hle Hn0. set (n := S (count A)) in *. cbn in Hn, Hd.
  assert (facts A) as HfA by done.
  assert (n ∉ elems (fv A)) as Hnn by (rewrite (facts_range cmp A n HfA); lia).
  rewrite write_Ok by (apply Ha; lia). cbn [fst snd put_data].
  set (s1 := Flat (put_fnode (tr s) n nd) (<[n := kv]> (dat s)) (sz s) (cap s)).
  assert (outside [n] (tr s) (tr s1)) as Ho by apply outside_put.
  assert (forall i, alive (tr s) i -> alive (tr s1) i) as Hal by (intros i Hi; apply alive_put; by left).
  assert (core s1 (resized A r) t) as Hcore.
  { split_and!; try done.
    - split; [done|]. intros i Hi. by apply Hal, Ha.
    - intros x Hx. cbn. rewrite lookup_insert_ne; [by apply Hd|]. by intros ->.
    - eapply (good_outside _ _ (fom_tree (K := K) (V := V))); [done|exact Ho| |].
      + rewrite elem_of_list_singleton. lia.
      + intros z ->%elem_of_list_singleton. by rewrite Hn. }
  destruct (fom_link_c_Ok n0 s1 (resized A r) t l1 l2 kv Hcore Hab) as (w & t' & w0 & Hl & Hpaid & Hgw & Hnt & Haw & Hgrown);
    [done|done|apply lookup_insert|done|].
  eexists s1, _, t', w0. split; [done|]. split; [exact Hl|]. split; [exact Hpaid|]. split; [|exact Hgrown]. cbn [set_tr].
  split; [cbn; lia|]. right. unfold count. cbn [pushed fv set_elems elems sz set_tr cap].
  split_and!; [|rewrite app_length; cbn; destruct Hab as (He & _); unfold n, count in Hsz; rewrite He, app_length in Hsz; cbn in *; lia|done].
  split_and!.
  - split; [done|]. cbn. intros i Hi. by apply Haw, Hal, Ha.
  - by apply (facts_pushed cmp Hcmp).
  - intros x Hx. cbn in Hx |- *. fold n in Hx |- *. destruct (decide (x = n)) as [-> |Hne]; [by rewrite !lookup_insert|].
    rewrite !lookup_insert_ne by done. apply Hd. destruct Hab as (-> & _). rewrite elem_of_app, elem_of_cons in Hx.
    rewrite elem_of_app. tauto.
  - done.
  - done.
Qed.

Definition inserts_c (f : flat K V -> unit -> cell K V -> grant -> counted (flat K V * option nat)) : Prop :=
  forall n0 s A t l1 l2 h nd kv ans p A', reprT s A t -> absent_at cmp A (fst kv) l1 l2 ->
    fadded c A l1 l2 kv ans p A' -> count A' <= n0 ->
    exists s' t' w, f s h (nd, Some kv) ans = Ok ((s', p), w) /\ reprT s' A' t' /\ spent n0 2 t w t'.

Lemma pushed_count A k l1 l2 kv r : absent_at cmp A k l1 l2 -> count (pushed A l1 l2 kv r) = S (count A).
Proof. intros (He & _). unfold count. cbn. rewrite He, !app_length. cbn. lia. Qed.

Lemma maybe_alloc_insert_c_Ok : inserts_c (maybe_alloc_insert_c cmp alloc).
Proof.
  intros n0 s A t l1 l2 [] nd kv ans [n|] A' Hr Hab Hadd Hn0; unfold maybe_alloc_insert_c.
  - apply fadded_allowed in Hadd as (-> & Hal & ->). rewrite (pushed_count A (fst kv)) in Hn0 by done.
    destruct (alloc_allowed cmp c tree_ok fom_seal fom_tree s A t ans Hr Hal) as (s1 & Hab1 & Hcore & Hsz & Hle & Hd). cbn [grows fom_contract] in Hab1. rewrite Hab1. bind.
    destruct (linked_c_Ok n0 s1 A t l1 l2 nd kv _ Hcore Hab Hsz Hle Hn0) as (s2 & s3 & t' & w & Hw & Hl & Hpaid & Hr' & _).
    replace (sz s1 - 1) with (S (count A)) by lia. rewrite Hw. bind. rewrite Hl. bind. eexists s3, t', _. split; [done|]. split; [done|].
    eapply spent_end; [exact Hpaid|cbn; lia|done].
  - apply fadded_denied in Hadd as (Hal & ->).
    destruct (alloc_denied cmp c tree_ok fom_seal fom_tree s A t ans Hr Hal) as (s1 & Hab1 & Hr'). cbn [grows fom_contract] in Hab1. rewrite Hab1.
    bind. eexists s1, t, _. split; [done|]. split; [done|]. eapply spent_end; [apply spent_refl|done|lia].
Qed.
Lemma literal_insert_c_Ok : inserts_c (literal_insert_c cmp alloc).
Proof.
  intros n0 s A t l1 l2 [] nd kv ans [n|] A' Hr Hab Hadd Hn0; unfold literal_insert_c.
  - apply fadded_allowed in Hadd as (-> & Hal & ->). rewrite (pushed_count A (fst kv)) in Hn0 by done.
    destruct (alloc_allowed cmp c tree_ok fom_seal fom_tree s A t ans Hr Hal) as (s1 & Hab1 & Hcore & Hsz & Hle & Hd). cbn [grows fom_contract] in Hab1. rewrite Hab1. bind.
    destruct (linked_c_Ok n0 s1 A t l1 l2 nd kv _ Hcore Hab Hsz Hle Hn0) as (s2 & s3 & t' & w & Hw & Hl & Hpaid & Hr' & _).
    replace (sz s1 - 1) with (S (count A)) by lia. rewrite Hw. bind. rewrite Hl. bind. eexists s3, t', _. split; [done|]. split; [done|].
    eapply spent_end; [exact Hpaid|cbn; lia|done].
  - apply fadded_denied in Hadd as (Hal & ->).
    destruct (alloc_denied cmp c tree_ok fom_seal fom_tree s A t ans Hr Hal) as (s1 & Hab1 & Hr'). cbn [grows fom_contract] in Hab1. rewrite Hab1.
    bind. eexists s1, t, _. split; [done|]. split; [done|]. eapply spent_end; [apply spent_refl|done|lia].
Qed.

(** ** Ranges *)

Lemma fnext_hops s A t d y l1 l2 :
  reprT s A t -> ord d (elems (fv A)) = l1 ++ y :: l2 -> exists i, fnext_c s d y = Ok (hd 0 l2, Work 0 i).
Proof.
  intros Hr Ho. pose proof (fnext_Ok cmp tree_ok _ fom_tree s A t d y l1 l2 Hr Ho) as H.
  rewrite <- fnext_erase, erase_Ok in H. destruct H as [w Hw]. rewrite Hw. revert Hw. unfold fnext_c, hopping.
  destruct (y =? 0); [intros [= _ <-]; by exists 0|].
  destruct (tree_next_c _ _ _ _ _) as [[z i]| |]; bind; [|done..]. intros [= _ <-]. by exists i.
Qed.

Lemma fom_range_c_Ok n0 s A t d a b X Y :
  reprT s A t -> count A <= n0 ->
  first (fun z => keyed cmp (fv A) (dirc (negb d)) a z \/ keyed cmp (fv A) Eq a z) (ord d (elems (fv A))) X ->
  first (keyed cmp (fv A) (dirc (negb d)) b) (ord d (elems (fv A))) Y ->
  exists s' t' w, fom_range_c cmp s d a b = Ok ((s', bound A X, bound A Y), w) /\ reprT s' A t' /\ spent n0 2 t w t'.
Proof.
  intros Hr Hn0 HX HY. unfold fom_range_c. rewrite (empty_elems cmp s A t Hr). unfold bound.
  destruct (bool_decide_reflect (elems (fv A) = [])) as [He|Hne].
  { eexists s, t, _. unfold count. rewrite He. split_and!; [done|done|]. eapply spent_end; [apply spent_refl|done|lia]. }
  rewrite (proj2 (Nat.eqb_neq (count A) 0)) by (unfold count; by destruct (elems (fv A))).
  destruct (splay_repr_c s A t a Hr Hne) as (w1 & ta & x & tb & kx & m1 & -> & Hf1 & Hr1 & Hpt & Hx & Hc). bind.
  set (s1 := set_tr s w1) in *. change (dat s1) with (dat s). rewrite Hc. bind.
  destruct (parted_ord cmp (fv A) d a _ x _ Hpt) as (P & Q & Ho & HP & HQ).
  assert (exists i, (if cmp_is (cmp a (fst kx)) (if d then Gt else Lt) then fnext_c s1 d x else still x) = Ok (X, Work 0 i)) as [i1 ->].
  { assert (forall z, z ∈ P -> ~ (keyed cmp (fv A) (dirc (negb d)) a z \/ keyed cmp (fv A) Eq a z)) as HnP.
    { intros z Hz Hk. specialize (HP z Hz). destruct Hk as [Hk|Hk]; pose proof (keyed_fun cmp (fv A) _ _ _ _ Hk HP); by destruct d. }
    rewrite Ho in HX. apply first_skip in HX; [|done].
    destruct (cmp_is (cmp a (fst kx)) (if d then Gt else Lt)) eqn:E.
    - destruct (fnext_hops s1 A _ d x P Q Hr1 Ho) as [i ->]. exists i. do 2 f_equal.
      symmetry. apply (first_hd (fun z => keyed cmp (fv A) (dirc (negb d)) a z \/ keyed cmp (fv A) Eq a z)).
      + intros z Hz. left. by apply HQ.
      + change (x :: Q) with ([x] ++ Q) in HX. apply first_skip in HX; [done|].
        intros z ->%elem_of_list_singleton Hk.
        destruct Hk as [(w & Hw & Hcw)|(w & Hw & Hcw)]; assert (w = kx) as -> by congruence;
          rewrite Hcw in E; by destruct d.
    - exists 0. unfold still, idle. do 2 f_equal. inversion HX as [| |? ? ? Hno]; subst; [done|]. exfalso. apply Hno.
      destruct (cmp a (fst kx)) eqn:Ec; destruct d; try done; try (by right; exists kx); by left; exists kx. }
  bind.
  destruct (splay_repr_c s1 A _ b Hr1 Hne) as (w2 & ta2 & y & tb2 & ky & m2 & -> & Hf2 & Hr2 & Hpt2 & Hy & Hc2). bind.
  set (s2 := set_tr s1 w2) in *. change (dat s2) with (dat s1). rewrite Hc2. bind.
  destruct (parted_ord cmp (fv A) d b _ y _ Hpt2) as (P2 & Q2 & Ho2 & HP2 & HQ2).
  assert (exists i, (if cmp_is (cmp b (fst ky)) (if negb d then Gt else Lt) then still y else fnext_c s2 d y) = Ok (Y, Work 0 i)) as [i2 ->].
  { assert (forall z, z ∈ P2 -> ~ keyed cmp (fv A) (dirc (negb d)) b z) as HnP.
    { intros z Hz Hk. specialize (HP2 z Hz). pose proof (keyed_fun cmp (fv A) _ _ _ _ Hk HP2). by destruct d. }
    rewrite Ho2 in HY. apply first_skip in HY; [|done].
    destruct (cmp_is (cmp b (fst ky)) (if negb d then Gt else Lt)) eqn:E.
    - exists 0. unfold still, idle. do 2 f_equal. inversion HY as [| |? ? ? Hno]; subst; [done|]. exfalso. apply Hno.
      destruct (cmp b (fst ky)) eqn:Ec; destruct d; try done; by exists ky.
    - destruct (fnext_hops s2 A _ d y P2 Q2 Hr2 Ho2) as [i ->]. exists i. do 2 f_equal.
      symmetry. apply (first_hd (keyed cmp (fv A) (dirc (negb d)) b)).
      + intros z Hz. by apply HQ2.
      + change (y :: Q2) with ([y] ++ Q2) in HY. apply first_skip in HY; [done|].
        intros z ->%elem_of_list_singleton (w & Hw & Hcw). assert (w = ky) as -> by congruence.
        rewrite Hcw in E. by destruct d. }
  bind. eexists s2, _, _. split; [done|]. split; [done|].
  pose proof (spent_splay n0 _ _ _ _ _ _ _ 0 Hf1) as H1. pose proof (spent_splay n0 _ _ _ _ _ _ _ 0 Hf2) as H2.
  eapply spent_end; [eapply spent_trans; [apply H1|apply H2]|cbn; lia|lia].
  - by rewrite (reprT_nodes cmp tree_ok s A t Hr).
  - by rewrite (reprT_nodes cmp tree_ok s1 A _ Hr1).
Qed.

(** ** Calls *)

Lemma begin_hops s A t d : reprT s A t -> exists i, flat_begin_c s d = Ok (hd 0 (ord d (elems (fv A))), Work 0 i).
Proof.
  intros Hr. pose proof (begin_Ok cmp tree_ok fom_seal fom_tree s A t d Hr) as H.
  rewrite <- flat_begin_erase, erase_Ok in H. destruct H as [w Hw]. rewrite Hw. revert Hw. unfold flat_begin_c, hopping.
  destruct (sz s =? 0); [intros [= _ <-]; by exists 0|]. destruct (wroot (tr s) =? 0); [intros [= _ <-]; by exists 0|].
  destruct (edge_c _ _ _ _) as [[z i]| |]; bind; [|done..]. intros [= _ <-]. by exists i.
Qed.
Lemma next_hops s A t d y l1 l2 :
  reprT s A t -> ord d (elems (fv A)) = l1 ++ y :: l2 -> exists i, flat_next_c s d y = Ok (hd 0 l2, Work 0 i).
Proof.
  intros Hr Ho. destruct (fnext_hops s A t d y l1 l2 Hr Ho) as [i Hi]. unfold flat_next_c.
  pose proof (next_Ok cmp tree_ok fom_seal fom_tree s A t d y l1 l2 Hr Ho) as H. unfold flat_next in H.
  destruct (sz s =? 0); [|by exists i]. injection H as <-. by exists 0.
Qed.

Local Ltac pay := eapply spent_end;
  [first [eapply spent_trans; [eassumption|eassumption]|eassumption|apply spent_refl]|cbn; lia|lia].
Local Ltac fin := bind; eexists _, _, _, _; split; [reflexivity|]; split; [done|]; split; [eassumption|]; pay.

Lemma fom_step_c_Ok n0 s A t o r A' :
  reprT s A t -> fcall cmp c A o r A' -> count A <= n0 -> count A' <= n0 ->
  exists s' r' w t', fom_step_c cmp alloc s o = Ok ((s', r'), w) /\ fagree r r' /\ reprT s' A' t' /\ spent n0 3 t w t'.
Proof.
  intros Hr Hc HA HA'. destruct Hc; cbn [fom_step_c].
  - (* contains *) unfold fom_contains_c.
    destruct (splay_present_c s A t k l1 x l2 Hr H) as (w & a & b & kv & m & -> & Hfalls & Hr' & _ & _ & _ & Hc). bind.
    cbn [dat set_tr]. rewrite Hc. bind. apply (spent_splay n0 _ _ _ _ _ _ _ 0) in Hfalls; [fin|by rewrite (reprT_nodes cmp tree_ok s A t Hr)].
  - destruct H0 as [?|Hne]; [done|]. unfold fom_contains_c.
    destruct (splay_absent_c s A t k l1 l2 Hr H Hne) as (w & a & x & b & cr & m & -> & Hfalls & Hr' & Hc & Hcr). bind.
    cbn [dat set_tr]. rewrite Hc. bind. rewrite is_eq_ne by done.
    apply (spent_splay n0 _ _ _ _ _ _ _ 0) in Hfalls; [fin|by rewrite (reprT_nodes cmp tree_ok s A t Hr)].
  - (* get *) unfold fom_get_c. destruct (fom_find_c_yes n0 s A t k l1 x l2 Hr H HA) as (s' & t' & h & w1 & -> & Hr' & Hw1). bind.
    cbn [see]. rewrite (value_of cmp tree_ok s' A t' x kv) by done. bind. fin.
  - unfold fom_get_c. destruct (fom_find_c_no n0 s A t k l1 l2 Hr H HA) as (s' & t' & h & w1 & -> & Hr' & Hw1). bind.
    cbn [see]. bind. fin.
  - (* insert *) unfold fom_insert_c. cbn [fst snd].
    destruct (fom_find_c_no n0 s A t _ l1 l2 Hr H HA) as (s1 & t1 & h & w1 & -> & Hr1 & Hw1). bind.
    destruct (maybe_alloc_insert_c_Ok n0 s1 A t1 l1 l2 h nd kv ans p A' Hr1 H H0 HA') as (s2 & t2 & w2 & E2 & Hr2 & Hw2).
    unfold cell_of. cbn [fst snd]. rewrite E2. bind. unfold look.
    destruct p; cbn [fp focc ferr snd]; bind; fin.
  - unfold fom_insert_c. cbn [fst snd].
    destruct (fom_find_c_yes n0 s A t _ l1 x l2 Hr H HA) as (s1 & t1 & h & w1 & -> & Hr1 & Hw1). bind.
    destruct (exchange_Ok cmp Hcmp tree_ok fom_seal fom_tree s1 A t1 x old kv Hr1 H0) as (s2 & n & Hex & Hr2).
    { by apply (eq_sym_cmp cmp Hcmp), (present_shown cmp A _ l1 x l2). }
    revert Hex. destruct (read s1 x) as [c1| |]; [|done..]. bind.
    destruct (write s1 0 _) as [s3| |]; [|done..]. bind.
    destruct (read s3 x) as [u2| |]; [|done..]. bind.
    destruct (read s3 0) as [c0| |]; [|done..]. bind.
    destruct (write s3 x c0) as [s4| |]; [|done..]. bind.
    destruct (fom_seal s4) as [s5| |]; [|done..]. bind. intros [= -> ->].
    unfold look. cbn [fp focc ferr snd]. rewrite (value_put cmp tree_ok s2 A t1 x kv) by done. bind.
    fin.
  - (* try_insert *) unfold fom_try_insert_c. cbn [fst snd].
    destruct (fom_find_c_no n0 s A t _ l1 l2 Hr H HA) as (s1 & t1 & h & w1 & -> & Hr1 & Hw1). bind.
    destruct (maybe_alloc_insert_c_Ok n0 s1 A t1 l1 l2 h nd kv ans p A' Hr1 H H0 HA') as (s2 & t2 & w2 & E2 & Hr2 & Hw2).
    unfold cell_of. cbn [fst snd]. rewrite E2. bind. rewrite (look_added cmp c tree_ok s2 A l1 l2 kv ans p A') by (done || by exists t2). bind.
    fin.
  - unfold fom_try_insert_c. cbn [fst snd].
    destruct (fom_find_c_yes n0 s A t _ l1 x l2 Hr H HA) as (s1 & t1 & h & w1 & -> & Hr1 & Hw1). bind.
    unfold look. cbn [fp focc ferr]. rewrite (value_of cmp tree_ok s1 A t1 x old) by done. bind.
    fin.
  - (* insert_or_assign *) unfold fom_insert_or_assign_c. cbn [fst snd].
    destruct (fom_find_c_no n0 s A t _ l1 l2 Hr H HA) as (s1 & t1 & h & w1 & -> & Hr1 & Hw1). bind.
    destruct (maybe_alloc_insert_c_Ok n0 s1 A t1 l1 l2 h nd kv ans p A' Hr1 H H0 HA') as (s2 & t2 & w2 & E2 & Hr2 & Hw2).
    unfold cell_of. cbn [fst snd]. rewrite E2. bind. rewrite (look_added cmp c tree_ok s2 A l1 l2 kv ans p A') by (done || by exists t2). bind.
    fin.
  - unfold fom_insert_or_assign_c. cbn [fst snd].
    destruct (fom_find_c_yes n0 s A t _ l1 x l2 Hr H HA) as (s1 & t1 & h & w1 & -> & Hr1 & Hw1). bind.
    destruct (present_dat cmp A _ _ _ _ H) as (old & Hold & Hk).
    destruct (overwrite_Ok cmp Hcmp tree_ok s1 A t1 x old nd kv Hr1 Hold) as (s2 & nd' & -> & Hr2); [by apply eq_sym_cmp|]. bind.
    unfold look. cbn [fp focc ferr snd]. rewrite (value_put cmp tree_ok s2 A t1 x kv) by done. bind.
    fin.
  - (* remove *) unfold fom_remove_c. cbn [fst snd].
    destruct (fom_erase_c_no n0 s A t _ l1 l2 Hr H HA) as (s' & t' & w1 & -> & Hw1 & Hr'). bind.
    unfold look. cbn [fp focc ferr snd]. bind. fin.
  - unfold fom_remove_c. cbn [fst snd].
    destruct (fom_erase_c_yes n0 s A t _ l1 x l2 old Hr H H0 HA) as (s' & t' & w1 & -> & Hw1 & Hr' & Hd). bind.
    unfold look. cbn [fp focc ferr snd]. cbn [writes_handle fom_contract]. unfold value. rewrite Hd. bind. fin.
  - (* entry *) unfold fom_entry_c. destruct (fom_find_c_yes n0 s A t _ l1 x l2 Hr H HA) as (s1 & t1 & h & w1 & -> & Hr1 & Hw1). bind.
    unfold tlook, look. cbn [te fp focc ferr]. rewrite (value_of cmp tree_ok s1 A t1 x kv) by done. bind.
    fin.
  - unfold fom_entry_c. destruct (fom_find_c_no n0 s A t _ l1 l2 Hr H HA) as (s1 & t1 & h & w1 & -> & Hr1 & Hw1). bind.
    unfold tlook, look. cbn [te fp focc ferr]. bind. fin.
  - (* or_insert *) unfold fom_entry_c.
    destruct (fom_find_c_no n0 s A t _ l1 l2 Hr H0 HA) as (s1 & t1 & h & w1 & -> & Hr1 & Hw1). bind.
    unfold fom_or_insert_c. cbn [te hint]. apply (absent_key cmp Hcmp _ _ _ _ _ H) in H0.
    destruct (maybe_alloc_insert_c_Ok n0 s1 A t1 l1 l2 h nd kv ans p A' Hr1 H0 H1 HA') as (s2 & t2 & w2 & E2 & Hr2 & Hw2).
    unfold cell_of. cbn [fst snd]. rewrite E2. bind. rewrite (see_added cmp c tree_ok s2 A l1 l2 kv ans p A') by (done || by exists t2). bind.
    fin.
  - unfold fom_entry_c. destruct (fom_find_c_yes n0 s A t _ l1 x l2 Hr H HA) as (s1 & t1 & h & w1 & -> & Hr1 & Hw1). bind.
    unfold fom_or_insert_c. cbn [te hint]. bind. cbn [see]. rewrite (value_of cmp tree_ok s1 A t1 x kv) by done. bind.
    fin.
  - (* insert_entry *) unfold fom_entry_c.
    destruct (fom_find_c_no n0 s A t _ l1 l2 Hr H0 HA) as (s1 & t1 & h & w1 & -> & Hr1 & Hw1). bind.
    unfold fom_insert_entry_c. cbn [te hint]. apply (absent_key cmp Hcmp _ _ _ _ _ H) in H0.
    destruct (maybe_alloc_insert_c_Ok n0 s1 A t1 l1 l2 h nd kv ans p A' Hr1 H0 H1 HA') as (s2 & t2 & w2 & E2 & Hr2 & Hw2).
    unfold cell_of. cbn [fst snd]. rewrite E2. bind. rewrite (see_added cmp c tree_ok s2 A l1 l2 kv ans p A') by (done || by exists t2). bind.
    fin.
  - unfold fom_entry_c. destruct (fom_find_c_yes n0 s A t _ l1 x l2 Hr H0 HA) as (s1 & t1 & h & w1 & -> & Hr1 & Hw1). bind.
    unfold fom_insert_entry_c. cbn [te hint]. destruct (present_dat cmp A _ _ _ _ H0) as (old & Hold & Hk).
    destruct (overwrite_Ok cmp Hcmp tree_ok s1 A t1 x old nd kv Hr1 Hold) as (s2 & nd' & -> & Hr2).
    { rewrite <- (cmp_eq_l cmp Hcmp k (fst old)) by done. done. }
    bind. cbn [see]. rewrite (value_put cmp tree_ok s2 A t1 x kv) by done. bind.
    fin.
  - (* and_modify *) unfold fom_entry_c.
    destruct (fom_find_c_yes n0 s A t _ l1 x l2 Hr H HA) as (s1 & t1 & h & w1 & -> & Hr1 & Hw1). bind.
    unfold flat_and_modify. cbn [te hint]. rewrite (value_of cmp tree_ok s1 A t1 x kv) by done. bind.
    pose proof (modify_Ok cmp Hcmp tree_ok s1 A t1 x kv (f (snd kv)) Hr1 H0) as Hr2. cbn [see].
    rewrite (value_put cmp tree_ok _ A t1 x _ Hr2). bind. fin.
  - unfold fom_entry_c. destruct (fom_find_c_no n0 s A t _ l1 l2 Hr H HA) as (s1 & t1 & h & w1 & -> & Hr1 & Hw1). bind.
    unfold flat_and_modify. cbn [te hint]. bind. cbn [see]. bind. fin.
  - (* remove_entry *) unfold fom_entry_c.
    destruct (fom_find_c_yes n0 s A t _ l1 x l2 Hr H HA) as (s1 & t1 & h & w1 & -> & Hr1 & Hw1). bind.
    unfold fom_remove_entry_c. cbn [te hint]. pose proof H as (He & _).
    unfold fom_remove_at_c. rewrite (value_of cmp tree_ok s1 A t1 x old) by done. bind.
    assert (present_at cmp A (fst old) l1 x l2) as Hp.
    { split; [done|]. exists old. split; [done|]. by apply cmp_refl. }
    destruct (fom_erase_c_yes n0 s1 A t1 _ l1 x l2 old Hr1 Hp H0 HA) as (s2 & t2 & w2 & -> & Hw2 & Hr2 & Hd). bind.
    unfold look. cbn [fp focc ferr]. unfold value. rewrite Hd. bind. fin.
  - unfold fom_entry_c. destruct (fom_find_c_no n0 s A t _ l1 l2 Hr H HA) as (s1 & t1 & h & w1 & -> & Hr1 & Hw1). bind.
    unfold fom_remove_entry_c. cbn [te hint]. bind. unfold look. cbn [fp focc ferr]. bind.
    fin.
  - (* or_insert_w *) unfold fom_entry_c.
    destruct (fom_find_c_no n0 s A t _ l1 l2 Hr H0 HA) as (s1 & t1 & h & w1 & -> & Hr1 & Hw1). bind.
    unfold fom_or_insert_w_c. cbn [te hint]. apply (absent_key cmp Hcmp _ _ _ _ _ H) in H0.
    destruct (literal_insert_c_Ok n0 s1 A t1 l1 l2 h nd kv ans p A' Hr1 H0 H1 HA') as (s2 & t2 & w2 & E2 & Hr2 & Hw2).
    unfold cell_of. cbn [fst snd]. rewrite E2. bind. rewrite (see_added cmp c tree_ok s2 A l1 l2 kv ans p A') by (done || by exists t2). bind.
    fin.
  - unfold fom_entry_c. destruct (fom_find_c_yes n0 s A t _ l1 x l2 Hr H HA) as (s1 & t1 & h & w1 & -> & Hr1 & Hw1). bind.
    unfold fom_or_insert_w_c. cbn [te hint]. bind. cbn [see]. rewrite (value_of cmp tree_ok s1 A t1 x kv) by done. bind.
    fin.
  - (* insert_entry_w *) unfold fom_entry_c.
    destruct (fom_find_c_no n0 s A t _ l1 l2 Hr H0 HA) as (s1 & t1 & h & w1 & -> & Hr1 & Hw1). bind.
    unfold fom_insert_entry_w_c. cbn [te hint]. apply (absent_key cmp Hcmp _ _ _ _ _ H) in H0.
    destruct (literal_insert_c_Ok n0 s1 A t1 l1 l2 h nd kv ans p A' Hr1 H0 H1 HA') as (s2 & t2 & w2 & E2 & Hr2 & Hw2).
    unfold cell_of. cbn [fst snd]. rewrite E2. bind. rewrite (see_added cmp c tree_ok s2 A l1 l2 kv ans p A') by (done || by exists t2). bind.
    fin.
  - unfold fom_entry_c. destruct (fom_find_c_yes n0 s A t _ l1 x l2 Hr H0 HA) as (s1 & t1 & h & w1 & -> & Hr1 & Hw1). bind.
    unfold fom_insert_entry_w_c. cbn [te hint]. destruct (present_dat cmp A _ _ _ _ H0) as (old & Hold & Hk).
    unfold cell_of. cbn [fst snd].
    destruct (literal_overwrite_Ok cmp Hcmp tree_ok s1 A t1 x old nd kv Hr1 Hold) as (s2 & -> & Hr2).
    { rewrite <- (cmp_eq_l cmp Hcmp k (fst old)) by done. done. }
    bind. cbn [see]. rewrite (value_put cmp tree_ok s2 A t1 x kv) by done. bind.
    fin.
  - (* try_insert_w *) unfold fom_try_insert_w_c, fom_entry_c.
    destruct (fom_find_c_no n0 s A t _ l1 l2 Hr H HA) as (s1 & t1 & h & w1 & -> & Hr1 & Hw1). bind. cbn [te hint].
    destruct (literal_insert_c_Ok n0 s1 A t1 l1 l2 h nd (k, v) ans p A' Hr1 H H0 HA') as (s2 & t2 & w2 & E2 & Hr2 & Hw2).
    unfold keyed_cell. cbn [fst snd]. rewrite E2. bind. rewrite (look_added cmp c tree_ok s2 A l1 l2 (k, v) ans p A') by (done || by exists t2). bind.
    fin.
  - unfold fom_try_insert_w_c, fom_entry_c.
    destruct (fom_find_c_yes n0 s A t _ l1 x l2 Hr H HA) as (s1 & t1 & h & w1 & -> & Hr1 & Hw1). bind. cbn [te hint]. bind.
    unfold look. cbn [fp focc ferr]. rewrite (value_of cmp tree_ok s1 A t1 x kv) by done. bind.
    fin.
  - (* insert_or_assign_w *) unfold fom_insert_or_assign_w_c, fom_entry_c.
    destruct (fom_find_c_no n0 s A t _ l1 l2 Hr H HA) as (s1 & t1 & h & w1 & -> & Hr1 & Hw1). bind. cbn [te hint].
    destruct (literal_insert_c_Ok n0 s1 A t1 l1 l2 h nd (k, v) ans p A' Hr1 H H0 HA') as (s2 & t2 & w2 & E2 & Hr2 & Hw2).
    unfold keyed_cell. cbn [fst snd]. rewrite E2. bind. rewrite (look_added cmp c tree_ok s2 A l1 l2 (k, v) ans p A') by (done || by exists t2). bind.
    fin.
  - unfold fom_insert_or_assign_w_c, fom_entry_c.
    destruct (fom_find_c_yes n0 s A t _ l1 x l2 Hr H HA) as (s1 & t1 & h & w1 & -> & Hr1 & Hw1). bind. cbn [te hint].
    destruct (present_dat cmp A _ _ _ _ H) as (old & Hold & Hk). unfold keyed_cell. cbn [fst snd].
    destruct (literal_overwrite_Ok cmp Hcmp tree_ok s1 A t1 x old nd (k, v) Hr1 Hold) as (s2 & -> & Hr2); [by apply eq_sym_cmp|].
    bind. unfold look. cbn [fp focc ferr]. rewrite (value_put cmp tree_ok s2 A t1 x (k, v)) by done. bind.
    fin.
  - (* begin *) destruct (begin_hops s A t true Hr) as [i ->]. bind. fin.
  - destruct (begin_hops s A t false Hr) as [i ->]. bind. fin.
  - destruct (next_hops s A t true e l1 l2 Hr H) as [i ->]. bind. fin.
  - destruct (next_hops s A t false e (rev l2) (rev l1) Hr) as [i ->].
    + cbn [ord]. rewrite H, rev_app_distr. cbn [rev]. by rewrite <- app_assoc.
    + bind. fin.
  - (* ranges *) destruct (fom_range_c_Ok n0 s A t true a b x y Hr HA H H0) as (s' & t' & w1 & -> & Hr' & Hw1). bind. fin.
  - destruct (fom_range_c_Ok n0 s A t false a b x y Hr HA H H0) as (s' & t' & w1 & -> & Hr' & Hw1). bind. fin.
  - (* clear *) assert (fcall cmp c A (FClear fn) (XDestroyed OK ps) (with_fv A (View [] ∅))) as Hcall by (by constructor).
    destruct (step_Ok cmp Hcmp c tree_ok fom_seal fom_tree _ _ fom_hint (fom_finds cmp Hcmp) _ _ _ _ _ _ (fom_calls cmp Hcmp alloc)
      s A _ _ _ (ex_intro _ t Hr) Hcall) as (s' & r' & Hs & Hag & [t' Hr']).
    cbn [flat_step] in Hs. destruct (fom_clear s fn) as [[[s1 r1] l1]| |]; [|done..]. revert Hs. bind. intros [= <- <-].
    eexists _, _, _, t'. split; [done|]. split; [done|]. split; [done|].
    apply (spent_end n0 0 3 t idle); [|done|lia]. pose proof (reprT_nodes cmp tree_ok s1 _ t' Hr') as Hn. cbn in Hn.
    destruct t' as [|u ? ?]; [|cbn in Hn; by destruct (nodes u)]. unfold spent. cbn. pose proof (pot_pos t). lia.
  - (* size *) unfold flat_size. rewrite (reprT_count cmp tree_ok s A t Hr). fin.
  - unfold flat_capacity. destruct (reprT_slots cmp tree_ok s A t Hr) as [-> _].
    fin.
  - unfold flat_is_empty, flat_size. rewrite (reprT_count cmp tree_ok s A t Hr).
    fin.
  - (* validate *) rewrite (fom_validate_Ok cmp Hcmp s A t Hr). bind. fin.
Qed.

Lemma fom_run_c_Ok n0 s A t os rs A' :
  reprT s A t -> fcalls_within cmp c n0 A os rs A' ->
  exists s' rs' w t', fom_run_c cmp alloc s os = Ok ((s', rs'), w) /\ Forall2 fagree rs rs' /\ reprT s' A' t' /\
    spent n0 (3 * length os) t w t'.
Proof.
  intros Hr Hcs. revert s t Hr. induction Hcs as [A HA|A o r A1 os rs A2 HA Hc Hcs IH]; intros s t Hr.
  - eexists s, [], _, t. split_and!; [done|constructor|done|apply spent_refl].
  - assert (count A1 <= n0) as HA1 by (by destruct Hcs).
    destruct (fom_step_c_Ok n0 s A t o r A1 Hr Hc HA HA1) as (s1 & r' & w1 & t1 & Hs & Hag & Hr1 & Hw1).
    destruct (IH s1 t1 Hr1) as (s2 & rs' & w2 & t2 & Hrun & Hags & Hr2 & Hw2).
    eexists s2, (r' :: rs'), _, t2. cbn [fom_run_c]. rewrite Hs. bind. rewrite Hrun. bind.
    split; [done|]. split; [by constructor|]. split; [done|].
    eapply spent_end; [eapply spent_trans; [exact Hw1|exact Hw2]|cbn; lia|cbn [length]; lia].
Qed.

Lemma fom_history_cost n0 n junk os rs A :
  fcalls_within cmp c n0 (fstart n) os rs A ->
  exists s rs' w, fom_run_c cmp alloc (flat_init n junk) os = Ok ((s, rs'), w) /\ Forall2 fagree rs rs' /\
    turns w <= length os * (6 + 9 * Nat.log2_up (n0 + 1)).
Proof.
  intros Hc. destruct (@repr_init K V cmp tree_ok n junk) as [t Hs].
  assert (t = E) as ->.
  { apply reprT_nodes in Hs as Hn. destruct t as [|u ? ?]; [done|]. cbn in Hn. by destruct (nodes u). }
  destruct (fom_run_c_Ok n0 _ _ E os rs A Hs Hc) as (s & rs' & w & t' & Hrun & Hag & _ & Hw).
  exists s, rs', w. split; [done|]. split; [done|]. apply spent_turns in Hw; [|done].
  etrans; [exact Hw|]. lia.
Qed.
End proofs.
