(** The flat splay map refines the specification of array backed ordered maps. *)
From Coq Require Import Sorted.
From stdpp Require Import base numbers option gmap fin_maps list.
From Verif Require Import Common LinkHeap PathLemmas OrderSpec Counting TreeModel TreeProofs SplayModel SplayProofs WavlModel
  WavlProofs WavlRank WavlRemove WavlNode WavlFrame OmProofs MapSpec MapProofs FlatOps FlatSpec FlatModel FlatProofs FlatCalls
  FrmProofs FomModel.

Local Ltac bind := cbn [mbind outcome_bind obind].

(** The tree in the slots, slot 0 standing for the empty tree. *)
Definition tree_ok (w : wavl) (t : tree) : Prop :=
  wroot w = ptr 0 t /\ rep 0 (wl w) 0 t /\ NoDup (nodes t) /\ live (wl w) 0.

Section proofs.
Context {K V : Type} (cmp : K -> K -> comparison) (Hcmp : total_preorder cmp) (alloc : bool).
Implicit Types (s : flat K V) (A : fview K V).

Definition fom_contract : fcontract := FContract alloc true false false negb.
Notation c := fom_contract.
Notation facts := (facts cmp).
Notation core := (core cmp tree_ok).
Notation reprT := (reprT cmp tree_ok).
Notation repr := (repr cmp tree_ok).

Lemma tree_ok_outside X w w' t :
  tree_ok w t -> outside X w w' -> live (wl w') 0 -> (forall z, z ∈ X -> z ∉ nodes t) -> tree_ok w' t.
Proof.
  intros (Hr & Hrep & Hnd & Hl) (Hf & _ & Hroot) Hl' Hdis. split_and!; [by rewrite Hroot| |done|done].
  apply (rep_frame 0 X (wl w)); [done| |done]. intros z Hin Hz. by apply (Hdis z).
Qed.

Lemma fom_tree : tree_facts tree_ok (fom_seal (K := K) (V := V)).
Proof.
  split.
  - intros w t H. by apply zin_plug.
  - intros X w w' t H Ho H0. apply (tree_ok_outside X w); [done|done|].
    destruct H as (_ & _ & _ & Hl), Ho as (Hf & _). by apply (frame_live X (wl w)).
  - intros w t (_ & _ & _ & Hl). split_and!; [done|done|constructor|done].
  - intros s [Hl _]. exists (tr s). split; [by destruct s|]. split_and!; [apply outside_refl|done| |].
    + intros Hr. split_and!; [done|done|constructor|done].
    + intros w0 t Hg Ho. apply (tree_ok_outside [0] w0); [done..|].
      intros z ->%elem_of_list_singleton Hin. destruct Hg as (_ & Hrep & _). by apply (rep_nil 0 (wl w0) 0 t Hrep).
Qed.

(** ** Splaying *)

Lemma core_links s A t w t' :
  core s A t -> tree_ok w t' -> nodes t' = nodes t -> (forall i, alive (tr s) i -> alive w i) -> core (set_tr s w) A t'.
Proof.
  intros ((Hc & Ha) & Hf & Hd & _ & Hn) Hw Hn' Hal. split_and!; [|done..|by rewrite Hn'].
  split; [done|]. cbn. auto.
Qed.

Lemma splay_core s A t k :
  core s A t -> elems (fv A) <> [] ->
  exists w a x b kv, splay_f cmp s (wroot (tr s)) k = Ok (set_tr s w, x) /\ core (set_tr s w) A (T a x b) /\
    parted cmp (fv A) k (nodes a) x (nodes b) /\ vals (fv A) !! x = Some kv /\ wroot w = x /\
    (forall i, alive (tr s) i -> alive w i) /\ outside (0 :: nodes t) (with_root (tr s) x) w.
Proof.
  intros Hcore Hne. pose proof Hcore as ((Hc & Ha) & (Hs & _) & Hd & (Hroot & Hrep & Hnd & Hl) & Hn).
  assert (t <> E) as Ht by (intros ->; by cbn in Hn).
  assert (sorted cmp (dat s) (nodes t)) as Hs' by (rewrite Hn; by apply (sorted_same cmp Hcmp (vals (fv A)))).
  destruct (splay_Ok 0 cmp Hcmp (dat s) (wl (tr s)) 0 t k Hrep Ht Hs' Hl)
    as (h' & a & x & b & kv & Hsp & Hrep' & Hn' & Hf & Hl' & Hx & H1 & H2).
  unfold splay_f. rewrite Hroot, Hsp. bind.
  assert (forall z, live (wl (tr s)) z -> live h' z) as Hlive.
  { intros z Hz. destruct (decide (z = 0)) as [-> |Hz0]; [done|].
    destruct (decide (z ∈ nodes t)) as [Hin|Hin].
    - rewrite <- Hn' in Hin. by apply (rep_live 0 h' 0 _ _ Hrep').
    - apply (frame_live (0 :: nodes t) (wl (tr s))); [done| |done]. by intros [?|?]%elem_of_cons. }
  exists (Wavl h' (wp (tr s)) x), a, x, b, kv. split; [done|].
  assert (forall i, alive (tr s) i -> alive (Wavl h' (wp (tr s)) x) i) as Hal.
  { intros i [Hi Hb]. split; [by apply Hlive|done]. }
  assert (elems (fv A) = nodes a ++ x :: nodes b) as He by (by rewrite <- Hn, <- Hn').
  split; [|split_and!; try done].
  - apply (core_links s A t); [done| |done|done]. split_and!; [done|done| |done]. by rewrite Hn'.
  - split_and!; [done|..]; intros z Hz; [destruct (H1 z Hz) as (kz & Hkz & Hk)|destruct (H2 z Hz) as (kz & Hkz & Hk)];
      exists kz; (split; [|done]); rewrite <- Hd; try done; rewrite He, elem_of_app, elem_of_cons; tauto.
  - rewrite <- Hd; [done|]. rewrite He, elem_of_app. right. left.
Qed.

Lemma splay_repr s A t k :
  reprT s A t -> elems (fv A) <> [] ->
  exists w a x b kv, splay_f cmp s (wroot (tr s)) k = Ok (set_tr s w, x) /\ reprT (set_tr s w) A (T a x b) /\
    parted cmp (fv A) k (nodes a) x (nodes b) /\ vals (fv A) !! x = Some kv /\
    cmpk cmp (dat s) k x = Ok (cmp k (fst kv)).
Proof.
  intros Hr Hne. assert (exists y, y ∈ elems (fv A)) as [y Hy].
  { destruct (elems (fv A)) as [|y l]; [done|]. exists y. left. }
  destruct (reprT_born cmp tree_ok s A t y Hr Hy) as (Hcore & Hsz & Hle).
  destruct (splay_core s A t k Hcore Hne) as (w & a & x & b & kv & Hsp & Hcore' & Hpt & Hx & _).
  exists w, a, x, b, kv. split_and!; try done.
  - split; [by destruct Hr|]. right. by split_and!.
  - apply cmpk_Ok. destruct Hcore as (_ & _ & Hd & _). rewrite Hd; [done|]. destruct Hpt as (-> & _).
    rewrite elem_of_app. right. left.
Qed.

Lemma present_ne A k l1 x l2 : present_at cmp A k l1 x l2 -> elems (fv A) <> [].
Proof. intros (-> & _). by destruct l1. Qed.

(** Splaying for a key brings its element to the root. *)
Lemma splay_present s A t k l1 x l2 :
  reprT s A t -> present_at cmp A k l1 x l2 ->
  exists w a b kv, splay_f cmp s (wroot (tr s)) k = Ok (set_tr s w, x) /\ reprT (set_tr s w) A (T a x b) /\
    nodes a = l1 /\ nodes b = l2 /\ vals (fv A) !! x = Some kv /\ cmpk cmp (dat s) k x = Ok Eq.
Proof.
  intros Hr Hp. pose proof (reprT_facts cmp tree_ok s A t Hr) as Hf.
  destruct (splay_repr s A t k Hr (present_ne A k _ _ _ Hp)) as (w & a & y & b & kv & Hsp & Hr' & Hpt & Hy & Hc).
  destruct (parted_present cmp (fv A) k _ _ _ _ _ _ (facts_NoDup cmp Hcmp A Hf) Hpt Hp) as (<- & Ha & Hb).
  exists w, a, b, kv. split_and!; try done. destruct Hp as (_ & kx & Hx & Hk). by simplify_eq/=; rewrite Hc, Hk.
Qed.

Lemma splay_absent s A t k l1 l2 :
  reprT s A t -> absent_at cmp A k l1 l2 -> elems (fv A) <> [] ->
  exists w a x b cr, splay_f cmp s (wroot (tr s)) k = Ok (set_tr s w, x) /\ reprT (set_tr s w) A (T a x b) /\
    cmpk cmp (dat s) k x = Ok cr /\ cr <> Eq.
Proof.
  intros Hr Hab Hne.
  destruct (splay_repr s A t k Hr Hne) as (w & a & y & b & kv & Hsp & Hr' & Hpt & Hy & Hc).
  pose proof (parted_absent cmp _ _ _ _ _ _ _ kv Hpt Hab Hy) as Hcr.
  exists w, a, y, b, (cmp k (fst kv)). split_and!; try done. by destruct (cmp k (fst kv)).
Qed.

Lemma root_empty s A t : reprT s A t -> (wroot (tr s) =? 0) = (flat_is_empty s).
Proof.
  intros Hr. unfold flat_is_empty, flat_size. rewrite (reprT_count cmp tree_ok s A t Hr). unfold count.
  rewrite <- (reprT_nodes cmp tree_ok s A t Hr).
  destruct Hr as [_ [(_ & _ & _ & -> & _ & ->)|((_ & _ & _ & (-> & Hrep & _) & _) & _)]]; [done|].
  destruct t as [|a x b]; [done|]. cbn [ptr nodes]. destruct Hrep as (_ & _ & _ & Hx & _).
  rewrite (proj2 (Nat.eqb_neq x 0)) by done. symmetry. apply Nat.eqb_neq. rewrite app_length. cbn. lia.
Qed.

Lemma empty_elems s A t : reprT s A t -> flat_is_empty s = bool_decide (elems (fv A) = []).
Proof.
  intros Hr. unfold flat_is_empty, flat_size. rewrite (reprT_count cmp tree_ok s A t Hr). unfold count.
  by destruct (elems (fv A)).
Qed.
Lemma empty_no s A t : reprT s A t -> elems (fv A) <> [] -> flat_is_empty s = false.
Proof. intros Hr Hne. rewrite (empty_elems s A t Hr). by apply bool_decide_eq_false. Qed.

Lemma is_eq_ne cr : cr <> Eq -> is_eq cr = false.
Proof. by destruct cr. Qed.

(** ** Insertion *)

(** A splay map need not remember where a search ended. *)
Definition fom_hint (t : tree) (l1 l2 : list nat) (_ : unit) : Prop := True.

Lemma fom_link_Ok s A t l1 l2 kv :
  core s A t -> absent_at cmp A (fst kv) l1 l2 ->
  sz s = S (S (count A)) -> sz s <= cap s -> dat s !! S (count A) = Some kv ->
  exists w t', fom_link cmp s tt (S (count A)) = Ok (set_tr s w, Some (S (count A))) /\ tree_ok w t' /\
    nodes t' = l1 ++ S (count A) :: l2 /\ (forall i, alive (tr s) i -> alive w i).
Proof.
  intros Hcore Hab Hsz Hle Hdn. pose proof Hcore as ((Hc & Ha) & Hf & Hd & Hg & Hn). set (n := S (count A)) in *.
  assert (n ∉ elems (fv A)) as Hnn by (rewrite (facts_range cmp A n Hf); lia).
  unfold fom_link. destruct (Ha n) as [Hln Hbn]; [lia|]. rewrite set_links_put by done. bind.
  set (w0 := with_links (tr s) (put_links (wl (tr s)) n 0 0 0)).
  assert (forall i, alive (tr s) i -> alive w0 i) as Hal0.
  { intros i [Hl Hb]. split; [|done]. cbn. apply live_put. by left. }
  assert (outside [n] (tr s) w0) as Ho0.
  { split_and!; [apply frame_put|apply same_parity_refl|done]. }
  assert (tree_ok w0 t) as Hg0.
  { apply (good_outside _ _ fom_tree [n] (tr s)); [done|done| |].
    - rewrite elem_of_list_singleton. lia.
    - intros z ->%elem_of_list_singleton. by rewrite Hn. }
  destruct (Nat.eqb_spec (sz s) 2) as [H2|H2].
  - assert (elems (fv A) = []) as He by (destruct (elems (fv A)) eqn:E; [done|unfold n, count in *; rewrite E in *; cbn in *; lia]).
    assert (l1 = [] /\ l2 = []) as [-> ->] by (destruct Hab as (Hab & _); rewrite He in Hab; by apply app_eq_nil).
    exists (Wavl (wl w0) (wp (tr s)) n), (T E n E). split; [done|]. split; [|by split].
    + destruct (put_lookups (wl (tr s)) n 0 0 0) as (? & ? & ?). split_and!; try done.
      * cbn. apply NoDup_singleton.
      * by destruct Hg0 as (_ & _ & _ & ?).
  - unfold value. rewrite Hdn. bind.
    set (s0 := set_tr s w0).
    assert (core s0 A t) as Hcore0 by (by apply (core_links s A t)).
    assert (elems (fv A) <> []) as Hne by (intros He; unfold n, count in *; rewrite He in *; cbn in *; lia).
    destruct (splay_core s0 A t (fst kv) Hcore0 Hne) as (w & a & x & b & kx & Hsp & Hcore' & Hpt & Hx & Hroot & Hal & Ho).
    change (wroot (tr s0)) with (wroot (tr s)) in Hsp. rewrite Hsp. bind.
    assert (dat s !! x = Some kx) as Hdx.
    { rewrite Hd; [done|]. destruct Hpt as (-> & _). rewrite elem_of_app. right. left. }
    rewrite (cmpk_Ok cmp _ (fst kv) x kx) by done. bind.
    pose proof (parted_absent cmp _ _ _ _ _ _ _ kx Hpt Hab Hx) as Hl.
    rewrite is_eq_ne by (by destruct (cmp (fst kv) (fst kx))).
    destruct Hcore' as (_ & _ & _ & (Hroot' & Hrep & Hnd & Hl0) & Hn'). cbn [set_tr tr wl] in *.
    set (d := is_gt (cmp (fst kv) (fst kx))) in *.
    assert (exists u v, T a x b = mk d u x v /\ ord d (l1 ++ n :: l2) = ord d (nodes u) ++ x :: n :: ord d (nodes v))
      as (u & v & Hmk & Hord).
    { destruct (cmp (fst kv) (fst kx)); [done| |]; destruct Hl as [-> ->]; cbn in d.
      - exists b, a. split; [done|]. cbn. rewrite rev_app_distr. cbn. by rewrite <- !app_assoc.
      - exists a, b. split; [done|]. cbn. by rewrite <- app_assoc. }
    rewrite Hmk in *.
    destruct (graft_Ok 0 (wl w) (cmp (fst kv) (fst kx)) u x v n) as (h1 & Hgr & Hrep1 & Hl1 & Hf1); try done.
    { fold d. constructor; [by rewrite Hn'|done]. }
    { apply Hal, Hal0, Ha. lia. }
    rewrite Hgr. bind. fold d in Hrep1.
    exists (Wavl h1 (wp w) n), (mk d (mk d u x E) n v). split; [done|].
    assert (nodes (mk d (mk d u x E) n v) = l1 ++ n :: l2) as Hnodes.
    { apply (ord_inj d). rewrite Hord, !nodes_mk, <- app_assoc. cbn [app nodes]. by destruct d. }
    split; [|split; [done|]].
    + split_and!; [by rewrite ptr_mk|done| |by apply Hl1].
      rewrite Hnodes. destruct Hab as (He & _). rewrite <- Permutation_middle. constructor; [by rewrite <- He|].
      rewrite <- He. by apply (facts_NoDup cmp Hcmp A).
    + intros i Hi. apply Hal0, Hal in Hi as [Hi Hb]. split; [by apply Hl1|done].
Qed.

Lemma fom_finds : find_facts cmp tree_ok (fom_find (V := V) cmp) (fom_link cmp) fom_hint.
Proof.
  split.
  - intros s A t k l1 x l2 Hr Hp. unfold fom_find. rewrite (root_empty s A t Hr).
    rewrite (empty_no s A t Hr (present_ne A k _ _ _ Hp)).
    destruct (splay_present s A t k l1 x l2 Hr Hp) as (w & a & b & kv & -> & Hr' & _ & _ & _ & Hc). bind.
    cbn [dat set_tr]. rewrite Hc. bind. by eexists _, _, _.
  - intros s A t k l1 l2 Hr Hab. unfold fom_find. rewrite (root_empty s A t Hr), (empty_elems s A t Hr).
    destruct (bool_decide_reflect (elems (fv A) = [])) as [He|Hne]; [by eexists s, t, _|].
    destruct (splay_absent s A t k l1 l2 Hr Hab Hne) as (w & a & x & b & cr & -> & Hr' & Hc & Hcr). bind.
    cbn [dat set_tr]. rewrite Hc. bind. rewrite is_eq_ne by done. by eexists _, _, _.
  - intros s A t l1 l2 [] kv Hcore _. by apply (fom_link_Ok s A t).
Qed.

(** ** Removal *)

Lemma fom_erase_no s A t k l1 l2 :
  reprT s A t -> absent_at cmp A k l1 l2 -> exists s', fom_erase cmp s k = Ok (s', None) /\ repr s' A.
Proof.
  intros Hr Hab. unfold fom_erase. rewrite (empty_elems s A t Hr).
  destruct (bool_decide_reflect (elems (fv A) = [])) as [He|Hne]; [exists s; split; [done|by exists t]|].
  destruct (splay_absent s A t k l1 l2 Hr Hab Hne) as (w & a & x & b & cr & -> & Hr' & Hc & Hcr). bind.
  cbn [dat set_tr]. rewrite Hc. bind. rewrite is_eq_ne by done. eexists. split; [done|]. by eexists.
Qed.

Lemma fom_erase_yes s A t k l1 x l2 old :
  reprT s A t -> present_at cmp A k l1 x l2 -> shown_at A x old ->
  exists s', fom_erase cmp s k = Ok (s', Some (count A)) /\ repr s' (fremoved A l1 x l2) /\ dat s' !! count A = Some old.
Proof.
  intros Hr0 Hp Hold. unfold fom_erase. rewrite (empty_no s A t Hr0 (present_ne A k _ _ _ Hp)).
  destruct (splay_present s A t k l1 x l2 Hr0 Hp) as (w & a & b & kv & -> & Hr & Hna & Hnb & Hx & Hc). bind.
  cbn [dat set_tr]. rewrite Hc. bind. cbn [is_eq negb]. clear Hr0 t Hc.
  set (s1 := set_tr s w) in *. change (dat s) with (dat s1). pose proof (reprT_facts cmp tree_ok s1 A _ Hr) as Hf.
  pose proof Hp as (He & _).
  assert (x ∈ elems (fv A)) as Hxin by (rewrite He, elem_of_app; right; left).
  pose proof (proj1 (facts_range cmp A x Hf) Hxin) as Hrx.
  pose proof (facts_NoDup cmp Hcmp A Hf) as Hnd.
  destruct (reprT_born cmp tree_ok s1 A _ x Hr Hxin) as (((Hcap & Ha) & (Hs & _) & Hd & (Hroot & Hrep & _ & Hl0) & Hn) & Hsz & Hle).
  assert (vals (fv A) !! x = Some old) as Hvx by done.
  destruct (detach_Ok 0 cmp Hcmp (dat s1) (wl (tr s1)) a x b old) as (h1 & t1 & Hdet & Hrep1 & Hn1 & Hl1 & Hf1); try done.
  { rewrite Hn. by apply (sorted_same cmp Hcmp (vals (fv A))). }
  { by rewrite Hd. }
  change (wl w) with (wl (tr s1)). rewrite Hdet. bind. rewrite Hna, Hnb in Hn1.
  rewrite He in Hnd. rewrite <- Permutation_middle in Hnd. apply NoDup_cons in Hnd as [Hx12 Hnd].
  set (n := count A) in *. set (w1 := Wavl h1 (wp (tr s1)) (ptr 0 t1)).
  change (set_links_root s1 h1 (ptr 0 t1)) with (set_tr s1 w1).
  assert (tree_ok w1 t1) as Hg1 by (split_and!; [done|done|by rewrite Hn1|by apply Hl1]).
  assert (forall i, alive (tr s1) i -> alive w1 i) as Hal by (intros i [Hi Hb]; split; [by apply Hl1|done]).
  unfold fom_swap_and_pop. change (sz (set_tr s1 w1)) with (sz s1). replace (sz s1 - 1) with n by lia.
  change (sz (set_sz (set_tr s1 w1) n)) with n.
  destruct (Nat.eqb_spec x n) as [Hxn|Hxn].
  - bind. eexists. split; [done|]. split.
    + exists t1. apply (popped cmp Hcmp tree_ok s1 A (T a x b) l1 x l2); try done.
      rewrite Hn1. fold n. rewrite Hxn. by rewrite moved_same.
    + change (dat s1 !! n = Some old). by rewrite <- Hxn, Hd, Hvx.
  - assert (n ∈ nodes t1) as Hnt.
    { assert (n ∈ elems (fv A)) as Hnin by (apply (facts_range cmp A _ Hf); fold n; lia).
      rewrite He, elem_of_app, elem_of_cons in Hnin. rewrite Hn1, elem_of_app. naive_solver. }
    destruct (find_zip _ _ Hnt) as (Q & a1 & b1 & Ht1).
    assert (zin 0 (wl w1) (wroot w1) Q (T a1 n b1)) as Hz1.
    { apply zin_at. rewrite <- Ht1. by apply (good_zin _ _ fom_tree). }
    assert (x ∉ nodes (plug Q (T a1 n b1))) as Hx1 by (by rewrite <- Ht1, Hn1).
    set (s2 := set_sz (set_tr s1 w1) n).
    destruct (relocate_Ok s2 x Q a1 b1) as (s3 & -> & Hsz3 & Hcap3 & Hz3 & Hal3 & _ & Hdx & Hdn & Hrest).
    { exact Hz1. } { intros i Hi. by apply Hal, Ha. } { lia. } { change (x < cap s1). lia. } { change (n < cap s1). lia. }
    { intros Hin. apply Hx1, elem_of_plug. by left. } { intros Hin. apply Hx1, elem_of_plug. by right. }
    bind. change (sz s2) with n in *. change (dat s2) with (dat s1) in *. change (cap s2) with (cap s1) in *.
    change (tr s2) with w1 in *.
    assert (alive (tr s3) n) as [Hln Hbn] by (apply Hal3, Hal, Ha; lia).
    rewrite set_links_put by done. bind.
    set (w4 := with_links (tr s3) (put_links (wl (tr s3)) n 0 0 0)).
    assert (forall i, alive (tr s3) i -> alive w4 i) as Hal4.
    { intros i [Hl Hb]. split; [|done]. cbn. apply live_put. by left. }
    assert (outside [n] (tr s3) w4) as Ho4.
    { split_and!; [apply frame_put|apply same_parity_refl|done]. }
    change (sz (set_tr s3 w4)) with (sz s3). rewrite Hsz3. eexists. split; [done|].
    pose proof (zin_cnt _ _ _ _ _ Hz3) as Hc3. pose proof (zin_cnt _ _ _ _ _ Hz1) as Hc1. cbn [nodes] in Hc1, Hc3.
    split.
    + exists (plug Q (T a1 x b1)).
      apply (popped cmp Hcmp tree_ok s1 A (T a x b) l1 x l2); try done; cbn [set_tr sz cap tr dat].
      * intros i Hi. by apply Hal4, Hal3, Hal.
      * apply (good_outside _ _ fom_tree [n] (tr s3)); [|done| |].
        -- by apply zin_plug in Hz3.
        -- rewrite elem_of_list_singleton. lia.
        -- intros z ->%elem_of_list_singleton Hin. apply elem_of_plug in Hin. cbn [nodes] in Hin.
           rewrite !cnt_in in Hin. pose proof (eqn_ne n x (not_eq_sym Hxn)). cnt_at n.
      * fold n. rewrite (plug_moved Q a1 n b1 x), <- Ht1, Hn1; [done|by rewrite <- Ht1, Hn1].
      * intros z Hz. apply Hrest. rewrite !elem_of_cons, elem_of_nil in *. naive_solver.
    + cbn [set_tr dat]. by rewrite Hdn, Hd, Hvx.
Qed.

(** ** Ranges *)

Lemma fom_range_Ok s A t d a b X Y :
  reprT s A t ->
  first (fun z => keyed cmp (fv A) (dirc (negb d)) a z \/ keyed cmp (fv A) Eq a z) (ord d (elems (fv A))) X ->
  first (keyed cmp (fv A) (dirc (negb d)) b) (ord d (elems (fv A))) Y ->
  exists s', fom_range cmp s d a b = Ok (s', bound A X, bound A Y) /\ repr s' A.
Proof.
  intros Hr HX HY. unfold fom_range. rewrite (empty_elems s A t Hr). unfold bound.
  destruct (bool_decide_reflect (elems (fv A) = [])) as [He|Hne].
  { exists s. unfold count. rewrite He. split; [done|by exists t]. }
  rewrite (proj2 (Nat.eqb_neq (count A) 0)) by (unfold count; by destruct (elems (fv A))).
  destruct (splay_repr s A t a Hr Hne) as (w1 & ta & x & tb & kx & -> & Hr1 & Hpt & Hx & Hc). bind.
  set (s1 := set_tr s w1) in *. change (dat s1) with (dat s). rewrite Hc. bind.
  destruct (parted_ord cmp (fv A) d a _ x _ Hpt) as (P & Q & Ho & HP & HQ).
  assert ((if cmp_is (cmp a (fst kx)) (if d then Gt else Lt) then fnext s1 d x else Ok x) = Ok X) as ->.
  { assert (forall z, z ∈ P -> ~ (keyed cmp (fv A) (dirc (negb d)) a z \/ keyed cmp (fv A) Eq a z)) as HnP.
    { intros z Hz Hk. specialize (HP z Hz). destruct Hk as [Hk|Hk]; pose proof (keyed_fun cmp (fv A) _ _ _ _ Hk HP); by destruct d. }
    rewrite Ho in HX. apply first_skip in HX; [|done].
    destruct (cmp_is (cmp a (fst kx)) (if d then Gt else Lt)) eqn:E.
    - rewrite (fnext_Ok cmp tree_ok _ fom_tree s1 A _ d x P Q Hr1 Ho). f_equal.
      symmetry. apply (first_hd (fun z => keyed cmp (fv A) (dirc (negb d)) a z \/ keyed cmp (fv A) Eq a z)).
      + intros z Hz. left. by apply HQ.
      + change (x :: Q) with ([x] ++ Q) in HX. apply first_skip in HX; [done|].
        intros z ->%elem_of_list_singleton Hk.
        destruct Hk as [(w & Hw & Hcw)|(w & Hw & Hcw)]; assert (w = kx) as -> by congruence;
          rewrite Hcw in E; by destruct d.
    - f_equal. inversion HX as [| |? ? ? Hno]; subst; [done|]. exfalso. apply Hno.
      destruct (cmp a (fst kx)) eqn:Ec; destruct d; try done; try (by right; exists kx); by left; exists kx. }
  bind.
  destruct (splay_repr s1 A _ b Hr1 Hne) as (w2 & ta2 & y & tb2 & ky & -> & Hr2 & Hpt2 & Hy & Hc2). bind.
  set (s2 := set_tr s1 w2) in *. change (dat s2) with (dat s1). rewrite Hc2. bind.
  destruct (parted_ord cmp (fv A) d b _ y _ Hpt2) as (P2 & Q2 & Ho2 & HP2 & HQ2).
  assert ((if cmp_is (cmp b (fst ky)) (if negb d then Gt else Lt) then Ok y else fnext s2 d y) = Ok Y) as ->.
  { assert (forall z, z ∈ P2 -> ~ keyed cmp (fv A) (dirc (negb d)) b z) as HnP.
    { intros z Hz Hk. specialize (HP2 z Hz). pose proof (keyed_fun cmp (fv A) _ _ _ _ Hk HP2). by destruct d. }
    rewrite Ho2 in HY. apply first_skip in HY; [|done].
    destruct (cmp_is (cmp b (fst ky)) (if negb d then Gt else Lt)) eqn:E.
    - f_equal. inversion HY as [| |? ? ? Hno]; subst; [done|]. exfalso. apply Hno.
      destruct (cmp b (fst ky)) eqn:Ec; destruct d; try done; by exists ky.
    - rewrite (fnext_Ok cmp tree_ok _ fom_tree s2 A _ d y P2 Q2 Hr2 Ho2). f_equal.
      symmetry. apply (first_hd (keyed cmp (fv A) (dirc (negb d)) b)).
      + intros z Hz. by apply HQ2.
      + change (y :: Q2) with ([y] ++ Q2) in HY. apply first_skip in HY; [done|].
        intros z ->%elem_of_list_singleton (w & Hw & Hcw). assert (w = ky) as -> by congruence.
        rewrite Hcw in E. by destruct d. }
  bind. exists s2. split; [done|by eexists].
Qed.

(** ** All calls *)

Lemma fom_validate_Ok s A t : reprT s A t -> fom_validate cmp s = Ok true.
Proof.
  intros Hr. unfold fom_validate.
  destruct (checks_Ok cmp Hcmp tree_ok _ fom_tree s A t (S (S (sz s + size (lf (wl (tr s)))))) Hr) as (H1 & H2 & H3); [lia|].
  rewrite H1. bind. cbn [negb]. rewrite H2. bind. rewrite H3.
  pose proof (reprT_count cmp tree_ok s A t Hr) as Hcnt.
  destruct (Z.eqb_spec (Z.of_nat (count A)) 0) as [|Hne]; [done|].
  by rewrite (proj2 (Z.eqb_eq (Z.of_nat (count A)) (Z.of_nat (sz s) - 1))) by lia.
Qed.

Lemma fom_clear_unused s A t fn :
  reprT s A t -> negb fn = true ->
  fn = false /\ exists s', fom_clear s fn = Ok (s', OK, []) /\ repr s' (with_fv A (View [] ∅)).
Proof.
  intros Hr Hfn. destruct fn; [done|]. split; [done|]. unfold fom_clear, flat_clear, size_set.
  cbn [set_root set_tr cap]. pose proof (reprT_slots cmp tree_ok s A t Hr) as (Hcap & Ha).
  assert (1 <= cap s -> repr (Flat (with_root (tr s) 0) (dat s) 1 (cap s)) (with_fv A (View [] ∅))) as Hborn.
  { intros H1. exists E. split; [cbn; destruct Hr as [Hu _]; intros ?%Hu; lia|]. right. unfold count. cbn. split_and!; [|done|done].
    split_and!; cbn.
    - split; [done|]. cbn. intros i Hi. by destruct (Ha i Hi).
    - apply facts_empty.
    - by intros x ?%elem_of_nil.
    - split_and!; [done|done|constructor|]. by destruct (Ha 0).
    - done. }
  destruct (Nat.ltb_spec (cap s) 1) as [H0|H1]; bind.
  - eexists. split; [done|]. destruct Hr as [Hu [(_ & _ & Hsz & _)|(_ & Hsz & Hle)]]; [|lia].
    exists E. split; [cbn; intros ?%Hu; lia|]. left. split_and!; try done.
    + apply facts_empty.
    + cbn. lia.
  - eexists. split; [done|]. by apply Hborn.
Qed.

Lemma fom_calls :
  call_facts cmp c tree_ok (fom_contains cmp) (fom_remove cmp) (fom_remove_at cmp) (fom_range (V := V) cmp) fom_clear (fom_validate cmp).
Proof.
  split; try done.
  - apply fom_clear_unused.
  - intros s A t k l1 x l2 Hr Hp. unfold fom_contains.
    destruct (splay_present s A t k l1 x l2 Hr Hp) as (w & a & b & kv & -> & Hr' & _ & _ & _ & Hc). bind.
    cbn [dat set_tr]. rewrite Hc. bind. eexists. split; [done|by eexists].
  - intros s A t k l1 l2 Hr Hab [?|Hne]; [done|]. unfold fom_contains.
    destruct (splay_absent s A t k l1 l2 Hr Hab Hne) as (w & a & x & b & cr & -> & Hr' & Hc & Hcr). bind.
    cbn [dat set_tr]. rewrite Hc. bind. rewrite is_eq_ne by done. eexists. split; [done|by eexists].
  - intros s A t nd kv l1 l2 Hr Hab. unfold fom_remove. cbn [fst snd].
    destruct (fom_erase_no s A t _ l1 l2 Hr Hab) as (s' & -> & Hr'). bind. by eexists s', _.
  - intros s A t nd kv l1 x l2 old Hr Hp Hold. unfold fom_remove. cbn [fst snd].
    destruct (fom_erase_yes s A t _ l1 x l2 old Hr Hp Hold) as (s' & -> & Hr' & Hd). bind. by eexists s', _.
  - intros s A t l1 x l2 old Hr He Hold. unfold fom_remove_at.
    rewrite (reprT_value cmp tree_ok s A t x old Hr Hold). bind.
    assert (present_at cmp A (fst old) l1 x l2) as Hp.
    { split; [done|]. exists old. split; [done|]. by apply cmp_refl. }
    destruct (fom_erase_yes s A t _ l1 x l2 old Hr Hp Hold) as (s' & -> & Hr' & Hd). bind. by exists s'.
  - apply fom_range_Ok.
  - intros s fn s' l Hc. unfold fom_clear. by rewrite Hc.
  - apply fom_validate_Ok.
Qed.

Lemma fom_run_Ok s A os rs A' :
  repr s A -> fcalls cmp c A os rs A' ->
  exists s' rs', fom_run cmp alloc s os = Ok (s', rs') /\ Forall2 fagree rs rs' /\ repr s' A'.
Proof. apply (run_Ok cmp Hcmp c tree_ok fom_seal fom_tree _ _ fom_hint fom_finds _ _ _ _ _ _ fom_calls). Qed.

Lemma fom_shows_Ok s A :
  repr s A -> fshown A (flat_size s) (flat_capacity s) (flat_iter s true) (flat_iter s false) (fom_validate cmp s).
Proof. apply (shows_Ok cmp c tree_ok fom_seal fom_tree _ _ _ _ _ _ fom_calls). Qed.
End proofs.
