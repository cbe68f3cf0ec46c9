(** The flat WAVL map refines the specification of array backed ordered maps. *)
From Coq Require Import Sorted.
From stdpp Require Import base numbers option gmap fin_maps list.
From Verif Require Import Common LinkHeap PathLemmas OrderSpec Counting TreeModel TreeProofs WavlModel WavlProofs WavlRank
  WavlRemove WavlNode WavlFrame OmProofs MapSpec MapProofs FlatOps FlatSpec FlatModel FlatProofs FlatCalls FrmModel.

Local Ltac bind := cbn [mbind outcome_bind obind].

Notation wavl_ok := (wavl_ok 0).

Section proofs.
Context {K V : Type} (cmp : K -> K -> comparison) (Hcmp : total_preorder cmp) (alloc : bool).
Implicit Types (s : flat K V) (A : fview K V).

Definition frm_contract : fcontract := FContract alloc true true true (fun _ => false).
Notation c := frm_contract.
Notation facts := (facts cmp).
Notation core := (core cmp wavl_ok).
Notation reprT := (reprT cmp wavl_ok).
Notation repr := (repr cmp wavl_ok).

Lemma wavl_ok_empty w : live (wl w) 0 -> wp w !! 0 = Some true -> wroot w = 0 -> wavl_ok w E.
Proof.
  intros Hl Hp Hr. split_and!; [|done|by exists (-1)%Z]. apply zin_plug. cbn. split_and!; [done|done|constructor|done].
Qed.

Lemma frm_tree : tree_facts wavl_ok (frm_seal (K := K) (V := V)).
Proof.
  split.
  - by intros w t [? _].
  - apply wavl_ok_outside.
  - intros w t (Hz & Hp & _). apply wavl_ok_empty; [by destruct Hz as (_ & _ & _ & ?)|done|done].
  - intros s [Hl [b Hb]]. unfold frm_seal, wparity. rewrite (parity_Ok _ _ _ Hb). bind.
    eexists. split; [done|]. split_and!.
    + split_and!; [apply frame_refl| |done]. apply same_parity_insert; [apply same_parity_refl|left].
    + intros i [Hli Hbi]. split; [done|]. cbn. destruct (decide (i = 0)) as [-> |Hne].
      * rewrite lookup_insert. by eexists.
      * by rewrite lookup_insert_ne.
    + intros Hroot. apply wavl_ok_empty; [done|by apply lookup_insert|done].
    + intros w0 t (Hz & Hn & m & Hok) (Hf & Hp & Hr). split_and!.
      * pose proof (zin_cnt _ _ _ _ _ Hz) as Hc. apply zin_plug in Hz as (Hroot & Hrep & Hnd & _).
        apply zin_plug. cbn [plug wl wroot] in *. rewrite Hr. split_and!; try done.
        apply (rep_frame 0 [0] (wl w0)); [done| |done]. intros z Hin ->%elem_of_list_singleton.
        apply cnt_in in Hin. specialize (Hc 0). rewrite eqn_refl in Hc. lia.
      * cbn. apply lookup_insert.
      * exists m. pose proof (zin_cnt _ _ _ _ _ Hz) as Hc. apply (ok_ext (wp w0)); [|done].
        intros z Hin. cbn. assert (z <> 0) as Hz0.
        { intros ->. apply cnt_in in Hin. specialize (Hc 0). rewrite eqn_refl in Hc. lia. }
        rewrite lookup_insert_ne by done. apply Hp. by intros ?%elem_of_list_singleton.
Qed.

(** ** Search *)

Lemma ready_budget s A t : reprT s A t -> height t < budget (Z.of_nat (sz s - 1)).
Proof.
  intros Hr. rewrite (reprT_count cmp wavl_ok s A t Hr). pose proof (reprT_nodes cmp wavl_ok s A t Hr) as Hn.
  assert (S (S (count A)) <= S (S (count A))) as _ by lia.
  destruct Hr as [_ [(_ & _ & _ & -> & _)|((_ & _ & _ & (_ & _ & n & Hok) & _) & _)]]; [cbn; unfold budget; lia|].
  pose proof (ok_log _ _ _ Hok) as Hlog. rewrite Hn in Hlog.
  unfold budget. rewrite Nat2Z.id. apply Nat.lt_succ_r. apply Nat.log2_le_pow2; [lia|done].
Qed.

Lemma loop_cases s A t k fuel :
  reprT s A t -> height t < fuel ->
  let out := find_loop 0 cmp fuel (dat s) (wl (tr s)) k 0 (wroot (tr s)) None in
  (exists x l1 l2, out = Ok (Some Eq, x) /\ present_at cmp A k l1 x l2) \/
  (exists Q l r, out = Ok (dir_of Q, zptr 0 Q) /\ t = plug Q E /\ (forall u, nodes (plug Q u) = l ++ nodes u ++ r) /\
     absent_at cmp A k l r).
Proof.
  intros Hr Hfuel. pose proof (reprT_nodes cmp wavl_ok s A t Hr) as Hn. cbv zeta.
  destruct Hr as [_ [(_ & _ & _ & -> & He & ->)|((_ & (Hs & _) & Hd & Hw & _) & _)]].
  - destruct fuel as [|f]; [lia|]. right. exists [], [], []. split_and!; try done.
    intros u. cbn. by rewrite app_nil_r.
  - assert (sorted cmp (dat s) (nodes t)) as Hs' by (rewrite Hn; by apply (sorted_same cmp Hcmp (vals (fv A)))).
    destruct (find_Ok 0 cmp Hcmp (dat s) fuel (tr s) k t Hw Hs' Hfuel)
      as [(x & kv & -> & Hx & Hkv & Hc)|(Q & l & r & -> & Ht & Hsp & Hl & Hr)].
    + left. rewrite Hn in Hx. rewrite Hd in Hkv by done.
      apply elem_of_list_split in Hx as (l1 & l2 & Hx). exists x, l1, l2. split; [done|].
      split; [done|]. by exists kv.
    + right. exists Q, l, r. split_and!; try done.
      assert (elems (fv A) = l ++ r) as He by (by rewrite <- Hn, <- Ht, Hsp).
      split_and!; [done|..]; apply Forall_forall; intros z Hz; [destruct (Hl z Hz) as (kv & Hkv & Hk)|destruct (Hr z Hz) as (kv & Hkv & Hk)];
        exists kv; rewrite Hd in Hkv by (rewrite He, elem_of_app; tauto); done.
Qed.

Lemma search_cases s A t k :
  reprT s A t ->
  (exists x l1 l2, search cmp s k = Ok (Some Eq, x) /\ present_at cmp A k l1 x l2) \/
  (exists Q l r, search cmp s k = Ok (dir_of Q, zptr 0 Q) /\ t = plug Q E /\ (forall u, nodes (plug Q u) = l ++ nodes u ++ r) /\
     absent_at cmp A k l r).
Proof. intros Hr. apply loop_cases; [done|]. by apply (ready_budget s A). Qed.

Lemma present_parted A k l1 x l2 : facts A -> present_at cmp A k l1 x l2 -> parted cmp (fv A) k l1 x l2.
Proof.
  intros (Hr & _) (He & kx & Hx & Hk). rewrite He in Hr. apply sorted_app in Hr as (_ & Hs2 & H12).
  split; [done|]. split; intros z Hz.
  - destruct (H12 z x Hz) as (a & b & Ha & Hb & Hab); [left|]. simplify_eq. exists a. split; [done|].
    apply (cmp_flip cmp Hcmp _ _ Lt). by rewrite (cmp_eq_r cmp Hcmp _ _ _ Hk).
  - destruct Hs2 as [Hs2 _]. apply StronglySorted_inv in Hs2 as [_ HF]. rewrite Forall_forall in HF.
    destruct (HF z Hz) as (a & b & Ha & Hb & Hab). simplify_eq. exists b. split; [done|].
    cbn. by rewrite (cmp_eq_l cmp Hcmp _ _ _ Hk).
Qed.

Lemma search_present s A t k l1 x l2 :
  reprT s A t -> present_at cmp A k l1 x l2 -> search cmp s k = Ok (Some Eq, x).
Proof.
  intros Ht Hp. pose proof (reprT_facts cmp wavl_ok s A t Ht) as Hf.
  destruct (search_cases s A t k Ht) as [(y & m1 & m2 & -> & Hp')|(Q & l & r & _ & _ & _ & Hab)].
  - pose proof (present_parted A k _ _ _ Hf Hp) as Hpt.
    by destruct (parted_present cmp (fv A) k _ _ _ _ _ _ (facts_NoDup cmp Hcmp A Hf) Hpt Hp') as (-> & _).
  - by destruct (absent_or_present_excl cmp (fv A) k _ _ _ _ _ Hab Hp).
Qed.

(** A search that fails ends where the key belongs. *)
Definition hint_ok (t : tree) (l1 l2 : list nat) (q : query) : Prop :=
  exists Q, t = plug Q E /\ q = (dir_of Q, zptr 0 Q) /\ forall u, nodes (plug Q u) = l1 ++ nodes u ++ l2.

Lemma search_absent s A t k l1 l2 :
  reprT s A t -> absent_at cmp A k l1 l2 ->
  exists q, search cmp s k = Ok q /\ hit q = None /\ hint_ok t l1 l2 q.
Proof.
  intros Ht Hab.
  destruct (search_cases s A t k Ht) as [(y & m1 & m2 & _ & Hp')|(Q & l & r & -> & Hplug & Hsp & Hab')].
  - by destruct (absent_or_present_excl cmp (fv A) k _ _ _ _ _ Hab Hp').
  - eexists. split; [done|]. split; [by destruct Q as [|[[[] ?] ?] ?]|]. exists Q. split_and!; [done|done|].
    destruct Hab as (He & H1 & H2), Hab' as (He' & H1' & H2'). rewrite Forall_forall in H1, H2, H1', H2'.
    rewrite He in He'. apply (app_split_unique (keyed cmp (fv A) Gt k)) in He' as [-> ->]; try done.
    + intros z Hz Hz'. by pose proof (keyed_fun cmp (fv A) _ _ k z Hz' (H2 z Hz)).
    + intros z Hz Hz'. by pose proof (keyed_fun cmp (fv A) _ _ k z Hz' (H2' z Hz)).
Qed.

Lemma frm_finds : find_facts cmp wavl_ok (frm_find (V := V) cmp) frm_link hint_ok.
Proof.
  split.
  - intros s A t k l1 x l2 Hr Hp. unfold frm_find. rewrite (search_present s A t k l1 x l2 Hr Hp). bind.
    by eexists _, t, _.
  - intros s A t k l1 l2 Hr Hab. unfold frm_find. destruct (search_absent s A t k l1 l2 Hr Hab) as (q & -> & Hh & Hq).
    bind. rewrite Hh. by eexists _, t, _.
  - intros s A t l1 l2 h kv ((Hcap & Ha) & Hf & Hd & Hg & Hn) (Q & -> & -> & Hsp) Hab Hsz Hle Hdn. unfold frm_link. cbn [fst snd].
    set (n := S (count A)) in *.
    assert ((sz s =? 2) = top Q) as ->.
    { rewrite Hsz. assert (count A = length (nodes (plug Q E))) as Hcnt by (by rewrite Hn).
      destruct Q as [|[[d x] u] Q]; cbn [top].
      - apply Nat.eqb_eq. cbn in Hcnt. lia.
      - apply Nat.eqb_neq. cbn [plug] in Hcnt. pose proof (plug_not_E Q (mk d u x E)) as Hne.
        destruct (plug Q (mk d u x E)) as [|l y r] eqn:Ep; [by destruct d; destruct Hne|].
        cbn [nodes] in Hcnt. rewrite app_length in Hcnt. cbn [length] in Hcnt. lia. }
    destruct (Ha n) as [Hln Hbn]; [lia|].
    assert (n ∉ elems (fv A)) as Hnn by (rewrite (facts_range cmp A n Hf); lia).
    destruct (attach_Ok 0 (budget (Z.of_nat (sz s - 2))) (tr s) Q n) as (w & t' & -> & Hw' & Hnodes & Hk & Hp); try done.
    { pose proof Hg as (_ & _ & m & Hok). pose proof (ok_log _ _ _ Hok) as Hlog. rewrite Hn in Hlog.
      pose proof (plug_height Q E) as Hplug. replace (sz s - 2) with (count A) by lia.
      unfold budget. rewrite Nat2Z.id. apply Nat.le_trans with (height (plug Q E)); [lia|].
      apply Nat.le_le_succ_r. apply Nat.log2_le_pow2; [lia|done]. }
    { intros Hz. apply Hnn. rewrite <- Hn. apply elem_of_plug. by left. }
    bind. exists w, t'. split; [done|]. rewrite Hsp in Hnodes. cbn [nodes app] in Hnodes. split_and!; try done.
    intros i [Hli Hbi]. split; [by apply Hk|].
    destruct (decide (i ∈ nodes t')) as [Hzt|Hzt].
    + destruct Hw' as (_ & _ & m & Hok). destruct (find_zip _ _ Hzt) as (Q' & a & b & ->).
      apply ok_unplug in Hok as (m' & _ & Hok). destruct Hok as (-> & _). by eexists.
    + by rewrite Hp.
Qed.

(** ** Removal *)

Lemma wavl_ok_alive w t z : wavl_ok w t -> z ∈ nodes t -> is_Some (wp w !! z).
Proof.
  intros (_ & _ & m & Hok) Hz. destruct (find_zip _ _ Hz) as (Q' & a & b & ->).
  apply ok_unplug in Hok as (n & _ & Hok). destruct Hok as (-> & _). by eexists.
Qed.

(** Renaming the node between [Q] and its subtrees. *)
Lemma ok_rename P P' Q a b x v m :
  ok P (plug Q (T a x b)) m -> P' !! v = P !! x ->
  (forall z, z ∈ znodes Q ++ nodes a ++ nodes b -> P' !! z = P !! z) ->
  exists n, zok P' Q n /\ ok P' (T a v b) n.
Proof.
  intros Hok Hv Hsame. apply ok_unplug in Hok as (n & HQ & Hx & Hl & na & nb & Ha & Hb & Hga & Hgb).
  exists n. split.
  - apply (zok_ext P); [|done]. intros z Hz. apply Hsame. rewrite elem_of_app. by left.
  - cbn [ok]. rewrite Hv. split; [done|]. split; [done|]. exists na, nb. split_and!; try done.
    + apply (ok_ext P); [|done]. intros z Hz. apply Hsame. rewrite !elem_of_app. tauto.
    + apply (ok_ext P); [|done]. intros z Hz. apply Hsame. rewrite !elem_of_app. tauto.
Qed.

Lemma plug_moved Q a x b v :
  NoDup (nodes (plug Q (T a x b))) -> nodes (plug Q (T a v b)) = map (moved x v) (nodes (plug Q (T a x b))).
Proof.
  destruct (plug_split Q) as (l & r & Hsp). rewrite !Hsp. cbn [nodes]. intros Hnd.
  rewrite !map_app. cbn [map]. unfold moved at 3. rewrite Nat.eqb_refl.
  assert (forall l0, x ∉ l0 -> map (moved x v) l0 = l0) as Hid.
  { intros l0 Hx. rewrite <- (map_id l0) at 2. apply map_ext_in. intros z Hz. apply elem_of_list_In in Hz.
    unfold moved. by destruct (Nat.eqb_spec z x) as [-> |]. }
  assert (x ∉ l ++ nodes a ++ nodes b ++ r) as Hx.
  { rewrite <- !app_assoc in Hnd. cbn [app] in Hnd. rewrite <- !Permutation_middle in Hnd.
    by apply NoDup_cons in Hnd as [Hx _]. }
  rewrite !not_elem_of_app in Hx. destruct Hx as (? & ? & ? & ?). by rewrite !Hid.
Qed.

Lemma moved_same n l : map (moved n n) l = l.
Proof.
  rewrite <- (map_id l) at 2. apply map_ext. intros z. unfold moved. by destruct (Nat.eqb_spec z n).
Qed.

(** The element that moves takes along the parity it had after the rebalancing. *)
Lemma remove_fixup_parity s A t l1 x l2 old :
  reprT s A t -> elems (fv A) = l1 ++ x :: l2 -> shown_at A x old ->
  exists s' n, remove_fixup s x = Ok (s', count A) /\ repr s' (fremoved A l1 x l2) /\ read s' (count A) = Ok (n, Some old) /\
    exists w, unlink 0 (budget (Z.of_nat (sz s - 1))) (tr s) x = Ok w /\
      forall y, y ∈ l1 ++ l2 -> wp (tr s') !! moved (count A) x y = wp w !! y.
Proof.
  intros Hr He Hold. pose proof (reprT_facts cmp wavl_ok s A t Hr) as Hf.
  assert (x ∈ elems (fv A)) as Hxin by (rewrite He, elem_of_app; right; left).
  pose proof (proj1 (facts_range cmp A x Hf) Hxin) as Hrx.
  pose proof (facts_NoDup cmp Hcmp A Hf) as Hnd.
  destruct (reprT_born cmp wavl_ok s A t x Hr Hxin) as (((Hcap & Ha) & _ & Hd & Hw & Hn) & Hsz & Hle).
  destruct (unlink_parity 0 (budget (Z.of_nat (sz s - 1))) (tr s) t x Hw)
    as (w & t1 & m1 & m2 & Hrun & Hw1 & Hn1 & Hn2 & [Hk _] & Hp).
  { apply Nat.lt_le_incl, (ready_budget s A). done. } { by rewrite Hn. }
  assert (l1 = m1 /\ l2 = m2) as [<- <-].
  { rewrite He in Hnd, Hn. apply (split_unique l1 l2 m1 m2 x); [done|]. by rewrite <- Hn, Hn1. }
  unfold remove_fixup. rewrite Hrun. bind.
  assert (forall i, alive (tr s) i -> alive w i) as Hal.
  { intros i [Hli Hbi]. split; [by apply Hk|]. destruct (decide (i ∈ nodes t1)) as [Hi|Hi].
    - by apply (wavl_ok_alive w t1). - by rewrite Hp. }
  rewrite He in Hnd. rewrite <- Permutation_middle in Hnd. apply NoDup_cons in Hnd as [Hx12 Hnd].
  set (n := count A) in *.
  unfold frm_swap_and_pop. cbn [set_sz set_tr sz cap tr dat]. replace (sz s - 1) with n by lia.
  assert (vals (fv A) !! x = Some old) as Hvx by done.
  destruct (Nat.eqb_spec x n) as [Hxn|Hxn].
  - bind. cbn [sz]. destruct (alive_fnode w n) as [nd Hnode]; [apply Hal, Ha; lia|].
    eexists _, nd. split; [done|]. split; [|split].
    + exists t1. apply (popped cmp Hcmp wavl_ok s A t l1 x l2); try done.
      rewrite Hn2, Hxn. by rewrite moved_same.
    + erewrite read_Ok; [|exact Hnode]. cbn [dat]. by rewrite <- Hxn, Hd, Hvx.
    + exists w. split; [done|]. intros y _. unfold moved. rewrite Hxn. by destruct (Nat.eqb_spec y n) as [-> |].
  - assert (n ∈ nodes t1) as Hnt.
    { assert (n ∈ elems (fv A)) as Hnin by (apply (facts_range cmp A _ Hf); fold n; lia).
      rewrite He, elem_of_app, elem_of_cons in Hnin. rewrite Hn2, elem_of_app. naive_solver. }
    destruct (find_zip _ _ Hnt) as (Q & a & b & Ht1). rewrite Ht1 in *.
    pose proof Hw1 as (Hz1 & Hnil & m & Hok). apply zin_at in Hz1.
    assert (x ∉ nodes (plug Q (T a n b))) as Hx1 by (by rewrite Hn2).
    set (s1 := Flat w (dat s) n (cap s)). change (set_sz (set_tr s w) n) with s1.
    destruct (relocate_Ok s1 x Q a b) as (s2 & -> & Hsz2 & Hcap2 & Hz2 & Hal2 & Hpx & Hdx & Hdn & Hrest).
    { exact Hz1. } { intros i Hi. by apply Hal, Ha. } { lia. } { cbn; lia. } { cbn; lia. }
    { intros Hin. apply Hx1, elem_of_plug. by left. } { intros Hin. apply Hx1, elem_of_plug. by right. }
    bind. cbn [sz cap tr dat s1] in *.
    assert (alive (tr s2) 0) as [Hl0 [b0 Hb0]] by (apply Hal2, Hal, Ha; lia).
    assert (alive (tr s2) n) as [Hln [bn Hbn]] by (apply Hal2, Hal, Ha; lia).
    unfold frm_seal, wparity. rewrite (parity_Ok _ _ _ Hb0). bind. cbn [set_tr tr].
    erewrite parity_Ok by (cbn; rewrite lookup_insert_ne by lia; exact Hbn). bind. cbn [wl].
    rewrite set_links_put by done. bind. unfold with_links. cbn [wl wp wroot set_tr sz].
    set (w5 := Wavl (put_links _ _ _ _ _) _ _).
    assert (w5 = put_fnode (Wavl (wl (tr s2)) (<[0 := true]> (wp (tr s2))) (wroot (tr s2))) n (Node 0 0 0 false)) as Hw5 by done.
    assert (forall i, alive (tr s2) i -> alive w5 i) as Hal5.
    { intros i [Hli [bi Hbi]]. rewrite Hw5. apply alive_put. left. split; [done|]. cbn.
      destruct (decide (i = 0)) as [-> |]; [rewrite lookup_insert; by eexists|rewrite lookup_insert_ne by done; by eexists]. }
    pose proof (zin_cnt _ _ _ _ _ Hz2) as Hc2. pose proof (zin_cnt _ _ _ _ _ Hz1) as Hc1. cbn [nodes] in Hc1, Hc2.
    rewrite Hsz2. eexists _, (Node 0 0 0 false). split; [done|]. split; [|split].
    + exists (plug Q (T a x b)). apply (popped cmp Hcmp wavl_ok s A t l1 x l2); try done; cbn [sz cap tr dat].
      * intros i Hi. by apply Hal5, Hal2, Hal.
      * destruct (ok_rename (wp w) (wp w5) Q a b n x m) as (m' & HQ & Hm); [done| | |].
        { cbn. rewrite !lookup_insert_ne by lia. by rewrite Hpx. }
        { intros z Hz. assert (z <> 0 /\ z <> x /\ z <> n) as (Hz0 & Hzx & Hzn).
          { rewrite !elem_of_app, !cnt_in in Hz. split_and!; intros ->.
            - cnt_at 0. - cnt_at x. - cnt_at n. }
          cbn. rewrite !lookup_insert_ne by done.
          destruct (Hrest z) as [-> _]; [rewrite !elem_of_cons, elem_of_nil; naive_solver|done]. }
        apply (wavl_ok_plug 0 _ _ _ m'); [| |done|done].
        -- apply zin_plug in Hz2 as (Hroot & Hrep & Hnd2 & Hl2). apply zin_plug. split_and!; try done.
           ++ apply (rep_frame 0 [n] (wl (tr s2))); [apply frame_put| |done].
              intros z Hin ->%elem_of_list_singleton. apply elem_of_plug in Hin. cbn [nodes] in Hin.
              rewrite !cnt_in in Hin. pose proof (eqn_ne n x (not_eq_sym Hxn)). cnt_at n.
           ++ by apply Hal5, Hal2, Hal, Ha; lia.
        -- cbn. rewrite lookup_insert_ne by lia. apply lookup_insert.
      * fold n. rewrite (plug_moved Q a n b x), Hn2; [done|by rewrite Hn2].
      * intros z Hz. apply Hrest. rewrite !elem_of_cons, elem_of_nil in *. naive_solver.
    + erewrite read_Ok; [|cbn [tr]; rewrite Hw5; apply fnode_put]. cbn [dat set_tr]. by rewrite Hdn, Hd, Hvx.
    + exists w. split; [done|]. intros y Hy. cbn [tr set_tr].
      assert (y <> x) as Hyx by (by intros ->).
      assert (y ∈ elems (fv A)) as Hyin.
      { rewrite He. rewrite elem_of_app in *. rewrite elem_of_cons. tauto. }
      apply (facts_range cmp A y Hf) in Hyin.
      unfold moved. destruct (Nat.eqb_spec y n) as [-> |Hyn].
      * cbn. rewrite !lookup_insert_ne by lia. by rewrite Hpx.
      * cbn. rewrite !lookup_insert_ne by lia.
        destruct (Hrest y) as [-> _]; [rewrite !elem_of_cons, elem_of_nil; lia|done].
Qed.

Lemma remove_fixup_Ok s A t l1 x l2 old :
  reprT s A t -> elems (fv A) = l1 ++ x :: l2 -> shown_at A x old ->
  exists s' n, remove_fixup s x = Ok (s', count A) /\ repr s' (fremoved A l1 x l2) /\ read s' (count A) = Ok (n, Some old).
Proof.
  intros Hr He Hold. destruct (remove_fixup_parity s A t l1 x l2 old Hr He Hold) as (s' & n & ? & ? & ? & _). by exists s', n.
Qed.

(** ** Ranges *)

Lemma search_parted s A t k :
  reprT s A t -> elems (fv A) <> [] ->
  exists a x b kv, search cmp s k = Ok (Some (cmp k (fst kv)), x) /\ parted cmp (fv A) k a x b /\ vals (fv A) !! x = Some kv.
Proof.
  intros Ht Hne. pose proof (reprT_facts cmp wavl_ok s A t Ht) as Hf. pose proof (reprT_nodes cmp wavl_ok s A t Ht) as Hn.
  destruct (search_cases s A t k Ht) as [(x & l1 & l2 & -> & Hp)|(Q & l & r & -> & Hplug & Hsp & Hab)].
  - pose proof Hp as (_ & kv & Hkv & Hk). exists l1, x, l2, kv. rewrite Hk. split_and!; [done| |done].
    by apply present_parted.
  - destruct Q as [|[[d x] u] Q].
    { subst t. by cbn in Hn. }
    destruct (plug_split Q) as (l' & r' & Hsp').
    assert (forall m, nodes (plug ((d, x, u) :: Q) m) =
      (if d then l' ++ nodes u ++ [x] else l') ++ nodes m ++ (if d then r' else x :: nodes u ++ r')) as Hsp2.
    { intros m. cbn [plug]. rewrite Hsp'. destruct d; cbn [mk nodes]; by rewrite <- ?app_assoc. }
    assert (l = (if d then l' ++ nodes u ++ [x] else l') /\ r = (if d then r' else x :: nodes u ++ r')) as [Hl Hrr].
    { set (w := base.fresh (l ++ r)).
      assert (w ∉ l ++ r) as Hw by apply infinite_is_fresh.
      apply (split_unique _ _ _ _ w).
      - pose proof (facts_NoDup cmp Hcmp A Hf) as Hnd. destruct Hab as (He & _). rewrite He in Hnd.
        rewrite <- Permutation_middle. by constructor.
      - specialize (Hsp (T E w E)). rewrite Hsp2 in Hsp. by symmetry. }
    destruct Hab as (He & Hl1 & Hl2). rewrite Forall_forall in Hl1, Hl2. cbn [dir_of zptr].
    destruct d; subst l r.
    + assert (side cmp (vals (fv A)) true k x) as (kv & Hkv & Hc).
      { apply Hl1. rewrite !elem_of_app. right. right. left. }
      exists (l' ++ nodes u), x, r', kv. cbn in Hc. rewrite Hc. split_and!; [done| |done].
      split_and!; [by rewrite He, <- !app_assoc| |done]. intros z Hz. apply Hl1. rewrite app_assoc, elem_of_app. by left.
    + assert (side cmp (vals (fv A)) false k x) as (kv & Hkv & Hc).
      { apply Hl2. left. }
      exists l', x, (nodes u ++ r'), kv. cbn in Hc. rewrite Hc. split_and!; [done| |done].
      split_and!; [done|done|]. intros z Hz. apply Hl2. by right.
Qed.

Lemma frm_range_Ok s A t d a b X Y :
  reprT s A t ->
  first (fun z => keyed cmp (fv A) (dirc (negb d)) a z \/ keyed cmp (fv A) Eq a z) (ord d (elems (fv A))) X ->
  first (keyed cmp (fv A) (dirc (negb d)) b) (ord d (elems (fv A))) Y ->
  frm_range cmp s d a b = Ok (s, bound A X, bound A Y).
Proof.
  intros Hr HX HY. unfold frm_range, flat_is_empty, flat_size, bound. rewrite (reprT_count cmp wavl_ok s A t Hr).
  destruct (Nat.eqb_spec (count A) 0) as [He|Hne]; [done|].
  assert (elems (fv A) <> []) as Hne' by (intros He; unfold count in Hne; by rewrite He in Hne).
  destruct (search_parted s A t a Hr Hne') as (ta & x & tb & kx & -> & Hpt & Hx). bind.
  destruct (parted_ord cmp (fv A) d a _ x _ Hpt) as (P & Q & Ho & HP & HQ).
  assert ((if last_is (Some (cmp a (fst kx))) (if d then Gt else Lt) then fnext s d x else Ok x) = Ok X) as ->.
  { assert (forall z, z ∈ P -> ~ (keyed cmp (fv A) (dirc (negb d)) a z \/ keyed cmp (fv A) Eq a z)) as HnP.
    { intros z Hz Hk. specialize (HP z Hz). destruct Hk as [Hk|Hk]; pose proof (keyed_fun cmp (fv A) _ _ _ _ Hk HP); by destruct d. }
    rewrite Ho in HX. apply first_skip in HX; [|done].
    destruct (last_is (Some (cmp a (fst kx))) (if d then Gt else Lt)) eqn:E.
    - rewrite (fnext_Ok cmp wavl_ok _ frm_tree s A t d x P Q Hr Ho). f_equal.
      symmetry. apply (first_hd (fun z => keyed cmp (fv A) (dirc (negb d)) a z \/ keyed cmp (fv A) Eq a z)).
      + intros z Hz. left. by apply HQ.
      + change (x :: Q) with ([x] ++ Q) in HX. apply first_skip in HX; [done|].
        intros z ->%elem_of_list_singleton Hk.
        destruct Hk as [(w & Hw & Hcw)|(w & Hw & Hcw)]; assert (w = kx) as -> by congruence;
          rewrite Hcw in E; by destruct d.
    - f_equal. inversion HX as [| |? ? ? Hno]; subst; [done|]. exfalso. apply Hno.
      destruct (cmp a (fst kx)) eqn:Ec; destruct d; try done; try (by right; exists kx); by left; exists kx. }
  bind.
  destruct (search_parted s A t b Hr Hne') as (ta2 & y & tb2 & ky & -> & Hpt2 & Hy). bind.
  destruct (parted_ord cmp (fv A) d b _ y _ Hpt2) as (P2 & Q2 & Ho2 & HP2 & HQ2).
  assert ((if last_is (Some (cmp b (fst ky))) (if negb d then Gt else Lt) then Ok y else fnext s d y) = Ok Y) as ->.
  { assert (forall z, z ∈ P2 -> ~ keyed cmp (fv A) (dirc (negb d)) b z) as HnP.
    { intros z Hz Hk. specialize (HP2 z Hz). pose proof (keyed_fun cmp (fv A) _ _ _ _ Hk HP2). by destruct d. }
    rewrite Ho2 in HY. apply first_skip in HY; [|done].
    destruct (last_is (Some (cmp b (fst ky))) (if negb d then Gt else Lt)) eqn:E.
    - f_equal. inversion HY as [| |? ? ? Hno]; subst; [done|]. exfalso. apply Hno.
      destruct (cmp b (fst ky)) eqn:Ec; destruct d; try done; by exists ky.
    - rewrite (fnext_Ok cmp wavl_ok _ frm_tree s A t d y P2 Q2 Hr Ho2). f_equal.
      symmetry. apply (first_hd (keyed cmp (fv A) (dirc (negb d)) b)).
      + intros z Hz. by apply HQ2.
      + change (y :: Q2) with ([y] ++ Q2) in HY. apply first_skip in HY; [done|].
        intros z ->%elem_of_list_singleton (w & Hw & Hcw). assert (w = ky) as -> by congruence.
        rewrite Hcw in E. by destruct d. }
  bind. done.
Qed.

(** ** All calls *)

Lemma frm_validate_Ok s A t : reprT s A t -> frm_validate cmp s = Ok true.
Proof.
  intros Hr. unfold frm_validate.
  assert ((if sz s =? 0 then Ok true else parity (tr s) 0) = Ok true) as ->.
  { destruct Hr as [_ [(_ & _ & -> & _)|((_ & _ & _ & (_ & Hp & _) & _) & Hsz & _)]]; [done|].
    rewrite Hsz. cbn [Nat.eqb]. by apply parity_Ok. }
  bind. cbn [negb].
  destruct (checks_Ok cmp Hcmp wavl_ok _ frm_tree s A t (S (S (sz s + size (lf (wl (tr s)))))) Hr) as (H1 & H2 & H3); [lia|].
  rewrite H1. bind. cbn [negb]. rewrite H2. bind. rewrite H3.
  pose proof (reprT_count cmp wavl_ok s A t Hr) as Hcnt.
  destruct (Z.eqb_spec (Z.of_nat (count A)) 0) as [|Hne]; [done|].
  by rewrite (proj2 (Z.eqb_eq (Z.of_nat (count A)) (Z.of_nat (sz s) - 1))) by lia.
Qed.

Lemma frm_calls :
  call_facts cmp c wavl_ok (frm_contains cmp) (frm_remove cmp) remove_fixup (frm_range (V := V) cmp) flat_clear (frm_validate cmp).
Proof.
  split; try done.
  - intros s A t k l1 x l2 Hr Hp. unfold frm_contains. rewrite (search_present s A t k l1 x l2 Hr Hp). bind.
    exists s. split; [done|by exists t].
  - intros s A t k l1 l2 Hr Hab _. unfold frm_contains.
    destruct (search_absent s A t k l1 l2 Hr Hab) as (q & -> & Hh & _). bind. rewrite Hh. exists s. split; [done|by exists t].
  - intros s A t nd kv l1 l2 Hr Hab. unfold frm_remove. cbn [fst snd].
    destruct (search_absent s A t _ l1 l2 Hr Hab) as (q & -> & Hh & _). bind. rewrite Hh.
    eexists s, _. split; [done|by exists t].
  - intros s A t nd kv l1 x l2 old Hr Hp Hold. unfold frm_remove. cbn [fst snd].
    rewrite (search_present s A t _ l1 x l2 Hr Hp). bind. cbn [hit]. pose proof Hp as (He & _).
    destruct (remove_fixup_Ok s A t l1 x l2 old Hr He Hold) as (s' & n & -> & Hr' & Hread). bind. rewrite Hread. bind.
    eexists s', _. split; [done|]. split; [done|].
    unfold read in Hread. revert Hread. repeat (match goal with |- context [mbind _ ?o] => destruct o; [|done..] end; bind).
    congruence.
  - intros s A t l1 x l2 old Hr He Hold.
    destruct (remove_fixup_Ok s A t l1 x l2 old Hr He Hold) as (s' & n & -> & Hr' & Hread).
    exists s'. split; [done|]. split; [done|].
    unfold read in Hread. revert Hread. repeat (match goal with |- context [mbind _ ?o] => destruct o; [|done..] end; bind).
    congruence.
  - intros s A t d a b X Y Hr HX HY. rewrite (frm_range_Ok s A t d a b X Y Hr HX HY). exists s. split; [done|by exists t].
  - apply frm_validate_Ok.
Qed.

Lemma frm_run_Ok s A os rs A' :
  repr s A -> fcalls cmp c A os rs A' ->
  exists s' rs', frm_run cmp alloc s os = Ok (s', rs') /\ Forall2 fagree rs rs' /\ repr s' A'.
Proof. apply (run_Ok cmp Hcmp c wavl_ok frm_seal frm_tree _ _ hint_ok frm_finds _ _ _ _ _ _ frm_calls). Qed.

Lemma frm_shows_Ok s A :
  repr s A -> fshown A (flat_size s) (flat_capacity s) (flat_iter s true) (flat_iter s false) (frm_validate cmp s).
Proof. apply (shows_Ok cmp c wavl_ok frm_seal frm_tree _ _ _ _ _ _ frm_calls). Qed.
End proofs.
