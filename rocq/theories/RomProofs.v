(** The WAVL map refines the ordered map specification. *)
From Coq Require Import Sorted.
From stdpp Require Import base numbers option gmap fin_maps list.
From Verif Require Import Common LinkHeap PathLemmas OrderSpec TreeModel TreeProofs WavlModel WavlProofs WavlRank WavlRemove
  MapOps MapSpec MapProofs OmProofs WavlNode WavlFrame RomModel.

Local Ltac bind := cbn [mbind outcome_bind obind].

Notation wavl_ok := (wavl_ok nil).

Lemma null_links_Ok s e l r p b : node_is s e l r p b -> null_links s e = Ok (put_node s e 0 0 0 b).
Proof.
  intros (Hl & Hr & Hp & Hb). unfold null_links. rewrite set_links_put by (by split_and!; eexists). bind.
  unfold with_links, put_node. by rewrite (insert_id _ _ _ Hb).
Qed.

Lemma dir_miss Q : hit (dir_of Q) = false.
Proof. by destruct Q as [|[[[] ?] ?] ?]. Qed.

Section proofs.
Context {K V : Type} (cmp : K -> K -> comparison) (Hcmp : total_preorder cmp).
Context (c : contract).
Notation alloc := (allocates c).
Implicit Types (s : rom K V) (A : view K V).

Definition reprT s A (t : tree) : Prop :=
  wavl_ok (tr s) t /\ nodes t = elems A /\ sorted cmp (vals A) (elems A) /\
  dat s = vals A /\ sz s = Z.of_nat (length (elems A)) /\
  (forall x kv, vals A !! x = Some kv -> alive (tr s) x /\ x <> 0 /\ x <> nil) /\
  (alloc = true -> forall x, x ∈ elems A -> x ∈ heap s).
Definition repr s A : Prop := exists t, reprT s A t.

Lemma repr_init : repr rom_init start.
Proof.
  exists E. unfold reprT, start. cbn [tr dat heap sz rom_init elems vals nodes length]. split_and!; try done.
  - split_and!; [|done|by exists (-1)%Z]. apply zin_plug. cbn. split_and!; try done. constructor.
  - split; constructor.
  - intros _ x Hx. by apply elem_of_nil in Hx.
Qed.

Lemma repr_sorted s A : repr s A -> sorted cmp (vals A) (elems A).
Proof. intros [t (_ & _ & ? & _)]. done. Qed.
Lemma repr_NoDup s A : repr s A -> NoDup (elems A).
Proof. intros H. apply repr_sorted in H. by apply (sorted_NoDup cmp Hcmp (vals A)). Qed.
Lemma repr_vals s A : repr s A -> dat s = vals A.
Proof. intros [t (_ & _ & _ & ? & _)]. done. Qed.
Lemma repr_sz s A : repr s A -> sz s = Z.of_nat (length (elems A)).
Proof. intros [t (_ & _ & _ & _ & ? & _)]. done. Qed.
Lemma repr_dat s A x : repr s A -> x ∈ elems A -> exists kv, vals A !! x = Some kv.
Proof. intros H. apply repr_sorted in H. by apply (sorted_dat cmp). Qed.
Lemma repr_alive s A x kv : repr s A -> vals A !! x = Some kv -> alive (tr s) x /\ x <> 0 /\ x <> nil.
Proof. intros [t (_ & _ & _ & _ & _ & H & _)]. apply H. Qed.
Lemma repr_heap s A x : repr s A -> alloc = true -> x ∈ elems A -> x ∈ heap s.
Proof. intros [t (_ & _ & _ & _ & _ & _ & H)] Ha. by apply H. Qed.

Lemma value_Ok s A x kv : repr s A -> vals A !! x = Some kv -> value (dat s) x = Ok kv.
Proof. intros Hr Hx. rewrite (repr_vals s A Hr). unfold value. by rewrite Hx. Qed.

Lemma reprT_rep s A t : reprT s A t ->
  wroot (tr s) = ptr nil t /\ rep nil (wl (tr s)) nil t /\ NoDup (nodes t) /\ live (wl (tr s)) nil.
Proof. intros ((Hz & _) & _). by apply zin_plug in Hz. Qed.

Lemma reprT_budget s A t : reprT s A t -> height t < budget (sz s).
Proof.
  intros ((_ & _ & n & Hok) & Hn & _ & _ & -> & _). pose proof (ok_log _ _ _ Hok) as Hlog. rewrite Hn in Hlog.
  unfold budget. rewrite Nat2Z.id. apply Nat.lt_succ_r. apply Nat.log2_le_pow2; [lia|done].
Qed.

(** Changing links of nodes outside the tree, or data that the tree does not
    depend on. *)
Lemma reprT_put s A t e l r p b :
  reprT s A t -> e ∉ elems A -> e <> nil -> reprT (set_tr s (put_node (tr s) e l r p b)) A t.
Proof.
  intros (Hw & Hn & Hs & Hd & Hsz & Hv & Hh) He Hne. unfold reprT. cbn [tr dat heap sz set_tr]. split_and!; try done.
  - apply (wavl_ok_outside nil [e] (tr s)); [done|apply outside_put| |].
    + intros Hx%elem_of_list_singleton. by apply Hne.
    + intros z ->%elem_of_list_singleton. by rewrite Hn.
  - intros x kv Hx. destruct (Hv x kv Hx) as (? & ? & ?). split_and!; [apply alive_put; by left|done|done].
Qed.

Lemma reprT_set_dat s A t x kv :
  reprT s A t -> alive (tr s) x -> x <> 0 -> x <> nil ->
  (x ∈ elems A -> exists old, vals A !! x = Some old /\ cmp (fst old) (fst kv) = Eq) ->
  reprT (set_dat s x kv) (set_val A x kv) t.
Proof.
  intros (Hw & Hn & Hs & Hd & Hsz & Hv & Hh) Hlx H0 H1 Hold.
  unfold reprT. cbn [tr dat heap sz set_dat elems vals set_val]. split_and!; try done.
  - apply (sorted_key cmp Hcmp (vals A)); [done|]. intros z Hz.
    destruct (decide (z = x)) as [-> |Hne].
    + destruct (Hold Hz) as (old & Ho & He). exists old, kv. by rewrite lookup_insert.
    + destruct (sorted_dat _ _ _ _ Hs Hz) as [a Ha]. exists a, a. rewrite lookup_insert_ne by done.
      split_and!; [done..|by apply cmp_refl].
  - by rewrite Hd.
  - intros z kv' Hz. destruct (decide (z = x)) as [-> |Hne]; [done|].
    rewrite lookup_insert_ne in Hz by done. by apply (Hv z kv').
Qed.

(** A new element, made by the user or by the allocator. *)
Lemma reprT_new s A t e kv l r p b (H : gset nat) :
  reprT s A t -> unused A e -> (forall z, z ∈ heap s -> z ∈ H) ->
  reprT (Rom (put_node (tr s) e l r p b) (<[e := kv]> (dat s)) H (sz s)) (set_val A e kv) t.
Proof.
  intros Hr (H0 & H1 & Hu) HH.
  assert (e ∉ elems A) as Hin.
  { intros Hin. destruct (repr_dat s A e) as [a Ha]; [by exists t|done|]. congruence. }
  apply (reprT_put s A t e l r p b) in Hr; [|done|done].
  destruct (reprT_set_dat _ A t e kv Hr) as (Hw & Hn & Hs & Hd & Hsz & Hv & Hh); [apply alive_put; by right|done|done|done|].
  unfold reprT. cbn [tr dat heap sz]. split_and!; try done. intros Ha z Hz. apply HH. by apply Hh.
Qed.

(** ** Search *)

Lemma present_parted s A k l1 x l2 : repr s A -> present cmp A k l1 x l2 -> parted cmp A k l1 x l2.
Proof.
  intros Hr (He & kx & Hx & Hk). apply repr_sorted in Hr. rewrite He in Hr. apply sorted_app in Hr as (_ & Hs2 & H12).
  split; [done|]. split; intros z Hz.
  - destruct (H12 z x Hz) as (a & b & Ha & Hb & Hab); [left|]. simplify_eq. exists a. split; [done|].
    apply (cmp_flip cmp Hcmp _ _ Lt). by rewrite (cmp_eq_r cmp Hcmp _ _ _ Hk).
  - destruct Hs2 as [Hs2 _]. apply StronglySorted_inv in Hs2 as [_ HF]. rewrite Forall_forall in HF.
    destruct (HF z Hz) as (a & b & Ha & Hb & Hab). simplify_eq. exists b. split; [done|].
    cbn. by rewrite (cmp_eq_l cmp Hcmp _ _ _ Hk).
Qed.

Lemma repr_length s A : repr s A -> length (elems A) <= size (lf (wl (tr s))).
Proof. intros [t (Hw & <- & _)]. by apply (wavl_size nil). Qed.

(** A search with enough steps ends at the element with the key, or at the place
    where the key belongs. *)
Lemma loop_cases s A t k fuel :
  reprT s A t -> height t < fuel ->
  let out := find_loop nil cmp fuel (dat s) (wl (tr s)) k nil (wroot (tr s)) None in
  (exists x l1 l2, out = Ok (Some Eq, x) /\ present cmp A k l1 x l2) \/
  (exists Q l r, out = Ok (dir_of Q, zptr nil Q) /\ t = plug Q E /\ (forall u, nodes (plug Q u) = l ++ nodes u ++ r) /\
     absent cmp A k l r).
Proof.
  intros (Hw & Hn & Hs & Hd & Hsz & Hv & Hh) Hf. cbv zeta. rewrite Hd.
  destruct (find_Ok nil cmp Hcmp (vals A) fuel (tr s) k t Hw) as [(x & kv & -> & Hx & Hkv & Hc)|(Q & l & r & -> & Ht & Hsp & Hl & Hr)];
    [by rewrite Hn|done|..].
  - left. rewrite Hn in Hx. apply elem_of_list_split in Hx as (l1 & l2 & Hx). exists x, l1, l2. split; [done|].
    split; [done|]. by exists kv.
  - right. exists Q, l, r. split_and!; try done. split_and!; [|by apply Forall_forall..].
    rewrite <- Hn, <- Ht, Hsp. done.
Qed.

Lemma find_cases s A t k :
  reprT s A t ->
  (exists x l1 l2, find cmp s k = Ok (Some Eq, x) /\ present cmp A k l1 x l2) \/
  (exists Q l r, find cmp s k = Ok (dir_of Q, zptr nil Q) /\ t = plug Q E /\ (forall u, nodes (plug Q u) = l ++ nodes u ++ r) /\
     absent cmp A k l r).
Proof.
  intros Hr. apply loop_cases; [done|]. by apply (reprT_budget s A).
Qed.

Lemma find_present s A k l1 x l2 :
  repr s A -> present cmp A k l1 x l2 -> find cmp s k = Ok (Some Eq, x).
Proof.
  intros Hr Hp. pose proof Hr as [t Ht].
  destruct (find_cases s A t k Ht) as [(y & m1 & m2 & -> & Hp')|(Q & l & r & _ & _ & _ & Hab)].
  - pose proof (present_parted s A k _ _ _ Hr Hp) as Hpt.
    by destruct (parted_present cmp A k _ _ _ _ _ _ (repr_NoDup s A Hr) Hpt Hp') as (-> & _).
  - by destruct (absent_or_present_excl cmp A k _ _ _ _ _ Hab Hp).
Qed.

Lemma find_absent s A k l1 l2 :
  repr s A -> absent cmp A k l1 l2 ->
  exists Q, find cmp s k = Ok (dir_of Q, zptr nil Q) /\ reprT s A (plug Q E) /\
    (forall u, nodes (plug Q u) = l1 ++ nodes u ++ l2).
Proof.
  intros [t Ht] Hab.
  destruct (find_cases s A t k Ht) as [(y & m1 & m2 & _ & Hp')|(Q & l & r & -> & Hplug & Hsp & Hab')].
  - by destruct (absent_or_present_excl cmp A k _ _ _ _ _ Hab Hp').
  - subst t. exists Q. split_and!; [done|done|].
    destruct Hab as (He & H1 & H2), Hab' as (He' & H1' & H2'). rewrite Forall_forall in H1, H2, H1', H2'.
    rewrite He in He'. apply (app_split_unique (keyed cmp A Gt k)) in He' as [-> ->]; try done.
    + intros z Hz Hz'. by pose proof (keyed_fun cmp A _ _ k z Hz' (H2 z Hz)).
    + intros z Hz Hz'. by pose proof (keyed_fun cmp A _ _ k z Hz' (H2' z Hz)).
Qed.

(** ** Insertion *)

Lemma insert_Ok s A Q e kv l1 l2 :
  reprT s A (plug Q E) -> (forall u, nodes (plug Q u) = l1 ++ nodes u ++ l2) ->
  vals A !! e = Some kv -> absent cmp A (fst kv) l1 l2 -> (alloc = true -> e ∈ heap s) ->
  exists s', insert s (zptr nil Q) (dir_of Q) e = Ok (s', e) /\ repr s' (set_elems A (l1 ++ e :: l2)).
Proof.
  intros Hr Hsp He Hab Hheap.
  assert (e ∉ elems A) as Hin by (by apply (absent_not_in cmp Hcmp A e kv l1 l2)).
  pose proof Hr as (Hw & Hn & Hs & Hd & Hsz & Hv & Hh). destruct (Hv e kv He) as ([Hle Hbe] & He0 & Hen).
  unfold insert.
  assert ((sz s =? 0)%Z = top Q) as ->.
  { rewrite Hsz, <- Hn. destruct Q as [|[[d x] u] Q]; [done|]. cbn [top plug].
    apply Z.eqb_neq. pose proof (plug_not_E Q (mk d u x E)) as Hne.
    destruct (plug Q (mk d u x E)) as [|l y r] eqn:Ep; [by destruct d; destruct Hne|].
    cbn [nodes]. rewrite app_length. cbn [length]. lia. }
  destruct (attach_Ok nil (budget (sz s)) (tr s) Q e) as (w & t' & -> & Hw' & Hnodes & Hk & Hp); try done.
  { pose proof (reprT_budget s A _ Hr) as Hb. pose proof (plug_height Q E) as Hplug. lia. }
  { intros Hz. apply Hin. rewrite <- Hn. apply elem_of_plug. by left. }
  bind. eexists. split; [done|]. exists t'. rewrite Hsp in Hnodes. cbn [nodes app] in Hnodes.
  unfold reprT. cbn [tr dat heap sz set_tr set_sz elems vals set_elems]. split_and!; try done.
  - apply absent_sides in Hab as (He' & H1 & H2). rewrite He' in Hs. by apply (sorted_insert cmp Hcmp _ _ _ _ kv).
  - rewrite Hsz. destruct Hab as (-> & _). rewrite !app_length. cbn [length]. lia.
  - intros z kz Hz. destruct (Hv z kz Hz) as ([Hlz Hbz] & ? & Hzn). split_and!; [|done|done]. split.
    + by apply Hk.
    + destruct (decide (z ∈ nodes t')) as [Hzt|Hzt].
      * destruct Hw' as (_ & _ & m & Hok). destruct (find_zip _ _ Hzt) as (Q' & a & b & ->).
        apply ok_unplug in Hok as (n & _ & Hok). destruct Hok as (-> & _). by eexists.
      * by rewrite Hp.
  - intros Ha z. rewrite elem_of_app, elem_of_cons. intros Hz.
    destruct (decide (z = e)) as [-> |Hne]; [auto|]. apply Hh; [done|].
    destruct Hab as (-> & _). rewrite elem_of_app. tauto.
Qed.

Lemma absent_set_val A k l1 l2 x kv : absent cmp A k l1 l2 -> x ∉ elems A -> absent cmp (set_val A x kv) k l1 l2.
Proof.
  intros (He & Ha & Hb) Hin. split; [done|]. rewrite Forall_forall in Ha, Hb. rewrite !Forall_forall.
  rewrite He in Hin. apply not_elem_of_app in Hin as [Hi1 Hi2].
  split; intros z Hz; [destruct (Ha z Hz) as (w & Hw & Hc)|destruct (Hb z Hz) as (w & Hw & Hc)];
    exists w; (split; [|done]); cbn; (rewrite lookup_insert_ne; [done|by intros ->]).
Qed.

Lemma insert_copy_Ok s A Q kv ans l1 l2 l r p b :
  reprT s A (plug Q E) -> (forall u, nodes (plug Q u) = l1 ++ nodes u ++ l2) ->
  unused A ans -> absent cmp A (fst kv) l1 l2 ->
  exists s', insert (take s ans kv l r p b) (zptr nil Q) (dir_of Q) ans = Ok (s', ans) /\
    repr s' (set_elems (set_val A ans kv) (l1 ++ ans :: l2)).
Proof.
  intros Hr Hsp Hu Hab. apply (insert_Ok _ (set_val A ans kv) Q ans kv); try done.
  - apply reprT_new; [done|done|]. intros z Hz. apply elem_of_union. by right.
  - cbn. by rewrite lookup_insert.
  - apply absent_set_val; [done|]. intros Hin. destruct Hu as (_ & _ & Hu).
    destruct (repr_dat s A ans) as [w Hw]; [by eexists|done|]. congruence.
  - intros _. cbn. apply elem_of_union. left. by apply elem_of_singleton.
Qed.

Lemma maybe_alloc_insert_Ok s A Q e ans kv l1 l2 p A' :
  reprT s A (plug Q E) -> (forall u, nodes (plug Q u) = l1 ++ nodes u ++ l2) ->
  vals A !! e = Some kv -> absent cmp A (fst kv) l1 l2 -> added c A l1 l2 e ans kv p A' ->
  exists s', maybe_alloc_insert alloc s (zptr nil Q) (dir_of Q) e ans = Ok (s', p) /\ repr s' A'.
Proof.
  intros Hr Hsp He Hab Hadd. unfold maybe_alloc_insert.
  destruct Hadd as [Hal|Hal Hu|Hal ->]; rewrite Hal.
  - apply (insert_Ok s A Q e kv); try done. by rewrite Hal.
  - pose proof Hu as (Hu0 & _). rewrite (proj2 (Nat.eqb_neq ans 0)) by done.
    assert (repr s A) as Hr' by (by eexists). rewrite (value_Ok s A e kv) by done. bind.
    destruct (repr_alive s A e kv Hr' He) as (Hae & _). destruct (alive_node _ _ Hae) as (l & r & q & b & Hl & Hrt & Hp & Hb).
    rewrite (rd_Ok _ _ _ Hl). bind. rewrite (rd_Ok _ _ _ Hrt). bind. rewrite (rd_Ok _ _ _ Hp). bind.
    rewrite (parity_Ok _ _ _ Hb). bind. by apply insert_copy_Ok.
  - rewrite Nat.eqb_refl. eexists. split; [done|]. by eexists.
Qed.

(** ** Removal *)

Lemma remove_Ok s A l1 x l2 :
  repr s A -> elems A = l1 ++ x :: l2 ->
  exists s', remove_fixup s x = Ok (s', x) /\ repr s' (set_elems A (l1 ++ l2)) /\ heap s' = heap s.
Proof.
  intros [t Hr] He. pose proof Hr as (Hw & Hn & Hs & Hd & Hsz & Hv & Hh).
  assert (NoDup (elems A)) as Hnd by (by apply (sorted_NoDup cmp Hcmp (vals A))).
  assert (x ∈ elems A) as Hin by (rewrite He, elem_of_app; right; left).
  destruct (sorted_dat _ _ _ _ Hs Hin) as [kx Hkx]. destruct (Hv x kx Hkx) as ([Hlx Hbx] & Hx0 & Hxn).
  destruct (unlink_Ok nil (budget (sz s)) (tr s) t x Hw) as (w & t' & m1 & m2 & Hrun & Hw' & Hn1 & Hn2 & Hk & Hp).
  { apply Nat.lt_le_incl, (reprT_budget s A). done. }
  { by rewrite Hn. }
  assert (l1 = m1 /\ l2 = m2) as [<- <-].
  { rewrite He in Hnd, Hn. apply (split_unique l1 l2 m1 m2 x); [done|]. by rewrite <- Hn, Hn1. }
  unfold remove_fixup. rewrite Hrun. bind. rewrite set_links_put by (by apply Hk). bind.
  eexists. split; [done|]. split; [|done]. exists t'.
  assert (x ∉ l1 ++ l2) as Hx.
  { rewrite He in Hnd. apply NoDup_app in Hnd as (_ & Hdis & [Hx2 _]%NoDup_cons).
    apply not_elem_of_app. split; [|done]. intros Hx. apply (Hdis x Hx). left. }
  change (Wavl (put_links (wl w) x 0 0 0) (<[x := false]> (wp w)) (wroot w)) with (put_node w x 0 0 0 false).
  unfold reprT. cbn [tr dat heap sz set_tr set_sz elems vals set_elems]. split_and!; try done.
  - apply (wavl_ok_outside nil [x] w); [done|apply outside_put| |].
    + intros Hx'%elem_of_list_singleton. by apply Hxn.
    + intros z ->%elem_of_list_singleton. by rewrite Hn2.
  - rewrite He in Hs. by apply (sorted_remove cmp _ _ x).
  - rewrite Hsz, He, !app_length. cbn [length]. lia.
  - intros z kz Hz. destruct (Hv z kz Hz) as ([Hlz Hbz] & ? & Hzn). split_and!; [|done|done].
    apply alive_put. destruct (decide (z = x)) as [-> |Hzx]; [by right|]. left. split; [by apply Hk|].
    destruct (decide (z ∈ nodes t')) as [Hzt|Hzt].
    + destruct Hw' as (_ & _ & m & Hok). destruct (find_zip _ _ Hzt) as (Q' & a & b & ->).
      apply ok_unplug in Hok as (n & _ & Hok). destruct Hok as (-> & _). by eexists.
    + rewrite Hp; [done|]. rewrite Hn1, elem_of_app, elem_of_cons. rewrite Hn2, elem_of_app in Hzt. tauto.
  - intros Ha z Hz. apply Hh; [done|]. rewrite He, elem_of_app, elem_of_cons. rewrite elem_of_app in Hz. tauto.
Qed.

Lemma give_back_Ok s A x kv :
  repr s A -> vals A !! x = Some kv -> x ∉ elems A -> x ∈ heap s ->
  exists s', give_back s x = Ok s' /\ repr s' (drop_val A x).
Proof.
  intros [t (Hw & Hn & Hs & Hd & Hsz & Hv & Hh)] Hx Hin Hhx.
  unfold give_back. rewrite bool_decide_eq_true_2 by done. eexists. split; [done|].
  destruct (Hv x kv Hx) as (_ & _ & Hxn).
  set (w := Wavl _ _ _).
  assert (outside [x] (tr s) w) as Hout.
  { split_and!; [apply frame_del| |done]. intros z Hz. cbn. rewrite lookup_delete_ne; [done|]. intros ->. apply Hz. left. }
  exists t. unfold reprT. cbn [tr dat heap sz elems vals drop_val]. split_and!; try done.
  - apply (wavl_ok_outside nil [x] (tr s)); [done|done| |].
    + intros Hx'%elem_of_list_singleton. by apply Hxn.
    + intros z ->%elem_of_list_singleton. by rewrite Hn.
  - apply (sorted_same cmp Hcmp (vals A)); [done|]. intros z Hz. rewrite lookup_delete_ne; [done|]. by intros ->.
  - by rewrite Hd.
  - intros z kz Hz. apply lookup_delete_Some in Hz as [Hne Hz]. destruct (Hv z kz Hz) as (? & ? & ?).
    split_and!; [|done|done]. apply (alive_outside [x] (tr s)); [done| |done]. by intros ->%elem_of_list_singleton.
  - intros Ha z Hz. apply elem_of_difference. split; [by apply Hh|]. intros ->%elem_of_singleton. done.
Qed.

(** ** Copies of whole structs *)

Lemma copy_out_Ok s A t dst src kv kd :
  reprT s A t -> dst <> src -> dst ∉ elems A -> vals A !! dst = Some kd -> vals A !! src = Some kv ->
  exists l r p b, node_is (tr s) src l r p b /\
    let s' := set_dat (set_tr s (put_node (tr s) dst l r p b)) dst kv in
    copy_struct s dst src = Ok s' /\ reprT s' (set_val A dst kv) t.
Proof.
  intros Hr Hne Hin Hdst Hsrc. pose proof (ex_intro _ t Hr : repr s A) as Hr0.
  destruct (repr_alive s A _ _ Hr0 Hsrc) as (Hl & _). destruct (alive_node _ _ Hl) as (l & r & p & b & Hnode).
  destruct (repr_alive s A _ _ Hr0 Hdst) as (Hld & Hd0 & Hdn).
  exists l, r, p, b. split; [done|]. cbv zeta. split.
  - unfold copy_struct. rewrite (proj2 (Nat.eqb_neq dst src)) by done.
    rewrite (value_Ok s A src kv), (value_Ok s A dst kd) by done. bind.
    by rewrite (copy_node_Ok _ _ _ l r p b).
  - apply reprT_set_dat; [by apply reprT_put| |done|done|done].
    apply alive_put. by right.
Qed.

Lemma copy_in_Ok s A t x e kv old l r p b :
  reprT s A t -> x <> e -> vals A !! e = Some kv -> vals A !! x = Some old -> cmp (fst old) (fst kv) = Eq ->
  node_is (tr s) x l r p b -> node_is (tr s) e l r p b ->
  copy_struct s x e = Ok (set_dat s x kv) /\ reprT (set_dat s x kv) (set_val A x kv) t.
Proof.
  intros Hr Hne He Hx Heq Hnx Hnode. pose proof (ex_intro _ t Hr : repr s A) as Hr0.
  destruct (repr_alive s A _ _ Hr0 Hx) as (Hlx & Hx0 & Hxn). split.
  - unfold copy_struct. rewrite (proj2 (Nat.eqb_neq x e)) by done.
    rewrite (value_Ok s A e kv), (value_Ok s A x old) by done. bind.
    rewrite (copy_node_Ok _ _ _ l r p b) by done. bind. rewrite put_node_same by done. by destruct s.
  - apply reprT_set_dat; try done. intros _. by exists old.
Qed.

Lemma overwrite_Ok s A x e kv old :
  repr s A -> e ∉ elems A -> x ∈ elems A -> vals A !! e = Some kv -> vals A !! x = Some old ->
  cmp (fst old) (fst kv) = Eq ->
  exists s', overwrite s x e = Ok s' /\ repr s' (set_val A x kv).
Proof.
  intros Hr0 Hin Hxin He Hx Heq. pose proof Hr0 as [t Hr].
  destruct (repr_alive s A _ _ Hr0 Hx) as (Hlx & Hx0 & Hxn). destruct (repr_alive s A _ _ Hr0 He) as (Hle & He0 & Hen).
  destruct (alive_node _ _ Hlx) as (l & r & p & b & Hnx).
  assert (x <> e) as Hne by (by intros ->).
  unfold overwrite. rewrite (copy_node_Ok _ _ _ l r p b) by done. bind.
  destruct (copy_in_Ok (set_tr s (put_node (tr s) e l r p b)) A t x e kv old l r p b) as [-> Hr']; try done.
  { by apply reprT_put. } { by apply node_put_ne. } { apply node_put. }
  eexists. split; [done|]. by exists t.
Qed.

(** ** Walking *)

Lemma begin_Ok s A d : repr s A -> rom_begin s d = Ok (hd 0 (ord d (elems A))).
Proof.
  intros [t Ht]. destruct (reprT_rep s A t Ht) as (Hroot & Hr & Hnd & _). destruct Ht as (Hw & Hn & Hs & Hd & Hsz & Hv & Hh).
  unfold rom_begin. rewrite Hroot.
  assert (t = E \/ t <> E) as [-> |Hne] by (destruct t; auto).
  - rewrite <- Hn. by destruct d.
  - rewrite (ptr_eqb nil _ _ _ Hr). destruct (isE_spec t) as [|_]; [done|].
    destruct (edge_Ok nil _ (negb d) t nil Hr Hnd Hne) as (l & x & Ho & ->). bind.
    rewrite Hn, ord_negb in Ho. apply (f_equal (@rev nat)) in Ho. rewrite rev_involutive, rev_app_distr in Ho.
    rewrite Ho. cbn [rev app hd].
    assert (x ∈ elems A) as Hx. { apply (elem_of_ord d). rewrite Ho. left. }
    destruct (sorted_dat _ _ _ _ Hs Hx) as [kx Hkx]. destruct (Hv x kx Hkx) as (_ & _ & Hxn).
    by rewrite (proj2 (Nat.eqb_neq x nil)).
Qed.

Lemma tnext_Ok s A d n l1 l2 :
  repr s A -> ord d (elems A) = l1 ++ n :: l2 ->
  exists q, rnext s d n = Ok q /\ (if q =? nil then 0 else q) = hd 0 l2.
Proof.
  intros [t Ht] Ho. destruct (reprT_rep s A t Ht) as (Hroot & Hr & Hnd & _).
  destruct Ht as (Hw & Hn & Hs & Hd & Hsz & Hv & Hh).
  assert (forall y, y ∈ l1 ++ n :: l2 -> y <> 0 /\ y <> nil) as Hne.
  { intros y Hy. rewrite <- Ho in Hy. apply elem_of_ord in Hy.
    destruct (sorted_dat _ _ _ _ Hs Hy) as [ky Hky]. by destruct (Hv y ky Hky) as (_ & ? & ?). }
  unfold rnext. destruct (Hne n) as [Hn0 Hnn]; [rewrite elem_of_app; right; left|].
  rewrite (proj2 (Nat.eqb_neq n 0)), (proj2 (Nat.eqb_neq n nil)) by done. cbn [orb].
  rewrite Hroot. rewrite (tree_next_Ok nil _ d t n l1 l2); [|done|done|by rewrite Hn].
  eexists. split; [done|]. destruct l2 as [|y l2]; [done|]. change (default nil (head (y :: l2))) with y. cbn [hd].
  destruct (Hne y) as [_ Hyn]; [rewrite elem_of_app; right; right; left|].
  by rewrite (proj2 (Nat.eqb_neq y nil)).
Qed.

Lemma next_Ok s A d n l1 l2 :
  repr s A -> ord d (elems A) = l1 ++ n :: l2 -> rom_next s d n = Ok (hd 0 l2).
Proof.
  intros Hr Ho. unfold rom_next.
  assert (n ∈ elems A) as Hin. { apply (elem_of_ord d). rewrite Ho, elem_of_app. right. left. }
  destruct (repr_dat s A n Hr Hin) as [kn Hkn]. destruct (repr_alive s A n kn Hr Hkn) as (_ & Hn0 & _).
  rewrite (proj2 (Nat.eqb_neq n 0)) by done.
  destruct (tnext_Ok s A d n l1 l2 Hr Ho) as (q & -> & Hq). bind. by rewrite Hq.
Qed.

Lemma walk_Ok s A d ps l1 fuel :
  repr s A -> ord d (elems A) = l1 ++ map fst ps -> Forall (fun p => vals A !! fst p = Some (snd p)) ps ->
  length ps < fuel -> walk fuel s d (hd 0 (map fst ps)) = Ok ps.
Proof.
  intros Hr. revert ps l1. induction fuel as [|f IH]; intros ps l1 Ho HF Hlen; [lia|].
  destruct ps as [|[x kv] ps]; [done|]. cbn [map fst hd walk].
  apply Forall_cons in HF as [Hx HF]. cbn [fst snd] in Hx.
  destruct (repr_alive s A x kv Hr Hx) as (_ & Hx0 & _). rewrite (proj2 (Nat.eqb_neq x 0)) by done.
  rewrite (value_Ok s A x kv) by done. bind. cbn [map fst] in Ho.
  rewrite (next_Ok s A d x l1 (map fst ps)) by done. bind.
  rewrite (IH ps (l1 ++ [x])); [done| |done|cbn in Hlen; lia]. by rewrite <- app_assoc.
Qed.

Lemma iter_Ok s A d ps :
  repr s A -> map fst ps = ord d (elems A) -> Forall (fun p => vals A !! fst p = Some (snd p)) ps ->
  rom_iter s d = Ok ps.
Proof.
  intros Hr Hps HF. unfold rom_iter. rewrite (begin_Ok s A) by done. bind. rewrite <- Hps.
  apply (walk_Ok s A d ps []); try done.
  pose proof (repr_length s A Hr) as Hlen. apply (f_equal length) in Hps. rewrite map_length, ord_length in Hps. lia.
Qed.

Lemma validate_Ok s A : repr s A -> rom_validate cmp s = Ok true.
Proof.
  intros Hr0. pose proof (repr_length s A Hr0) as Hlen.
  destruct Hr0 as [t Ht]. destruct (reprT_rep s A t Ht) as (Hroot & Hr & Hnd & _).
  destruct Ht as (Hw & Hn & Hs & Hd & Hsz & Hv & Hh).
  unfold rom_validate. destruct Hw as (_ & Hpar & _). rewrite (parity_Ok _ _ _ Hpar). bind. cbn [negb]. rewrite Hroot.
  rewrite (subtrees_valid_Ok nil cmp Hcmp (dat s) _ _ nil t); [bind; cbn [negb]|done| | | |by left|by left].
  - rewrite (recursive_size_Ok nil _ nil) by (rewrite ?Hn; (done || lia)). bind.
    rewrite Hn, Hsz. rewrite Z.eqb_refl. cbn [negb].
    by rewrite storing_parent_Ok by (rewrite ?Hn; (done || lia)).
  - by rewrite Hn, Hd.
  - rewrite Hn. lia.
  - intros z [-> |Hz]%elem_of_cons; [done|]. rewrite Hn in Hz. destruct (sorted_dat _ _ _ _ Hs Hz) as [kz Hkz].
    destruct (Hv z kz Hkz) as (_ & Hz0 & _). by apply Nat.eqb_neq.
Qed.

(** ** Ranges *)

(** In a nonempty map a search ends at an element next to the key. *)
Lemma find_parted s A k :
  repr s A -> elems A <> [] ->
  exists a x b kv, find cmp s k = Ok (Some (cmp k (fst kv)), x) /\ parted cmp A k a x b /\ vals A !! x = Some kv.
Proof.
  intros Hr Hne. pose proof Hr as [t Ht].
  destruct (find_cases s A t k Ht) as [(x & l1 & l2 & -> & Hp)|(Q & l & r & -> & Hplug & Hsp & Hab)].
  - pose proof Hp as (_ & kv & Hkv & Hk). exists l1, x, l2, kv. rewrite Hk. split_and!; [done| |done].
    by apply (present_parted s).
  - destruct Q as [|[[d x] u] Q].
    { subst t. destruct Ht as (_ & Hn & _). by cbn in Hn. }
    destruct (plug_split Q) as (l' & r' & Hsp').
    assert (forall m, nodes (plug ((d, x, u) :: Q) m) =
      (if d then l' ++ nodes u ++ [x] else l') ++ nodes m ++ (if d then r' else x :: nodes u ++ r')) as Hsp2.
    { intros m. cbn [plug]. rewrite Hsp'. destruct d; cbn [mk nodes]; by rewrite <- ?app_assoc. }
    assert (l = (if d then l' ++ nodes u ++ [x] else l') /\ r = (if d then r' else x :: nodes u ++ r')) as [Hl Hrr].
    { set (w := fresh (l ++ r)).
      assert (w ∉ l ++ r) as Hw by apply infinite_is_fresh.
      apply (split_unique _ _ _ _ w).
      - pose proof (repr_NoDup s A Hr) as Hnd. destruct Hab as (He & _). rewrite He in Hnd.
        rewrite <- Permutation_middle. by constructor.
      - specialize (Hsp (T E w E)). rewrite Hsp2 in Hsp. by symmetry. }
    destruct Hab as (He & Hl1 & Hl2). rewrite Forall_forall in Hl1, Hl2. cbn [dir_of zptr].
    destruct d; subst l r.
    + assert (side cmp (vals A) true k x) as (kv & Hkv & Hc).
      { apply Hl1. rewrite !elem_of_app. right. right. left. }
      exists (l' ++ nodes u), x, r', kv. cbn in Hc. rewrite Hc. split_and!; [done| |done].
      split_and!; [by rewrite He, <- !app_assoc| |done]. intros z Hz. apply Hl1. rewrite app_assoc, elem_of_app. by left.
    + assert (side cmp (vals A) false k x) as (kv & Hkv & Hc).
      { apply Hl2. left. }
      exists l', x, (nodes u ++ r'), kv. cbn in Hc. rewrite Hc. split_and!; [done| |done].
      split_and!; [done|done|]. intros z Hz. apply Hl2. by right.
Qed.

Lemma range_Ok s A d a b X Y :
  repr s A ->
  first (fun z => keyed cmp A (dirc (negb d)) a z \/ keyed cmp A Eq a z) (ord d (elems A)) X ->
  first (keyed cmp A (dirc (negb d)) b) (ord d (elems A)) Y ->
  rom_range cmp s d a b = Ok (X, Y).
Proof.
  intros Hr HX HY. unfold rom_range. rewrite (repr_sz s A) by done.
  destruct (Z.eqb_spec (Z.of_nat (length (elems A))) 0) as [He|Hne].
  { assert (elems A = []) as Hnil by (destruct (elems A); [done|cbn in He; lia]).
    rewrite Hnil in HX, HY. assert (forall P, first P [] X -> X = 0) as HX' by (by inversion 1).
    assert (forall P, first P [] Y -> Y = 0) as HY' by (by inversion 1).
    destruct d; cbn in HX, HY; by rewrite (HX' _ HX), (HY' _ HY). }
  assert (elems A <> []) as Hne' by (intros He; by rewrite He in Hne).
  destruct (find_parted s A a Hr Hne') as (ta & x & tb & kx & -> & Hpt & Hx). bind.
  destruct (parted_ord cmp A d a _ x _ Hpt) as (P & Q & Ho & HP & HQ).
  assert (exists x', (if last_is (Some (cmp a (fst kx))) (if d then Gt else Lt)
    then rnext s d x else Ok x) = Ok x' /\ (if x' =? nil then 0 else x') = X) as (x' & -> & HX').
  { assert (forall z, z ∈ P -> ~ (keyed cmp A (dirc (negb d)) a z \/ keyed cmp A Eq a z)) as HnP.
    { intros z Hz Hk. specialize (HP z Hz). destruct Hk as [Hk|Hk]; pose proof (keyed_fun cmp A _ _ _ _ Hk HP); by destruct d. }
    rewrite Ho in HX. apply first_skip in HX; [|done].
    destruct (last_is (Some (cmp a (fst kx))) (if d then Gt else Lt)) eqn:E.
    - destruct (tnext_Ok s A d x P Q Hr Ho) as (q & -> & Hq). exists q. split; [done|]. rewrite Hq.
      symmetry. apply (first_hd (fun z => keyed cmp A (dirc (negb d)) a z \/ keyed cmp A Eq a z)).
      + intros z Hz. left. by apply HQ.
      + change (x :: Q) with ([x] ++ Q) in HX. apply first_skip in HX; [done|].
        intros z ->%elem_of_list_singleton Hk.
        destruct Hk as [(w & Hw & Hcw)|(w & Hw & Hcw)]; assert (w = kx) as -> by congruence;
          rewrite Hcw in E; by destruct d.
    - exists x. split; [done|].
      destruct (repr_alive s A x kx Hr Hx) as (_ & _ & Hxn). rewrite (proj2 (Nat.eqb_neq x nil)) by done.
      inversion HX as [| |? ? ? Hno]; subst; [done|]. exfalso. apply Hno.
      destruct (cmp a (fst kx)) eqn:Ec; destruct d; try done; try (by right; exists kx); by left; exists kx. }
  bind.
  destruct (find_parted s A b Hr Hne') as (ta2 & y & tb2 & ky & -> & Hpt2 & Hy). bind.
  destruct (parted_ord cmp A d b _ y _ Hpt2) as (P2 & Q2 & Ho2 & HP2 & HQ2).
  assert (exists y', (if last_is (Some (cmp b (fst ky))) (if negb d then Gt else Lt)
    then Ok y else rnext s d y) = Ok y' /\ (if y' =? nil then 0 else y') = Y) as (y' & -> & HY').
  { assert (forall z, z ∈ P2 -> ~ keyed cmp A (dirc (negb d)) b z) as HnP.
    { intros z Hz Hk. specialize (HP2 z Hz). pose proof (keyed_fun cmp A _ _ _ _ Hk HP2). by destruct d. }
    rewrite Ho2 in HY. apply first_skip in HY; [|done].
    destruct (last_is (Some (cmp b (fst ky))) (if negb d then Gt else Lt)) eqn:E.
    - exists y. split; [done|].
      destruct (repr_alive s A y ky Hr Hy) as (_ & _ & Hyn). rewrite (proj2 (Nat.eqb_neq y nil)) by done.
      inversion HY as [| |? ? ? Hno]; subst; [done|]. exfalso. apply Hno.
      destruct (cmp b (fst ky)) eqn:Ec; destruct d; try done; by exists ky.
    - destruct (tnext_Ok s A d y P2 Q2 Hr Ho2) as (q & -> & Hq). exists q. split; [done|]. rewrite Hq.
      symmetry. apply (first_hd (keyed cmp A (dirc (negb d)) b)).
      + intros z Hz. by apply HQ2.
      + change (y :: Q2) with ([y] ++ Q2) in HY. apply first_skip in HY; [done|].
        intros z ->%elem_of_list_singleton (w & Hw & Hcw). assert (w = ky) as -> by congruence.
        rewrite Hcw in E. by destruct d. }
  bind. by rewrite HX', HY'.
Qed.

(** ** Clearing *)

Lemma clear_Ok s A fn fuel :
  repr s A -> length (elems A) < fuel ->
  exists s' l, clear_loop alloc fuel s fn = Ok (s', OK, l) /\
    repr s' (View [] (if alloc then foldr delete (vals A) (elems A) else vals A)) /\
    NoDup l /\ (forall x kv, (x, kv) ∈ l <-> fn = true /\ x ∈ elems A /\ vals A !! x = Some kv).
Proof.
  revert s A. induction fuel as [|f IH]; intros s A Hr Hlen; [lia|]. cbn [clear_loop].
  unfold rom_is_empty. rewrite (repr_sz s A) by done.
  destruct (Z.eqb_spec (Z.of_nat (length (elems A))) 0) as [He|Hne].
  - assert (elems A = []) as Hne by (destruct (elems A); [done|cbn in He; lia]). exists s, []. split_and!; [done| |constructor|].
    + rewrite Hne. cbn. destruct A as [l v]. cbn in Hne. subst l. by destruct alloc.
    + intros x kv. rewrite Hne, elem_of_nil, elem_of_nil. tauto.
  - pose proof Hr as [t Ht]. destruct (reprT_rep s A t Ht) as (Hroot & Hrep & Hndt & _).
    assert (exists a x b, t = T a x b) as (a & x & b & ->).
    { destruct t as [|a x b]; [|by eauto]. destruct Ht as (_ & Hn & _). by rewrite <- Hn in Hne. }
    cbn [ptr] in Hroot. rewrite Hroot.
    assert (elems A = nodes a ++ x :: nodes b) as Hel by (by destruct Ht as (_ & <- & _)).
    assert (x ∈ elems A) as Hin by (rewrite Hel, elem_of_app; right; left).
    assert (forall u, nodes u ⊆ elems A -> ptr nil u <> 0) as Hpn.
    { intros u Hu. destruct u as [|ul ux ur]; [done|]. cbn [ptr].
      assert (ux ∈ elems A) as Hux. { apply Hu. cbn. rewrite elem_of_app. right. left. }
      destruct (repr_dat s A ux Hr Hux) as [ku Hku]. by destruct (repr_alive s A ux ku Hr Hku) as (_ & ? & _). }
    destruct Hrep as (Hlf & Hrt & _). rewrite (child_Ok _ false _ _ Hlf). bind. rewrite (child_Ok _ true _ _ Hrt). bind.
    rewrite (proj2 (Nat.eqb_neq (ptr nil a) 0)), (proj2 (Nat.eqb_neq (ptr nil b) 0)); cbn [orb];
      [|by apply Hpn; intros z Hz; rewrite Hel, elem_of_app, elem_of_cons; auto..].
    destruct (repr_dat s A x Hr Hin) as [kv Hkv].
    destruct (remove_Ok s A _ _ _ Hr Hel) as (s1 & -> & Hr1 & Hh1). bind.
    assert ((if fn then v ← value (dat s1) x; Ok [(x, v)] else Ok []) = Ok (if fn then [(x, kv)] else [])) as ->.
    { destruct fn; [|done]. by rewrite (value_Ok s1 _ x kv Hr1). }
    bind. pose proof (repr_NoDup s A Hr) as Hnd. rewrite Hel in Hnd.
    apply NoDup_app in Hnd as (Hnda & Hdis & [Hxb Hndb]%NoDup_cons).
    assert (x ∉ nodes a ++ nodes b) as Hxab.
    { apply not_elem_of_app. split; [|done]. intros Hz. apply (Hdis x Hz). left. }
    set (A1 := set_elems A (nodes a ++ nodes b)) in *.
    set (A2 := if alloc then drop_val A1 x else A1).
    assert (exists s2, (if alloc then give_back s1 x else Ok s1) = Ok s2 /\ repr s2 A2) as (s2 & -> & Hr2).
    { unfold A2. destruct alloc eqn:Hal; [|by exists s1].
      apply (give_back_Ok s1 A1 x kv); try done. rewrite Hh1. by apply (repr_heap s A). }
    bind. assert (elems A2 = nodes a ++ nodes b) as He2 by (unfold A2; by destruct alloc).
    destruct (IH s2 A2 Hr2) as (s3 & l & -> & Hr3 & Hndl & Hl).
    { rewrite He2. rewrite Hel in Hlen. rewrite app_length in *. cbn [length] in Hlen. lia. }
    bind. eexists _, _. split; [done|].
    assert (forall z, z ∈ nodes a ++ nodes b -> vals A2 !! z = vals A !! z) as Hsame.
    { intros z Hz. unfold A2. destruct alloc; [|done]. cbn. rewrite lookup_delete_ne; [done|]. by intros ->. }
    split_and!.
    + assert ((if alloc then foldr delete (vals A2) (elems A2) else vals A2) =
              (if alloc then foldr delete (vals A) (elems A) else vals A)) as <-; [|done].
      rewrite He2, Hel. unfold A2. destruct alloc; [|done]. cbn [vals drop_val A1 set_elems].
      apply map_eq. intros z. rewrite !lookup_foldr_delete.
      destruct (decide (z = x)) as [-> |Hzx].
      * rewrite (decide_True (P := x ∈ nodes a ++ x :: nodes b)) by (rewrite elem_of_app; right; left).
        rewrite decide_False by done. by rewrite lookup_delete.
      * rewrite lookup_delete_ne by done.
        destruct (decide (z ∈ nodes a ++ nodes b)) as [Hz|Hz].
        -- rewrite decide_True; [done|]. rewrite elem_of_app, elem_of_cons. rewrite elem_of_app in Hz. tauto.
        -- rewrite decide_False; [done|]. rewrite elem_of_app, elem_of_cons. rewrite elem_of_app in Hz. tauto.
    + destruct fn; [|done]. cbn [app]. constructor; [|done]. intros Hz. apply Hl in Hz as (_ & Hz & _). by rewrite He2 in Hz.
    + intros z kz. rewrite elem_of_app, Hl, He2, Hel. split.
      * intros [Hz|(-> & Hz & Hkz)].
        -- destruct fn; [|by apply elem_of_nil in Hz]. apply elem_of_list_singleton in Hz. simplify_eq.
           split_and!; [done| |done]. rewrite elem_of_app. right. left.
        -- rewrite Hsame in Hkz by done. split_and!; [done| |done].
           rewrite elem_of_app, elem_of_cons. rewrite elem_of_app in Hz. tauto.
      * intros (-> & Hz & Hkz). destruct (decide (z = x)) as [-> |Hzx].
        -- left. apply elem_of_list_singleton. congruence.
        -- assert (z ∈ nodes a ++ nodes b) as Hz'.
           { rewrite elem_of_app, elem_of_cons in Hz. rewrite elem_of_app. tauto. }
           right. rewrite Hsame by done. done.
Qed.
End proofs.
