(** The splay map refines the ordered map specification. *)
From Coq Require Import Sorted.
From stdpp Require Import base numbers option gmap fin_maps list.
From Verif Require Import Common LinkHeap PathLemmas OrderSpec TreeModel TreeProofs MapOps MapSpec MapProofs OmModel
  CostModel CostErase SplayCost OmCostModel OmCostErase.

Local Ltac bind := cbn [mbind outcome_bind obind cbind still gratis hopping].
(** The sum of two budgets that have been used, and any budget above it. *)
Local Ltac paid := eapply spent_end; [eassumption || (eapply spent_trans; eassumption)|cbn; lia|lia].

(** ** Links of one node *)

Lemma frame_put h e l r p : frame [e] h (put_links h e l r p).
Proof.
  intros z Hz. apply not_elem_of_cons in Hz as [Hz _].
  unfold put_links. cbn. by rewrite !lookup_insert_ne by done.
Qed.

Lemma live_put h e l r p z : live h z \/ z = e -> live (put_links h e l r p) z.
Proof.
  unfold live, put_links. cbn. intros Hz. destruct (decide (z = e)) as [-> |Hne].
  - rewrite !lookup_insert. by split_and!; eexists.
  - rewrite !lookup_insert_ne by done. by destruct Hz.
Qed.

Lemma frame_del h e : frame [e] h (del_links h e).
Proof.
  intros z Hz. apply not_elem_of_cons in Hz as [Hz _].
  unfold del_links. cbn. by rewrite !lookup_delete_ne by done.
Qed.

Lemma set_links_put h e q : live h e -> set_links h e q = Ok (put_links h e q q q).
Proof. intros H. rewrite set_links_Ok by done. done. Qed.

Lemma put_same h e l r p :
  lf h !! e = Some l -> rt h !! e = Some r -> pa h !! e = Some p -> put_links h e l r p = h.
Proof.
  intros Hl Hr Hp. unfold put_links. rewrite (insert_id _ _ _ Hl), (insert_id _ _ _ Hr), (insert_id _ _ _ Hp).
  by destruct h.
Qed.

Lemma live_links h e : live h e -> exists l r p, lf h !! e = Some l /\ rt h !! e = Some r /\ pa h !! e = Some p.
Proof. intros ([l ?] & [r ?] & [p ?]). by exists l, r, p. Qed.

Lemma copy_links_Ok h dst src l r p :
  lf h !! src = Some l -> rt h !! src = Some r -> pa h !! src = Some p ->
  copy_links h dst src = Ok (put_links h dst l r p).
Proof. intros Hl Hr Hp. unfold copy_links. rewrite (rd_Ok _ _ _ Hl). bind. rewrite (rd_Ok _ _ _ Hr). bind. by rewrite (rd_Ok _ _ _ Hp). Qed.

Section proofs.
Context {K V : Type} (cmp : K -> K -> comparison) (Hcmp : total_preorder cmp).
Context (c : contract) (Hme : macro_err c = true).
Notation alloc := (allocates c).
(** A bound on the number of elements, for the budgets. *)
Context (n : nat).
Implicit Types (s : om K V) (A : view K V).

Definition reprT s A (t : tree) : Prop :=
  rep nil (lk s) nil t /\ root s = ptr nil t /\ nodes t = elems A /\ sorted cmp (vals A) (elems A) /\
  dat s = vals A /\ sz s = Z.of_nat (length (elems A)) /\ live (lk s) nil /\
  (forall x kv, vals A !! x = Some kv -> live (lk s) x /\ x <> 0 /\ x <> nil) /\
  (alloc = true -> forall x, x ∈ elems A -> x ∈ heap s).
Definition repr s A : Prop := exists t, reprT s A t.

Lemma reprT_init : reprT om_init start E.
Proof.
  unfold reprT, start. cbn. split_and!; try done.
  - split; constructor.
  - intros _ x Hx. by apply elem_of_nil in Hx.
Qed.
Lemma repr_init : repr om_init start.
Proof. exists E. apply reprT_init. Qed.

Lemma repr_sorted s A : repr s A -> sorted cmp (vals A) (elems A).
Proof. intros [t (_ & _ & _ & ? & _)]. done. Qed.
Lemma repr_NoDup s A : repr s A -> NoDup (elems A).
Proof. intros H. apply repr_sorted in H. by apply (sorted_NoDup cmp Hcmp (vals A)). Qed.
Lemma repr_vals s A : repr s A -> dat s = vals A.
Proof. intros [t (_ & _ & _ & _ & ? & _)]. done. Qed.
Lemma repr_dat s A x : repr s A -> x ∈ elems A -> exists kv, vals A !! x = Some kv.
Proof. intros H. apply repr_sorted in H. by apply (sorted_dat cmp). Qed.
Lemma repr_live s A x kv : repr s A -> vals A !! x = Some kv -> live (lk s) x /\ x <> 0 /\ x <> nil.
Proof. intros [t (_ & _ & _ & _ & _ & _ & _ & H & _)]. apply H. Qed.

Lemma value_Ok s A x kv : repr s A -> vals A !! x = Some kv -> value (dat s) x = Ok kv.
Proof. intros Hr Hx. rewrite (repr_vals s A Hr). unfold value. by rewrite Hx. Qed.

Lemma repr_nil_fresh s A : repr s A -> vals A !! nil = None.
Proof.
  intros H. destruct (vals A !! nil) eqn:E; [|done]. apply (repr_live s) in E as (_ & _ & ?); done.
Qed.

(** Emptiness. *)
Lemma repr_empty s A t : reprT s A t -> empty s = bool_decide (elems A = []).
Proof.
  intros (Hr & Hroot & Hn & Hs & Hd & Hsz & _ & Hl & _). unfold empty. rewrite Hsz, Hroot, <- Hn.
  destruct t as [|l x r]; [done|].
  rewrite bool_decide_eq_false_2 by (cbn; by destruct (nodes l)).
  assert (x ∈ elems A) as Hx by (rewrite <- Hn; apply (elem_of_mk true l x r); by left).
  destruct (sorted_dat _ _ _ _ Hs Hx) as [kv Hkv]. destruct (Hl x kv Hkv) as (_ & H0 & H1).
  cbn [ptr]. apply orb_false_iff. split; [apply orb_false_iff; split|].
  - apply Z.eqb_neq. cbn [nodes]. rewrite app_length. cbn [length]. lia.
  - by apply Nat.eqb_neq.
  - by apply Nat.eqb_neq.
Qed.

(** Changing links of nodes outside the tree, or data that the tree does not
    depend on. *)
Lemma reprT_links s A t X h :
  reprT s A t -> frame X (lk s) h -> nil ∉ X -> (forall z, z ∈ X -> z ∉ elems A) ->
  (forall z, live (lk s) z -> live h z) -> reprT (set_lk s h) A t.
Proof.
  intros (Hr & Hroot & Hn & Hs & Hd & Hsz & Hl & Hv & Hh) Hf HX Hdis Hlive.
  unfold reprT. cbn. split_and!; try done.
  - apply (rep_frame _ X (lk s)); [done| |done]. intros z Hz Hz'. rewrite Hn in Hz. by apply (Hdis z).
  - by apply Hlive.
  - intros x kv Hx. destruct (Hv x kv Hx) as (? & ? & ?). auto.
Qed.

Lemma reprT_put s A t e l r p :
  reprT s A t -> e ∉ elems A -> e <> nil -> reprT (set_lk s (put_links (lk s) e l r p)) A t.
Proof.
  intros H He Hn. apply (reprT_links s A t [e]); [done|apply frame_put| | |].
  - intros Hx%elem_of_list_singleton. by apply Hn.
  - by intros z ->%elem_of_list_singleton.
  - intros z Hz. apply live_put. by left.
Qed.

Lemma reprT_set_dat s A t x kv :
  reprT s A t -> live (lk s) x -> x <> 0 -> x <> nil ->
  (x ∈ elems A -> exists old, vals A !! x = Some old /\ cmp (fst old) (fst kv) = Eq) ->
  reprT (set_dat s x kv) (set_val A x kv) t.
Proof.
  intros (Hr & Hroot & Hn & Hs & Hd & Hsz & Hl & Hv & Hh) Hlx H0 H1 Hold.
  unfold reprT. cbn. split_and!; try done.
  - apply (sorted_key cmp Hcmp (vals A)); [done|]. intros z Hz.
    destruct (decide (z = x)) as [-> |Hne].
    + destruct (Hold Hz) as (old & Ho & He). exists old, kv. by rewrite lookup_insert.
    + destruct (sorted_dat _ _ _ _ Hs Hz) as [a Ha]. exists a, a. rewrite lookup_insert_ne by done.
      split_and!; [done..|by apply cmp_refl].
  - by rewrite Hd.
  - intros z kv' Hz. destruct (decide (z = x)) as [-> |Hne]; [done|].
    rewrite lookup_insert_ne in Hz by done. by apply (Hv z kv').
Qed.

(** A new element, made by the user or by the allocator. *)
Lemma reprT_new s A t e kv l r p (H : gset nat) :
  reprT s A t -> unused A e -> (forall z, z ∈ heap s -> z ∈ H) ->
  reprT (Om (put_links (lk s) e l r p) (<[e := kv]> (dat s)) H (root s) (sz s)) (set_val A e kv) t.
Proof.
  intros (Hr & Hroot & Hn & Hs & Hd & Hsz & Hl & Hv & Hh) (H0 & H1 & Hu) HH.
  assert (e ∉ elems A) as Hin.
  { intros Hin. destruct (sorted_dat _ _ _ _ Hs Hin) as [a Ha]. congruence. }
  unfold reprT. cbn. split_and!; try done.
  - apply (rep_frame _ [e] (lk s)); [apply frame_put| |done].
    intros z Hz ->%elem_of_list_singleton. by rewrite Hn in Hz.
  - apply (sorted_same cmp Hcmp (vals A)); [done|]. intros z Hz. rewrite lookup_insert_ne; [done|]. by intros ->.
  - by rewrite Hd.
  - apply live_put. by left.
  - intros z kv' Hz. destruct (decide (z = e)) as [-> |Hne].
    + split_and!; [apply live_put; by right|done|done].
    + rewrite lookup_insert_ne in Hz by done. destruct (Hv z kv' Hz) as (? & ? & ?).
      split_and!; [apply live_put; by left|done|done].
  - intros Ha z Hz. apply HH. by apply Hh.
Qed.

(** ** Splaying *)

Lemma splay_s_Ok s A t p k :
  rep nil (lk s) p t -> t <> E -> sorted cmp (dat s) (nodes t) -> live (lk s) nil ->
  exists h a x b kv i,
    splay_s_c cmp s (ptr nil t) k = Ok ((set_root (set_lk s h) x, x), Work i 0) /\
    falls nil (keyc cmp (dat s) k) t i a x b /\ rep nil h nil (T a x b) /\
    nodes (T a x b) = nodes t /\ frame (nil :: nodes t) (lk s) h /\ live h nil /\ dat s !! x = Some kv /\
    (forall z, z ∈ nodes a -> side cmp (dat s) true k z) /\ (forall z, z ∈ nodes b -> side cmp (dat s) false k z).
Proof.
  intros Hr Ht Hs Hl.
  destruct (splay_c_Ok nil cmp Hcmp (dat s) (lk s) p t k Hr Ht Hs Hl) as (h & a & x & b & kv & i & Hrun & Hrest).
  unfold splay_s_c. rewrite Hrun. bind. by exists h, a, x, b, kv, i.
Qed.

Lemma splay_root_falls s A t k :
  reprT s A t -> elems A <> [] ->
  exists s' a x b kv i, splay_s_c cmp s (root s) k = Ok ((s', x), Work i 0) /\
    falls nil (keyc cmp (vals A) k) t i a x b /\ reprT s' A (T a x b) /\
    parted cmp A k (nodes a) x (nodes b) /\ vals A !! x = Some kv /\ root s' = x /\ sz s' = sz s /\
    heap s' = heap s /\ frame (nil :: elems A) (lk s) (lk s').
Proof.
  intros Hrepr Hne. pose proof Hrepr as Hrepr0.
  destruct Hrepr as (Hr & Hroot & Hn & Hs & Hd & Hsz & Hl & Hv & Hh).
  destruct (splay_s_Ok s A t nil k) as (h & a & x & b & kv & i & Hrun & Hfall & Hrep & Hnn & Hf & Hlive & Hx & Ha & Hb).
  { done. } { intros ->. by apply Hne. } { by rewrite Hn, Hd. } { done. }
  rewrite Hroot, Hrun. rewrite Hd in Hx, Ha, Hb, Hfall. rewrite Hn in Hnn, Hf.
  eexists _, a, x, b, kv, i. split; [done|]. split; [done|].
  split_and!; try done.
  unfold reprT. cbn [lk root dat sz heap set_root set_lk]. split_and!; try done.
  intros z kv' Hz. destruct (Hv z kv' Hz) as (Hlz & ? & ?). split_and!; [|done|done].
  destruct (decide (z ∈ elems A)) as [Hin|Hin].
  - apply (rep_live nil h nil (T a x b)); [done|]. by rewrite Hnn.
  - apply (frame_live (nil :: elems A) (lk s)); [done| |done]. by apply not_elem_of_cons.
Qed.

Lemma splay_root_Ok s A t k :
  reprT s A t -> elems A <> [] -> length (elems A) <= n ->
  exists s' a x b kv w, splay_s_c cmp s (root s) k = Ok ((s', x), w) /\ spent n 1 t w (T a x b) /\
    reprT s' A (T a x b) /\
    parted cmp A k (nodes a) x (nodes b) /\ vals A !! x = Some kv /\ root s' = x /\ sz s' = sz s /\
    heap s' = heap s /\ frame (nil :: elems A) (lk s) (lk s').
Proof.
  intros Hr Hne Hlen. destruct (splay_root_falls s A t k Hr Hne) as (s' & a & x & b & kv & i & Hrun & Hfall & Hrest).
  exists s', a, x, b, kv, (Work i 0). split; [done|]. split; [|done].
  destruct Hr as (_ & _ & Hn & _). by eapply spent_splay; [exact Hfall|rewrite Hn].
Qed.

Lemma present_nonempty A k l1 x l2 : present cmp A k l1 x l2 -> elems A <> [].
Proof. intros (-> & _). by destruct l1. Qed.

Lemma root_nil s A : repr s A -> (root s =? nil) = bool_decide (elems A = []).
Proof.
  intros [t (Hr & Hroot & Hn & _)]. rewrite Hroot, <- Hn. destruct t as [|l x r].
  - done.
  - rewrite bool_decide_eq_false_2 by (cbn; by destruct (nodes l)). cbn [ptr].
    destruct Hr as (_ & _ & _ & Hx & _). by apply Nat.eqb_neq.
Qed.

Lemma find_present s A t k l1 x l2 :
  reprT s A t -> length (elems A) <= n -> present cmp A k l1 x l2 ->
  exists s' a b w, find_c cmp s k = Ok ((s', x), w) /\ spent n 1 t w (T a x b) /\ reprT s' A (T a x b) /\
    nodes a = l1 /\ nodes b = l2 /\ root s' = x.
Proof.
  intros HrT Hlen Hp. assert (repr s A) as Hr by (by exists t).
  pose proof (present_nonempty _ _ _ _ _ Hp) as Hne. unfold find_c.
  rewrite (root_nil s A) by done. rewrite bool_decide_eq_false_2 by done.
  destruct (splay_root_Ok s A t k HrT Hne Hlen) as (s' & a & x' & b & kv & w & -> & Hw & Hr' & Hpt & Hx & Hroot & _).
  bind. destruct (parted_present cmp A k _ _ _ _ _ _ (repr_NoDup s A Hr) Hpt Hp) as (-> & -> & ->).
  destruct Hp as (_ & kv1 & Hkv1 & Hc). assert (kv1 = kv) as -> by congruence.
  rewrite (repr_vals s' A) by (by eexists). rewrite (cmpk_Ok cmp _ k _ kv) by done. bind.
  rewrite Hc. cbn [is_eq]. eexists s', a, b, _. split; [done|]. split; [paid|done].
Qed.

Lemma find_absent s A t k l1 l2 :
  reprT s A t -> length (elems A) <= n -> absent cmp A k l1 l2 ->
  exists s' w t', find_c cmp s k = Ok ((s', 0), w) /\ spent n 1 t w t' /\ reprT s' A t'.
Proof.
  intros HrT Hlen Hab. assert (repr s A) as Hr by (by exists t). unfold find_c. rewrite (root_nil s A) by done.
  case_bool_decide as Hne.
  { eexists s, _, t. split; [done|]. split; [|done]. apply (spent_end n 0 _ _ idle); [apply spent_refl|done|lia]. }
  destruct (splay_root_Ok s A t k HrT Hne Hlen) as (s' & a & x' & b & kv & w & -> & Hw & Hr' & Hpt & Hx & Hroot & _).
  bind. rewrite (repr_vals s' A) by (by eexists). rewrite (cmpk_Ok cmp _ k _ kv) by done. bind.
  pose proof (parted_absent cmp A k _ _ _ _ _ kv Hpt Hab Hx) as Hc.
  destruct (cmp k (fst kv)); [done|..]; (eexists s', _, _; split; [done|]; split; [|eassumption]; paid).
Qed.

(** ** Insertion *)

Lemma connect_shape s A a x b e kv kx l1 l2 :
  reprT s A (T a x b) -> vals A !! e = Some kv -> e ∉ elems A -> vals A !! x = Some kx ->
  parted cmp A (fst kv) (nodes a) x (nodes b) -> absent cmp A (fst kv) l1 l2 ->
  (alloc = true -> e ∈ heap s) ->
  exists s' d u w, connect_new_root (set_sz s (sz s + 1)) e (cmp (fst kv) (fst kx)) = Ok (s', e) /\
    d = is_gt (cmp (fst kv) (fst kx)) /\ T a x b = mk d u x w /\
    reprT s' (set_elems A (l1 ++ e :: l2)) (mk d (mk d u x E) e w).
Proof.
  intros Hrepr He Hin Hx Hpt Hab Hheap.
  pose proof (parted_absent cmp A _ _ _ _ _ _ kx Hpt Hab Hx) as Hl.
  destruct Hrepr as (Hr & Hroot & Hn & Hs & Hd & Hsz & Hlive & Hv & Hh).
  set (d := is_gt (cmp (fst kv) (fst kx))) in *.
  (* in direction d, x has the subtrees u (kept) and w (taken over) *)
  assert (exists u w, T a x b = mk d u x w /\ ord d (l1 ++ e :: l2) = ord d (nodes u) ++ x :: e :: ord d (nodes w))
    as (u & w & Hmk & Hord).
  { destruct (cmp (fst kv) (fst kx)); [done| |]; destruct Hl as [-> ->]; cbn in d.
    - exists b, a. split; [done|]. cbn. rewrite rev_app_distr. cbn. by rewrite <- !app_assoc.
    - exists a, b. split; [done|]. cbn. by rewrite <- app_assoc. }
  assert (NoDup (elems A)) as Hnd by (by apply (sorted_NoDup cmp Hcmp (vals A))).
  rewrite Hmk in *. pose proof Hnd as Hndn. rewrite <- Hn in Hndn. apply mk_NoDup in Hndn as (Hxu & Hxw & Hnu & Hnw & Huw).
  pose proof Hr as Hr0. apply rep_mk in Hr as (Hbu & Hbw & Hpx & Hxn & Hru & Hrw).
  rewrite ptr_mk in Hroot.
  assert (forall z, z ∈ elems A <-> z = x \/ z ∈ nodes u \/ z ∈ nodes w) as Hel.
  { intros z. rewrite <- Hn. apply elem_of_mk. }
  assert (e <> x /\ e ∉ nodes u /\ e ∉ nodes w) as (Hex & Heu & Hew).
  { rewrite Hel in Hin. tauto. }
  destruct (Hv e kv He) as (Hle & He0 & Hen). destruct (Hv x kx Hx) as (Hlx & Hx0 & _).
  assert (nil ∉ nodes u /\ nil ∉ nodes w) as [Hnu' Hnw'].
  { split; by eapply rep_nil. }
  assert (ptr nil w = nil \/ ptr nil w ∈ nodes w) as Hpw.
  { destruct w; [by left|right; by apply ptr_in]. }
  assert (ptr nil w <> x /\ ptr nil w <> e /\ ptr nil w ∉ nodes u) as (Hwx & Hwe & Hwu).
  { destruct Hpw as [-> |Hpw]; [done|]. split_and!; [by intros <-|by intros <-|].
    intros Hz. by apply (Huw (ptr nil w)). }
  assert (live (lk s) (ptr nil w)) as Hlw.
  { destruct Hpw as [-> |Hpw]; [done|]. by apply (rep_live nil (lk s) x w). }
  unfold connect_new_root. fold d. cbn [lk root set_sz]. rewrite Hroot.
  rewrite (rd_Ok _ _ _ Hbw). bind.
  rewrite link_trees_Ok by done. bind.
  set (h1 := set_pa (set_br (lk s) d e (ptr nil w)) (ptr nil w) e).
  assert (forall z, live (lk s) z -> live h1 z) as Hl1 by (intros z Hz; by apply live_link).
  rewrite link_trees_Ok by auto. bind.
  set (h2 := set_pa (set_br h1 (negb d) e x) x e).
  assert (forall z, live (lk s) z -> live h2 z) as Hl2 by (intros z Hz; apply live_link; auto).
  rewrite wbr_Ok by (apply live_br; auto). bind.
  set (h3 := set_br h2 d x nil).
  assert (forall z, live (lk s) z -> live h3 z) as Hl3 by (intros z Hz; apply live_set_br; auto).
  rewrite link_trees_Ok by auto. bind.
  set (h4 := set_pa (set_br h3 false nil e) e nil).
  assert (forall z, live (lk s) z -> live h4 z) as Hl4 by (intros z Hz; apply live_link; auto).
  eexists _, d, u, w. split; [done|]. split; [done|]. split; [done|].
  unfold reprT. cbn [lk root dat sz heap set_root set_lk set_sz elems vals set_elems].
  assert (nodes (mk d (mk d u x E) e w) = l1 ++ e :: l2) as Hnodes.
  { apply (ord_inj d). rewrite Hord, !nodes_mk, <- app_assoc. cbn [app nodes]. by destruct d. }
  split_and!; try done.
  - apply rep_mk. rewrite ptr_mk. split_and!; try done.
    + unfold h4, h3, h2. look. done.
    + unfold h4, h3, h2, h1. look. done.
    + unfold h4. look. done.
    + apply rep_mk. split_and!; try done.
      * unfold h4, h3, h2, h1. look. done.
      * unfold h4, h3. look. done.
      * unfold h4, h3, h2. look. done.
      * unfold h4, h3, h2, h1.
        apply rep_set_pa; [done|]. apply rep_set_br; [done|]. apply rep_set_br; [done|].
        apply rep_set_pa; [done|]. apply rep_set_br; [done|].
        apply rep_set_pa; [done|]. by apply rep_set_br.
    + unfold h4, h3, h2.
      apply rep_set_pa; [done|]. apply rep_set_br; [done|]. apply rep_set_br; [done|].
      apply rep_set_pa; [done|]. apply rep_set_br; [done|].
      unfold h1. apply (rep_reparent _ _ x); [done|]. by apply rep_set_br.
  - by rewrite ptr_mk.
  - apply absent_sides in Hab as (He' & H1 & H2). rewrite He' in Hs. by apply (sorted_insert cmp Hcmp _ _ _ _ kv).
  - rewrite Hsz. destruct Hab as (-> & _). rewrite !app_length. cbn [length]. lia.
  - auto.
  - intros z kz Hz. destruct (Hv z kz Hz) as (? & ? & ?). auto.
  - intros Ha z. rewrite elem_of_app, elem_of_cons. intros Hz.
    destruct (decide (z = e)) as [-> |Hne]; [auto|]. apply Hh; [done|].
    destruct Hab as (-> & _). rewrite elem_of_app. tauto.
Qed.

Lemma connect_Ok s A a x b e kv kx l1 l2 :
  reprT s A (T a x b) -> vals A !! e = Some kv -> e ∉ elems A -> vals A !! x = Some kx ->
  parted cmp A (fst kv) (nodes a) x (nodes b) -> absent cmp A (fst kv) l1 l2 ->
  (alloc = true -> e ∈ heap s) -> length (elems A) < n ->
  exists s' t', connect_new_root (set_sz s (sz s + 1)) e (cmp (fst kv) (fst kx)) = Ok (s', e) /\
    spent n 1 (T a x b) idle t' /\ reprT s' (set_elems A (l1 ++ e :: l2)) t'.
Proof.
  intros Hr He Hin Hx Hpt Hab Hheap Hlen.
  destruct (connect_shape s A a x b e kv kx l1 l2 Hr He Hin Hx Hpt Hab Hheap) as (s' & d & u & w & Hc & _ & Hmk & Hr').
  exists s', (mk d (mk d u x E) e w). split; [done|]. split; [|done].
  destruct Hr as (_ & _ & Hn & _). rewrite Hmk in *. apply spent_graft. by rewrite Hn.
Qed.

(** The first element. *)
Lemma first_Ok s A t e kv :
  reprT s A t -> elems A = [] -> vals A !! e = Some kv -> lf (lk s) !! e = Some nil ->
  rt (lk s) !! e = Some nil -> pa (lk s) !! e = Some nil -> (alloc = true -> e ∈ heap s) ->
  spent n 1 t idle (T E e E) /\ reprT (set_sz (set_root s e) 1) (set_elems A [e]) (T E e E).
Proof.
  intros (Hr & Hroot & Hn & Hs & Hd & Hsz & Hlive & Hv & Hh) Hel He Hl Hrt Hp Hheap.
  split. { destruct t as [|l z r]; [apply spent_first|]. rewrite Hel in Hn. cbn in Hn. by destruct (nodes l). }
  unfold reprT. cbn. destruct (Hv e kv He) as (? & ? & ?).
  split_and!; try done.
  - split; [by repeat constructor|]. constructor; [by exists kv|done].
  - intros Ha x ->%elem_of_list_singleton. auto.
Qed.

Lemma put_lookups h e l r p :
  lf (put_links h e l r p) !! e = Some l /\ rt (put_links h e l r p) !! e = Some r /\
  pa (put_links h e l r p) !! e = Some p.
Proof. unfold put_links. cbn. by rewrite !lookup_insert. Qed.

(** The tree after [ans] with key [k] came into [t]. *)
Inductive grown (dat : gmap nat (K * V)) (k : K) (ans : nat) : tree -> nat -> tree -> Prop :=
  | grown_first : grown dat k ans E 0 (T E ans E)
  | grown_next t i a x b kx d u v : falls nil (keyc cmp dat k) t i a x b -> dat !! x = Some kx ->
      d = is_gt (cmp k (fst kx)) -> T a x b = mk d u x v -> grown dat k ans t i (mk d (mk d u x E) ans v).

Lemma insert_shape s A t kv ans l1 l2 :
  reprT s A t -> unused A ans -> absent cmp A (fst kv) l1 l2 ->
  exists s' i t', insert_c cmp (take s ans kv 0 0 0) ans = Ok ((s', ans), Work i 0) /\
    grown (<[ans := kv]> (vals A)) (fst kv) ans t i t' /\
    reprT s' (set_elems (set_val A ans kv) (l1 ++ ans :: l2)) t'.
Proof.
  intros Hr Hu Hab. pose proof Hu as (H0 & H1 & Hv).
  assert (ans ∉ elems A) as Hin.
  { intros Hin. destruct (repr_dat s A ans) as [a Ha]; [by exists t|done|]. congruence. }
  set (A1 := set_val A ans kv).
  assert (reprT (take s ans kv 0 0 0) A1 t) as Hr1.
  { apply reprT_new; [done|done|]. intros z Hz. apply elem_of_union. by right. }
  assert (absent cmp A1 (fst kv) l1 l2) as Hab1.
  { destruct Hab as (He & Ha & Hb). split; [done|]. rewrite Forall_forall in Ha, Hb. rewrite !Forall_forall.
    rewrite He in Hin. apply not_elem_of_app in Hin as [Hi1 Hi2].
    split; intros z Hz; [destruct (Ha z Hz) as (w & Hw & Hc)|destruct (Hb z Hz) as (w & Hw & Hc)];
      exists w; (split; [|done]); cbn; (rewrite lookup_insert_ne; [done|by intros ->]). }
  assert (vals A1 !! ans = Some kv) as Hans by (cbn; by rewrite lookup_insert).
  unfold insert_c. rewrite set_links_put by (cbn; apply live_put; by right). bind.
  set (s2 := set_lk (take s ans kv 0 0 0) _).
  assert (reprT s2 A1 t) as Hr2 by (by apply reprT_put).
  rewrite (repr_empty s2 A1 t) by done. cbn [elems A1 set_val].
  assert (ans ∈ heap s2) as Hheap by (cbn; apply elem_of_union; left; by apply elem_of_singleton).
  case_bool_decide as Hne.
  - destruct Hab as (He & _). rewrite Hne in He.
    symmetry in He. apply app_eq_nil in He as [-> ->].
    destruct (put_lookups (lk (take s ans kv 0 0 0)) ans nil nil nil) as (? & ? & ?).
    assert (t = E) as ->.
    { destruct Hr as (_ & _ & Hn & _). destruct t as [|l z r]; [done|]. rewrite Hne in Hn. cbn in Hn. by destruct (nodes l). }
    destruct (first_Ok s2 A1 E ans kv) as [_ Hr3]; try done.
    eexists _, 0, _. split; [done|]. split; [apply grown_first|done].
  - rewrite (value_Ok s2 A1 ans kv); [bind|by exists t|done].
    destruct (splay_root_falls s2 A1 t (fst kv))
      as (s' & a & x & b & kx & i & -> & Hfall & Hr' & Hpt & Hx & Hroot & Hsz & Hh & _); [done|done|]. bind.
    rewrite (repr_vals s' A1) by (by eexists). rewrite (cmpk_Ok cmp _ _ _ kx) by done. bind.
    pose proof (parted_absent cmp A1 _ _ _ _ _ _ kx Hpt Hab1 Hx) as Hc.
    destruct (connect_shape s' A1 a x b ans kv kx l1 l2) as (s3 & d & u & v & Hcon & Hd & Hmk & Hr3); try done.
    { intros _. by rewrite Hh. }
    exists s3, i, (mk d (mk d u x E) ans v). split; [|split; [by eapply grown_next|done]].
    destruct (cmp (fst kv) (fst kx)) eqn:Ec; [done|..]; cbn [is_eq]; rewrite Hcon; bind;
      unfold add_work; cbn [turns hops idle]; by rewrite Nat.add_0_r.
Qed.

Lemma spent_grown dat k ans t i t' :
  grown dat k ans t i t' -> length (nodes t) < n -> spent n 2 t (Work i 0) t'.
Proof.
  intros [|? ? a x b kx d u v Hf Hx Hd Hmk] Hlen; [eapply spent_end; [apply spent_first|cbn; lia|lia]|].
  assert (length (nodes (T a x b)) < n) as Hlen'. { apply falls_weight in Hf. rewrite !weight_nodes in Hf. cbn. rewrite app_length. cbn. lia. }
  assert (spent n 1 t0 (Work i0 0) (T a x b)) as H1 by (by eapply spent_splay; [exact Hf|lia]).
  assert (spent n 1 (T a x b) idle (mk d (mk d u x E) ans v)) as H2 by (rewrite Hmk in *; by apply spent_graft).
  eapply spent_end; [eapply spent_trans; [exact H1|exact H2]|cbn; lia|lia].
Qed.

Lemma insert_Ok s A t kv ans l1 l2 :
  reprT s A t -> unused A ans -> absent cmp A (fst kv) l1 l2 -> length (elems A) < n ->
  exists s' w t', insert_c cmp (take s ans kv 0 0 0) ans = Ok ((s', ans), w) /\ spent n 2 t w t' /\
    reprT s' (set_elems (set_val A ans kv) (l1 ++ ans :: l2)) t'.
Proof.
  intros Hr Hu Hab Hlen. destruct (insert_shape s A t kv ans l1 l2 Hr Hu Hab) as (s' & i & t' & Hi & Hg & Hr').
  exists s', (Work i 0), t'. split; [done|]. split; [|done]. eapply spent_grown; [exact Hg|].
  destruct Hr as (_ & _ & Hn & _). by rewrite Hn.
Qed.

Lemma added_length A l1 l2 e ans kv p A' :
  absent cmp A (fst kv) l1 l2 -> added c A l1 l2 e ans kv p A' -> length (elems A') <= n -> p <> 0 ->
  length (elems A) < n.
Proof.
  intros (-> & _) [Hal|Hal Hu|Hal ->]; [..|done]; cbn; rewrite !app_length; cbn; lia.
Qed.

Lemma alloc_insert_Ok s A t e ans kv l1 l2 p A' :
  reprT s A t -> vals A !! e = Some kv -> absent cmp A (fst kv) l1 l2 -> added c A l1 l2 e ans kv p A' ->
  length (elems A) <= n -> length (elems A') <= n ->
  exists s' w t', alloc_insert_c cmp alloc s e ans = Ok ((s', p), w) /\ spent n 2 t w t' /\ reprT s' A' t'.
Proof.
  intros Hr He Hab Hadd Hlen Hlen'.
  pose proof (added_length _ _ _ _ _ _ _ _ Hab Hadd Hlen') as Hlt.
  assert (e ∉ elems A) as Hin by (by apply (absent_not_in cmp Hcmp A e kv l1 l2)).
  destruct (repr_live s A e kv) as (Hle & He0 & Hen); [by exists t|done|].
  unfold alloc_insert_c. rewrite set_links_put by done. bind.
  set (s1 := set_lk s _).
  assert (reprT s1 A t) as Hr1 by (by apply reprT_put).
  destruct (put_lookups (lk s) e nil nil nil) as (Hl & Hrt & Hp).
  rewrite (value_Ok s1 A e kv); [bind|by exists t|done].
  rewrite (repr_empty s1 A t) by done.
  case_bool_decide as Hne.
  - bind. destruct Hab as (Hel & _). rewrite Hne in Hel. symmetry in Hel. apply app_eq_nil in Hel as [-> ->].
    destruct Hadd as [Hal|Hal Hu|Hal ->]; rewrite Hal; bind.
    + rewrite (proj2 (Nat.eqb_neq e 0)) by done. rewrite (repr_empty s1 A t) by done.
      rewrite bool_decide_eq_true_2 by done. destruct (first_Ok s1 A t e kv) as [Hw Hr3]; try done; [by rewrite Hal|].
      eexists _, _, _. split; [done|]. split; [|eassumption]; paid.
    + destruct Hu as (Hu0 & Hu1 & Hu). rewrite (proj2 (Nat.eqb_neq ans 0)) by done.
      cbn [lk s1 set_lk]. rewrite (rd_Ok _ _ _ Hl). bind. rewrite (rd_Ok _ _ _ Hrt). bind. rewrite (rd_Ok _ _ _ Hp). bind.
      rewrite (proj2 (Nat.eqb_neq ans 0)) by done.
      assert (reprT (take s1 ans kv nil nil nil) (set_val A ans kv) t) as Hr2.
      { apply reprT_new; [done|done|]. intros z Hz. apply elem_of_union. by right. }
      rewrite (repr_empty _ _ _ Hr2). rewrite bool_decide_eq_true_2 by done.
      cbn [app].
      destruct (put_lookups (lk s1) ans nil nil nil) as (? & ? & ?).
      destruct (first_Ok _ (set_val A ans kv) t ans kv Hr2) as [Hw Hr3]; try done; [cbn; by rewrite lookup_insert| |].
      { intros _. cbn. apply elem_of_union. left. by apply elem_of_singleton. }
      eexists _, _, _. split; [done|]. split; [|eassumption]; paid.
    + rewrite Nat.eqb_refl. bind. rewrite Nat.eqb_refl. eexists _, _, t. split; [done|]. split; [|done].
      apply (spent_end n 0 _ _ idle); [apply spent_refl|done|lia].
  - destruct (splay_root_Ok s1 A t (fst kv))
      as (s2 & a & x & b & kx & w1 & -> & Hw1 & Hr2 & Hpt & Hx & Hroot & Hsz & Hh & Hf); [done..|]. bind.
    rewrite (repr_vals s2 A) by (by eexists). rewrite (cmpk_Ok cmp _ _ _ kx) by done. bind.
    pose proof (parted_absent cmp A _ _ _ _ _ _ kx Hpt Hab Hx) as Hc.
    assert (e ∉ nil :: elems A) as Hefr by (by apply not_elem_of_cons).
    assert (forall R (X Y : R), match cmp (fst kv) (fst kx) with Eq => X | _ => Y end = Y) as Hother.
    { intros R X Y. by destruct (cmp (fst kv) (fst kx)). }
    rewrite Hother. clear Hother Hc.
    destruct Hadd as [Hal|Hal Hu|Hal ->]; rewrite Hal; bind.
    + rewrite (proj2 (Nat.eqb_neq e 0)) by done. rewrite (repr_empty s2 A _ Hr2).
      rewrite bool_decide_eq_false_2 by done.
      destruct (connect_Ok s2 A a x b e kv kx l1 l2) as (s3 & t3 & Hcon & Hw3 & Hr3); try done; [by rewrite Hal|by apply Hlt|].
      rewrite Hcon. bind. eexists _, _, _. split; [done|]. split; [|eassumption]; paid.
    + pose proof Hu as (Hu0 & Hu1 & Hun). rewrite (proj2 (Nat.eqb_neq ans 0)) by done.
      destruct (Hf e Hefr) as (Hf1 & Hf2 & Hf3).
      rewrite (rd_Ok (lf (lk s2)) e nil) by (by rewrite Hf1). bind.
      rewrite (rd_Ok (rt (lk s2)) e nil) by (by rewrite Hf2). bind.
      rewrite (rd_Ok (pa (lk s2)) e nil) by (by rewrite Hf3). bind.
      rewrite (proj2 (Nat.eqb_neq ans 0)) by done.
      assert (reprT (take s2 ans kv nil nil nil) (set_val A ans kv) (T a x b)) as Hr3.
      { apply reprT_new; [done|done|]. intros z Hz. apply elem_of_union. by right. }
      rewrite (repr_empty _ _ _ Hr3). rewrite bool_decide_eq_false_2 by done.
      assert (forall z w, z ∈ elems A -> vals A !! z = Some w -> vals (set_val A ans kv) !! z = Some w) as Hkeep.
      { intros z w Hz Hw. cbn. rewrite lookup_insert_ne; [done|]. intros ->. congruence. }
      destruct (connect_Ok (take s2 ans kv nil nil nil) (set_val A ans kv) a x b ans kv kx l1 l2)
        as (s3 & t3 & Hcon & Hw3 & Hr4); try done.
      * cbn. by rewrite lookup_insert.
      * intros Hin'. destruct (repr_dat s A ans) as [w Hw]; [by exists t|done|]. congruence.
      * cbn. rewrite lookup_insert_ne; [done|]. intros ->. congruence.
      * destruct Hpt as (Hp1 & Hp2 & Hp3). split; [done|].
        split; intros z Hz; [destruct (Hp2 z Hz) as (w & Hw & Hcw)|destruct (Hp3 z Hz) as (w & Hw & Hcw)];
          exists w; (split; [|done]); apply Hkeep; try done; rewrite Hp1, elem_of_app, elem_of_cons; auto.
      * destruct Hab as (Hp1 & Hp2 & Hp3). rewrite Forall_forall in Hp2, Hp3. split; [done|]. rewrite !Forall_forall.
        split; intros z Hz; [destruct (Hp2 z Hz) as (w & Hw & Hcw)|destruct (Hp3 z Hz) as (w & Hw & Hcw)];
          exists w; (split; [|done]); apply Hkeep; try done; rewrite Hp1, elem_of_app; auto.
      * intros _. cbn. apply elem_of_union. left. by apply elem_of_singleton.
      * by apply Hlt.
      * rewrite Hcon. bind. eexists _, _, _. split; [done|]. split; [|eassumption]; paid.
    + rewrite Nat.eqb_refl. bind. rewrite Nat.eqb_refl. eexists _, _, _. split; [done|]. split; [|eassumption]; paid.
Qed.

(** ** Removal *)

Lemma erase_present s A t0 k l1 x l2 :
  reprT s A t0 -> length (elems A) <= n -> present cmp A k l1 x l2 ->
  exists s' w t', erase_c cmp s k = Ok ((s', x), w) /\ spent n 2 t0 w t' /\
    reprT s' (set_elems A (l1 ++ l2)) t' /\ heap s' = heap s.
Proof.
  intros Hrepr Hlen0 Hp. pose proof (present_nonempty _ _ _ _ _ Hp) as Hne.
  unfold erase_c. rewrite (repr_empty s A t0) by done.
  rewrite bool_decide_eq_false_2 by done. assert (repr s A) as Hr0 by (by exists t0).
  destruct (splay_root_Ok s A t0 k Hrepr Hne Hlen0)
    as (s1 & a & x' & b & kv & wk & -> & Hwk & Hr1 & Hpt & Hx & Hroot & Hsz & Hh & Hfr).
  bind. destruct (parted_present cmp A k _ _ _ _ _ _ (repr_NoDup s A Hr0) Hpt Hp) as (-> & -> & ->).
  pose proof Hp as (Hel & kv1 & Hkv1 & Hc). assert (kv1 = kv) as -> by congruence.
  rewrite (repr_vals s1 A) by (by eexists). rewrite (cmpk_Ok cmp _ k _ kv) by done. bind.
  rewrite Hc. cbn [is_eq].
  destruct Hr1 as (Hr & Hroot1 & Hn & Hs & Hd & Hsz1 & Hlive & Hv & Hhp).
  destruct (Hv x' kv Hx) as (Hlx & Hx0 & Hxn).
  assert (NoDup (elems A)) as Hnd by (by apply (sorted_NoDup cmp Hcmp (vals A))).
  pose proof Hnd as Hnd'. rewrite <- Hn in Hnd'. change (T a x' b) with (mk true a x' b) in Hnd'.
  apply mk_NoDup in Hnd' as (Hxa & Hxb & Hna & Hnb & Hab).
  destruct Hr as (Hlf & Hrt & Hpx & _ & Hra & Hrb).
  assert (nil ∉ nodes a /\ nil ∉ nodes b) as [Hnila Hnilb] by (split; by eapply rep_nil).
  assert (ptr nil b = nil \/ ptr nil b ∈ nodes b) as Hpb by (destruct b; [by left|right; by apply ptr_in]).
  assert (live (lk s1) (ptr nil b)) as Hlb.
  { destruct Hpb as [-> |Hpb]; [done|]. by apply (rep_live nil (lk s1) x' b). }
  assert (ptr nil b <> x') as Hbx. { destruct Hpb as [-> |Hpb]; [done|]. by intros <-. }
  assert (ptr nil b ∉ nodes a) as Hba.
  { destruct Hpb as [-> |Hpb]; [done|]. intros Hz. by apply (Hab (ptr nil b)). }
  assert (Z.of_nat (length (nodes a ++ nodes b)) = sz s1 - 1)%Z as Hlen.
  { rewrite Hsz1, Hel, !app_length. cbn [length]. lia. }
  assert (sorted cmp (vals A) (nodes a ++ nodes b)) as Hs'.
  { rewrite Hel in Hs. by apply (sorted_remove cmp _ _ x'). }
  unfold remove_from_tree_c. rewrite (rd_Ok _ _ _ Hlf). bind.
  assert (a = E \/ a <> E) as [-> |Hane] by (destruct a; auto).
  - cbn [ptr]. rewrite Nat.eqb_refl. rewrite (rd_Ok _ _ _ Hrt). bind.
    rewrite link_trees_Ok by done. bind. set (h1 := set_pa _ _ _).
    assert (forall z, live (lk s1) z -> live h1 z) as Hl1 by (intros z Hz; by apply live_link).
    cbn [lk set_root set_lk]. rewrite set_links_put by auto. bind.
    pose proof (spent_cut_first n x' b) as Hw2.
    eexists _, _, b. split; [done|]. split; [paid|]. split; [|done]. unfold reprT.
    cbn [lk root dat sz heap set_root set_lk set_sz elems vals set_elems nodes app].
    split_and!; try done.
    + apply (rep_frame _ [x'] h1); [apply frame_put|by intros z Hz ->%elem_of_list_singleton|].
      apply (rep_reparent _ _ x'); [done|]. by apply rep_set_br.
    + apply live_put. auto.
    + intros z kz Hz. destruct (Hv z kz Hz) as (? & ? & ?). split_and!; [apply live_put; auto|done|done].
    + intros Ha z Hz. apply Hhp; [done|]. rewrite Hel, elem_of_app, elem_of_cons. auto.
  - destruct (Nat.eqb_spec (ptr nil a) nil) as [He|_].
    { by apply (rep_ptr_nil nil (lk s1) x') in He. }
    rewrite Hd. unfold value. rewrite Hx. bind.
    destruct (splay_s_Ok s1 A a x' (fst kv)) as (h & a' & y & b' & ky & i & Hrun & Hfall & Hrep & Hnn & Hf & Hln & Hy & Hsa & Hsb).
    { done. } { done. } { rewrite Hd. rewrite Hel in Hs. by apply sorted_app in Hs as (? & _). } { done. }
    rewrite Hrun. bind. cbn [lk set_root set_lk].
    assert (b' = E) as ->.
    { destruct b' as [|l w r]; [done|]. exfalso.
      assert (w ∈ nodes (T l w r)) as Hw by (by apply (ptr_in nil (T l w r))).
      destruct (Hsb w Hw) as (kw & Hkw & Hcw). rewrite Hd in Hkw.
      assert (w ∈ nodes a) as Hwa. { rewrite <- Hnn. cbn [nodes] in *. rewrite elem_of_app, elem_of_cons. auto. }
      rewrite Hel in Hs. apply sorted_app in Hs as (_ & _ & Hlt).
      destruct (Hlt w x' Hwa) as (u & v & Hu & Hv' & Huv); [left|].
      apply (cmp_flip cmp Hcmp) in Huv. cbn in Huv. assert (u = kw) as -> by congruence.
      assert (v = kv) as -> by congruence. cbn in Hcw. congruence. }
    assert (x' ∉ nil :: nodes a) as Hfx by (by apply not_elem_of_cons).
    destruct (Hf x' Hfx) as (Hf1 & Hf2 & Hf3).
    rewrite (rd_Ok (rt h) x' (ptr nil b)) by (by rewrite Hf2). bind.
    assert (forall z, z ∈ nodes b -> z ∉ nil :: nodes a) as Hfb.
    { intros z Hz [-> |Hz']%elem_of_cons; [done|]. by apply (Hab z). }
    assert (rep nil h x' b) as Hrb' by (by apply (rep_frame _ (nil :: nodes a) (lk s1))).
    assert (live h (ptr nil b)) as Hlb'.
    { destruct Hpb as [-> |Hpb]; [done|]. by apply (rep_live nil h x' b). }
    destruct Hrep as (Hyl & Hyr & Hyp & Hyn & Hra' & _).
    assert (live h y) as Hly. { apply (rep_live nil h nil (T a' y E)); [done|]. by apply (ptr_in nil (T a' y E)). }
    rewrite link_trees_Ok by done. bind. set (h1 := set_pa _ _ _).
    assert (forall z, live h z -> live h1 z) as Hl1 by (intros z Hz; by apply live_link).
    assert (forall z, live (lk s1) z -> live h z) as Hl0.
    { intros z Hz. destruct (decide (z ∈ nil :: nodes a)) as [Hin|Hin].
      - apply elem_of_cons in Hin as [-> |Hin]; [done|]. apply (rep_live nil h nil (T a' y E)); [done|]. by rewrite Hnn.
      - by apply (frame_live (nil :: nodes a) (lk s1)). }
    cbn [lk set_root set_lk]. rewrite set_links_put by auto. bind.
    assert (spent n 1 (T a x' b) (Work i 0) (T a' y b)) as Hw2 by (by eapply spent_cut_splayed; [exact Hfall|rewrite Hn]).
    eexists _, _, (T a' y b). split; [done|]. split; [paid|]. split; [|done]. unfold reprT.
    cbn [lk root dat sz heap set_root set_lk set_sz elems vals set_elems].
    assert (nodes (T a' y b) = nodes a ++ nodes b) as Hnodes.
    { rewrite <- Hnn. cbn [nodes]. by rewrite <- app_assoc. }
    assert (forall z, z ∈ nodes a' \/ z = y -> z ∈ nodes a) as Hin.
    { intros z Hz. rewrite <- Hnn. cbn [nodes]. rewrite elem_of_app, elem_of_cons. tauto. }
    assert (x' ∉ nodes a' /\ x' <> y /\ y ∉ nodes b /\ y ∉ nodes a') as (Hxa' & Hxy & Hyb & Hya').
    { split_and!; [intros Hz; apply Hxa; auto|intros ->; apply Hxa; auto|apply Hab; auto|].
      rewrite <- Hnn in Hna. change (T a' y E) with (mk true a' y E) in Hna. apply mk_NoDup in Hna as (? & _). done. }
    assert (ptr nil b <> y) as Hby. { destruct Hpb as [-> |Hpb]; [done|]. by intros <-. }
    assert (ptr nil b ∉ nodes a') as Hba'. { intros Hz. apply Hba. auto. }
    split_and!; try done.
    + apply (rep_frame _ [x'] h1); [apply frame_put| |].
      { intros z Hz ->%elem_of_list_singleton. rewrite Hnodes, elem_of_app in Hz. tauto. }
      change (T a' y b) with (mk true a' y b). apply rep_mk. cbn [negb]. split_and!; try done.
      * unfold h1. look. done.
      * unfold h1. look. done.
      * unfold h1. apply rep_set_pa; [done|]. by apply rep_set_br.
      * unfold h1. apply (rep_reparent _ _ x'); [done|]. by apply rep_set_br.
    + apply live_put. auto.
    + intros z kz Hz. destruct (Hv z kz Hz) as (? & ? & ?). split_and!; [apply live_put; auto|done|done].
    + intros Ha z Hz. apply Hhp; [done|]. rewrite Hel, elem_of_app, elem_of_cons. rewrite elem_of_app in Hz. tauto.
Qed.

Lemma erase_absent s A t k l1 l2 :
  reprT s A t -> length (elems A) <= n -> absent cmp A k l1 l2 ->
  exists s' w t', erase_c cmp s k = Ok ((s', 0), w) /\ spent n 1 t w t' /\ reprT s' A t'.
Proof.
  intros Hr Hlen Hab. unfold erase_c. rewrite (repr_empty s A t) by done.
  case_bool_decide as Hne.
  { eexists s, _, t. split; [done|]. split; [|done]. apply (spent_end n 0 _ _ idle); [apply spent_refl|done|lia]. }
  destruct (splay_root_Ok s A t k Hr Hne Hlen) as (s' & a & x' & b & kv & w & -> & Hw & Hr' & Hpt & Hx & Hroot & _).
  bind. rewrite (repr_vals s' A) by (by eexists). rewrite (cmpk_Ok cmp _ k _ kv) by done. bind.
  pose proof (parted_absent cmp A k _ _ _ _ _ kv Hpt Hab Hx) as Hc.
  destruct (cmp k (fst kv)); [done|..]; (eexists s', _, _; split; [done|]; split; [|eassumption]; paid).
Qed.

Lemma give_back_Ok s A t x kv :
  reprT s A t -> vals A !! x = Some kv -> x ∉ elems A -> x ∈ heap s ->
  exists s', give_back s x = Ok s' /\ reprT s' (drop_val A x) t.
Proof.
  intros (Hr & Hroot & Hn & Hs & Hd & Hsz & Hl & Hv & Hh) Hx Hin Hhx.
  unfold give_back. rewrite bool_decide_eq_true_2 by done. eexists. split; [done|].
  destruct (Hv x kv Hx) as (_ & _ & Hxn).
  assert (forall z, z <> x -> live (lk s) z -> live (del_links (lk s) x) z) as Hlive.
  { intros z Hz Hlz. apply (frame_live [x] (lk s)); [apply frame_del| |done]. by intros ->%elem_of_list_singleton. }
  unfold reprT. cbn. split_and!; try done.
  - apply (rep_frame _ [x] (lk s)); [apply frame_del| |done]. intros z Hz ->%elem_of_list_singleton. by rewrite Hn in Hz.
  - apply (sorted_same cmp Hcmp (vals A)); [done|]. intros z Hz. rewrite lookup_delete_ne; [done|]. by intros ->.
  - by rewrite Hd.
  - by apply Hlive.
  - intros z kz Hz. apply lookup_delete_Some in Hz as [Hne Hz]. destruct (Hv z kz Hz) as (? & ? & ?). auto.
  - intros Ha z Hz. apply elem_of_difference. split; [by apply Hh|]. intros ->%elem_of_singleton. done.
Qed.

(** ** Copies of whole structs *)

Lemma copy_out_Ok s A t dst src kv kd :
  reprT s A t -> dst <> src -> dst ∉ elems A -> vals A !! dst = Some kd -> vals A !! src = Some kv ->
  exists l r p, lf (lk s) !! src = Some l /\ rt (lk s) !! src = Some r /\ pa (lk s) !! src = Some p /\
    let s' := set_dat (set_lk s (put_links (lk s) dst l r p)) dst kv in
    copy_struct s dst src = Ok s' /\ reprT s' (set_val A dst kv) t.
Proof.
  intros Hr Hne Hin Hdst Hsrc. pose proof (ex_intro _ t Hr : repr s A) as Hr0.
  destruct (repr_live s A _ _ Hr0 Hsrc) as (Hl & _). destruct (live_links _ _ Hl) as (l & r & p & Hlf & Hrt & Hpa).
  destruct (repr_live s A _ _ Hr0 Hdst) as (Hld & Hd0 & Hdn).
  exists l, r, p. do 3 (split; [done|]). cbv zeta. split.
  - unfold copy_struct. rewrite (proj2 (Nat.eqb_neq dst src)) by done.
    rewrite (value_Ok s A src kv), (value_Ok s A dst kd) by done. bind.
    rewrite (copy_links_Ok _ _ _ l r p) by done. done.
  - apply reprT_set_dat; [by apply reprT_put| |done|done|done].
    cbn. apply live_put. by right.
Qed.

Lemma copy_in_Ok s A t x e kv old l r p :
  reprT s A t -> x <> e -> vals A !! e = Some kv -> vals A !! x = Some old -> cmp (fst old) (fst kv) = Eq ->
  lf (lk s) !! x = Some l -> rt (lk s) !! x = Some r -> pa (lk s) !! x = Some p ->
  lf (lk s) !! e = Some l -> rt (lk s) !! e = Some r -> pa (lk s) !! e = Some p ->
  copy_struct s x e = Ok (set_dat s x kv) /\ reprT (set_dat s x kv) (set_val A x kv) t.
Proof.
  intros Hr Hne He Hx Heq Hl Hrt Hp Hl' Hrt' Hp'. pose proof (ex_intro _ t Hr : repr s A) as Hr0.
  destruct (repr_live s A _ _ Hr0 Hx) as (Hlx & Hx0 & Hxn). split.
  - unfold copy_struct. rewrite (proj2 (Nat.eqb_neq x e)) by done.
    rewrite (value_Ok s A e kv), (value_Ok s A x old) by done. bind.
    rewrite (copy_links_Ok _ _ _ l r p) by done. bind. rewrite put_same by done. by destruct s.
  - apply reprT_set_dat; try done. intros _. by exists old.
Qed.

Lemma overwrite_Ok s A t x e kv old :
  reprT s A t -> e ∉ elems A -> x ∈ elems A -> vals A !! e = Some kv -> vals A !! x = Some old ->
  cmp (fst old) (fst kv) = Eq ->
  exists s', overwrite s x e = Ok s' /\ reprT s' (set_val A x kv) t.
Proof.
  intros Hr Hin Hxin He Hx Heq. pose proof (ex_intro _ t Hr : repr s A) as Hr0.
  destruct (repr_live s A _ _ Hr0 Hx) as (Hlx & Hx0 & Hxn). destruct (repr_live s A _ _ Hr0 He) as (Hle & He0 & Hen).
  destruct (live_links _ _ Hlx) as (l & r & p & Hlf & Hrt & Hpa).
  assert (x <> e) as Hne by (by intros ->).
  unfold overwrite. rewrite (copy_links_Ok _ _ _ l r p) by done. bind.
  pose proof (frame_put (lk s) e l r p) as Hf. assert (x ∉ [e]) as Hxe by (by intros ?%elem_of_list_singleton).
  destruct (Hf x Hxe) as (Hf1 & Hf2 & Hf3). destruct (put_lookups (lk s) e l r p) as (? & ? & ?).
  destruct (copy_in_Ok (set_lk s (put_links (lk s) e l r p)) A t x e kv old l r p) as [-> Hr']; try done.
  { by apply reprT_put. } { cbn [lk set_lk]. by rewrite Hf1. } { cbn [lk set_lk]. by rewrite Hf2. } { cbn [lk set_lk]. by rewrite Hf3. }
  by eexists.
Qed.

(** ** Walking *)

Lemma begin_Ok s A d : repr s A -> om_begin s d = Ok (hd 0 (ord d (elems A))).
Proof.
  intros [t (Hr & Hroot & Hn & Hs & Hd & Hsz & Hl & Hv & Hh)].
  unfold om_begin. rewrite Hsz, Hroot.
  assert (t = E \/ t <> E) as [-> |Hne] by (destruct t; auto).
  - rewrite <- Hn. by destruct d.
  - destruct (Z.eqb_spec (Z.of_nat (length (elems A))) 0) as [He|_].
    { rewrite <- Hn in He. apply (ptr_in nil) in Hne. destruct (nodes t); [by apply elem_of_nil in Hne|]. cbn in He. lia. }
    assert (NoDup (nodes t)) as Hnd by (rewrite Hn; by apply (sorted_NoDup cmp Hcmp (vals A))).
    destruct (edge_Ok nil (lk s) (negb d) t nil Hr Hnd Hne) as (l & x & Ho & ->).
    rewrite Hn, ord_negb in Ho. apply (f_equal (@rev nat)) in Ho. rewrite rev_involutive, rev_app_distr in Ho.
    by rewrite Ho.
Qed.

Lemma begin_c_Ok s A d : repr s A -> exists i, om_begin_c s d = Ok (hd 0 (ord d (elems A)), Work 0 i).
Proof.
  intros Hr. pose proof (begin_Ok s A d Hr) as H. rewrite <- om_begin_erase in H. apply erase_Ok in H as [w H].
  exists (hops w). rewrite H. revert H. unfold om_begin_c. destruct (_ =? _)%Z; [by intros [= <- <-]|].
  destruct (edge_c _ _ _ _) as [[x i]| |]; try done. by intros [= <- <-].
Qed.

Lemma elem_hd (l : list nat) : l <> [] -> hd 0 l ∈ l.
Proof. destruct l; [done|left]. Qed.

Lemma tnext_Ok s A d y l1 l2 :
  repr s A -> ord d (elems A) = l1 ++ y :: l2 ->
  exists q i, hopping (tree_next_c nil (lk s) (root s) d y) = Ok (q, Work 0 i) /\ (if q =? nil then 0 else q) = hd 0 l2.
Proof.
  intros Hr Ho. assert (exists q, tree_next nil (lk s) (root s) d y = Ok q /\ (if q =? nil then 0 else q) = hd 0 l2)
    as (q & Hq & Hhd); [|].
  2:{ rewrite tree_next_erase in Hq. apply erase_Ok in Hq as [i Hq]. exists q, i. by rewrite Hq. }
  revert Hr Ho. intros [t (Hr & Hroot & Hn & Hs & Hd & Hsz & Hl & Hv & Hh)] Ho.
  rewrite Hroot. rewrite (tree_next_Ok nil (lk s) d t y l1 l2); [|done| |by rewrite Hn].
  - eexists. split; [done|]. destruct l2 as [|z l2]; [done|]. cbn.
    assert (z ∈ elems A) as Hy.
    { apply (elem_of_ord d). rewrite Ho, elem_of_app, !elem_of_cons. auto. }
    destruct (sorted_dat _ _ _ _ Hs Hy) as [ky Hky]. destruct (Hv z ky Hky) as (_ & _ & Hyn).
    by apply Nat.eqb_neq in Hyn as ->.
  - rewrite Hn. by apply (sorted_NoDup cmp Hcmp (vals A)).
Qed.

Lemma next_c_Ok s A d y l1 l2 :
  repr s A -> ord d (elems A) = l1 ++ y :: l2 -> exists i, om_next_c s d y = Ok (hd 0 l2, Work 0 i).
Proof.
  intros Hr Ho. unfold om_next_c.
  assert (y ∈ elems A) as Hin. { apply (elem_of_ord d). rewrite Ho, elem_of_app. right. left. }
  destruct (repr_dat s A y Hr Hin) as [kn Hkn]. destruct (repr_live s A y kn Hr Hkn) as (_ & Hn0 & _).
  rewrite (proj2 (Nat.eqb_neq y 0)) by done.
  destruct (tnext_Ok s A d y l1 l2 Hr Ho) as (q & i & -> & Hq). bind. rewrite Hq. eexists. done.
Qed.

Lemma next_Ok s A d y l1 l2 :
  repr s A -> ord d (elems A) = l1 ++ y :: l2 -> om_next s d y = Ok (hd 0 l2).
Proof.
  intros Hr Ho. destruct (next_c_Ok s A d y l1 l2 Hr Ho) as [i Hi].
  rewrite <- om_next_erase. apply erase_Ok. by eexists.
Qed.

Lemma walk_Ok s A d ps l1 fuel :
  repr s A -> ord d (elems A) = l1 ++ map fst ps -> Forall (fun p => vals A !! fst p = Some (snd p)) ps ->
  length ps < fuel -> walk fuel s d (hd 0 (map fst ps)) = Ok ps.
Proof.
  intros Hr. revert ps l1. induction fuel as [|f IH]; intros ps l1 Ho HF Hlen; [lia|].
  destruct ps as [|[x kv] ps]; [done|]. cbn [map fst hd walk].
  apply Forall_cons in HF as [Hx HF]. cbn [fst snd] in Hx.
  destruct (repr_live s A x kv Hr Hx) as (_ & Hx0 & _). rewrite (proj2 (Nat.eqb_neq x 0)) by done.
  rewrite (value_Ok s A x kv) by done. bind. cbn [map fst] in Ho.
  rewrite (next_Ok s A d x l1 (map fst ps)) by done. bind.
  rewrite (IH ps (l1 ++ [x])); [done| |done|cbn in Hlen; lia]. by rewrite <- app_assoc.
Qed.

Lemma with_data (dat : gmap nat (K * V)) (l : list nat) :
  (forall x, x ∈ l -> exists kv : K * V, dat !! x = Some kv) ->
  exists ps : list (nat * (K * V)), map fst ps = l /\ Forall (fun p => dat !! fst p = Some (snd p)) ps.
Proof.
  induction l as [|x l IH]; intros H; [by exists []|].
  destruct IH as (ps & <- & HF); [intros; apply H; by right|].
  destruct (H x) as [kv Hkv]; [left|]. exists ((x, kv) :: ps). split; [done|]. by constructor.
Qed.

Lemma repr_length s A : repr s A -> length (elems A) <= size (lf (lk s)).
Proof.
  intros [t (Hr & Hroot & Hn & Hs & _)]. rewrite <- Hn. apply (rep_size nil _ nil); [|done].
  rewrite Hn. by apply (sorted_NoDup cmp Hcmp (vals A)).
Qed.

Lemma iter_Ok s A d ps :
  repr s A -> map fst ps = ord d (elems A) -> Forall (fun p => vals A !! fst p = Some (snd p)) ps ->
  om_iter s d = Ok ps.
Proof.
  intros Hr Hps HF. unfold om_iter. rewrite (begin_Ok s A) by done. bind. rewrite <- Hps.
  apply (walk_Ok s A d ps []); try done.
  pose proof (repr_length s A Hr) as Hlen. apply (f_equal length) in Hps. rewrite map_length, ord_length in Hps. lia.
Qed.

Lemma validate_Ok s A : repr s A -> om_validate cmp s = Ok true.
Proof.
  intros Hr0. pose proof (repr_length s A Hr0) as Hlen.
  destruct Hr0 as [t (Hr & Hroot & Hn & Hs & Hd & Hsz & Hl & Hv & Hh)].
  unfold om_validate. rewrite Hroot.
  rewrite (subtrees_valid_Ok nil cmp Hcmp (dat s) _ (lk s) nil t); [bind; cbn [negb]|done| | | |by left|by left].
  - rewrite storing_parent_Ok by (rewrite ?Hn; (done || lia)). bind. cbn [negb].
    rewrite (recursive_size_Ok nil _ nil) by (rewrite ?Hn; (done || lia)). bind.
    rewrite Hn, Hsz. by rewrite Z.eqb_refl.
  - by rewrite Hn, Hd.
  - rewrite Hn. lia.
  - intros z [-> |Hz]%elem_of_cons; [done|]. rewrite Hn in Hz. destruct (sorted_dat _ _ _ _ Hs Hz) as [kz Hkz].
    destruct (Hv z kz Hkz) as (_ & Hz0 & _). by apply Nat.eqb_neq.
Qed.

Lemma parted_ord A d k a x b :
  parted cmp A k a x b ->
  exists P Q, ord d (elems A) = P ++ x :: Q /\
    (forall z, z ∈ P -> side cmp (vals A) d k z) /\ (forall z, z ∈ Q -> side cmp (vals A) (negb d) k z).
Proof.
  intros (He & Ha & Hb). destruct d.
  - by exists a, b.
  - exists (rev b), (rev a). cbn. rewrite He, rev_app_distr. cbn. rewrite <- app_assoc. split_and!; [done| |];
      intros z Hz; rewrite <- Permutation_rev in Hz; auto.
Qed.

Lemma range_Ok s A t d a b X Y :
  reprT s A t -> length (elems A) <= n ->
  first (fun z => keyed cmp A (dirc (negb d)) a z \/ keyed cmp A Eq a z) (ord d (elems A)) X ->
  first (keyed cmp A (dirc (negb d)) b) (ord d (elems A)) Y ->
  exists s' w t', om_range_c cmp s d a b = Ok ((s', (X, Y)), w) /\ spent n 2 t w t' /\ reprT s' A t'.
Proof.
  intros HrT Hlen HX HY. assert (repr s A) as Hr by (by exists t). unfold om_range_c.
  assert (sz s = Z.of_nat (length (elems A))) as Hsz by (by destruct Hr as [? (_ & _ & _ & _ & _ & ? & _)]).
  rewrite Hsz. destruct (Z.eqb_spec (Z.of_nat (length (elems A))) 0) as [He|Hne].
  { exists s, idle, t. split; [|split; [|done]].
    2:{ apply (spent_end n 0 _ _ idle); [apply spent_refl|done|lia]. }
    assert (elems A = []) as Hnil by (destruct (elems A); [done|cbn in He; lia]).
    rewrite Hnil in HX, HY. assert (forall P, first P [] X -> X = 0) as HX' by (by inversion 1).
    assert (forall P, first P [] Y -> Y = 0) as HY' by (by inversion 1).
    destruct d; cbn in HX, HY; by rewrite (HX' _ HX), (HY' _ HY). }
  assert (elems A <> []) as Hne' by (intros He; by rewrite He in Hne).
  destruct (splay_root_Ok s A t a HrT Hne' Hlen) as (s1 & ta & x & tb & kx & w1 & -> & Hw1 & Hr1 & Hpt & Hx & Hroot & _).
  bind. pose proof (ex_intro _ _ Hr1 : repr s1 A) as Hr1'.
  rewrite (repr_vals s1 A) by done. rewrite (cmpk_Ok cmp _ a _ kx) by done. bind.
  destruct (parted_ord A d a _ x _ Hpt) as (P & Q & Ho & HP & HQ).
  assert (exists x' i, (if cmp_is (cmp a (fst kx)) (if d then Gt else Lt)
    then hopping (tree_next_c nil (lk s1) (root s1) d x) else still x) = Ok (x', Work 0 i) /\
    (if x' =? nil then 0 else x') = X) as (x' & i1 & -> & HX').
  { assert (forall z, z ∈ P -> ~ (keyed cmp A (dirc (negb d)) a z \/ keyed cmp A Eq a z)) as HnP.
    { intros z Hz Hk. specialize (HP z Hz). destruct Hk as [Hk|Hk]; pose proof (keyed_fun cmp A _ _ _ _ Hk HP); by destruct d. }
    rewrite Ho in HX. apply first_skip in HX; [|done].
    destruct (cmp_is (cmp a (fst kx)) (if d then Gt else Lt)) eqn:E.
    - destruct (tnext_Ok s1 A d x P Q Hr1' Ho) as (q & i & -> & Hq). exists q, i. split; [done|]. rewrite Hq.
      symmetry. apply (first_hd (fun z => keyed cmp A (dirc (negb d)) a z \/ keyed cmp A Eq a z)).
      + intros z Hz. left. by apply HQ.
      + change (x :: Q) with ([x] ++ Q) in HX. apply first_skip in HX; [done|].
        intros z ->%elem_of_list_singleton Hk.
        destruct Hk as [(w & Hw & Hcw)|(w & Hw & Hcw)]; assert (w = kx) as -> by congruence;
          rewrite Hcw in E; by destruct d.
    - exists x, 0. split; [done|].
      assert (vals A !! x = Some kx) as Hx1 by done.
      destruct (repr_live s A x kx Hr Hx1) as (_ & _ & Hxn). rewrite (proj2 (Nat.eqb_neq x nil)) by done.
      inversion HX as [| |? ? ? Hno]; subst; [done|]. exfalso. apply Hno.
      destruct (cmp a (fst kx)) eqn:Ec; destruct d; try done; try (by right; exists kx); by left; exists kx. }
  bind.
  destruct (splay_root_Ok s1 A _ b Hr1 Hne' Hlen) as (s2 & ta2 & y & tb2 & ky & w2 & -> & Hw2 & Hr2 & Hpt2 & Hy & Hroot2 & _).
  bind. pose proof (ex_intro _ _ Hr2 : repr s2 A) as Hr2'.
  rewrite (repr_vals s2 A) by done. rewrite (cmpk_Ok cmp _ b _ ky) by done. bind.
  destruct (parted_ord A d b _ y _ Hpt2) as (P2 & Q2 & Ho2 & HP2 & HQ2).
  assert (exists y' i, (if cmp_is (cmp b (fst ky)) (if negb d then Gt else Lt)
    then still y else hopping (tree_next_c nil (lk s2) (root s2) d y)) = Ok (y', Work 0 i) /\
    (if y' =? nil then 0 else y') = Y) as (y' & i2 & -> & HY').
  { assert (forall z, z ∈ P2 -> ~ keyed cmp A (dirc (negb d)) b z) as HnP.
    { intros z Hz Hk. specialize (HP2 z Hz). pose proof (keyed_fun cmp A _ _ _ _ Hk HP2). by destruct d. }
    rewrite Ho2 in HY. apply first_skip in HY; [|done].
    destruct (cmp_is (cmp b (fst ky)) (if negb d then Gt else Lt)) eqn:E.
    - exists y, 0. split; [done|].
      destruct (repr_live s A y ky Hr Hy) as (_ & _ & Hyn). rewrite (proj2 (Nat.eqb_neq y nil)) by done.
      inversion HY as [| |? ? ? Hno]; subst; [done|]. exfalso. apply Hno.
      destruct (cmp b (fst ky)) eqn:Ec; destruct d; try done; by exists ky.
    - destruct (tnext_Ok s2 A d y P2 Q2 Hr2' Ho2) as (q & i & -> & Hq). exists q, i. split; [done|]. rewrite Hq.
      symmetry. apply (first_hd (keyed cmp A (dirc (negb d)) b)).
      + intros z Hz. by apply HQ2.
      + change (y :: Q2) with ([y] ++ Q2) in HY. apply first_skip in HY; [done|].
        intros z ->%elem_of_list_singleton (w & Hw & Hcw). assert (w = ky) as -> by congruence.
        rewrite Hcw in E. by destruct d. }
  bind. rewrite HX', HY'. eexists s2, _, _. split; [done|]. split; [|eassumption]; paid.
Qed.

(** ** Clearing *)

Lemma lookup_foldr_delete {X} (m : gmap nat X) l z :
  foldr delete m l !! z = if decide (z ∈ l) then None else m !! z.
Proof.
  induction l as [|x l IH]; cbn [foldr].
  - rewrite decide_False; [done|]. by apply not_elem_of_nil.
  - destruct (decide (z = x)) as [-> |Hne].
    + rewrite lookup_delete, decide_True; [done|left].
    + rewrite lookup_delete_ne by done. rewrite IH. destruct (decide (z ∈ l)) as [Hin|Hin].
      * rewrite decide_True; [done|by right].
      * rewrite decide_False; [done|]. by apply not_elem_of_cons.
Qed.

Lemma clear_Ok s A t fn fuel :
  reprT s A t -> length (elems A) < fuel -> length (elems A) <= n ->
  exists s' l w t', clear_loop_c cmp alloc fuel s fn = Ok ((s', l), w) /\
    spent n (2 * length (elems A)) t w t' /\
    reprT s' (View [] (if alloc then foldr delete (vals A) (elems A) else vals A)) t' /\
    NoDup l /\ (forall x kv, (x, kv) ∈ l <-> fn = true /\ x ∈ elems A /\ vals A !! x = Some kv).
Proof.
  revert s A t. induction fuel as [|f IH]; intros s A t Hr Hlen Hlen'; [lia|]. cbn [clear_loop_c].
  unfold om_is_empty. rewrite (repr_empty s A t) by done.
  case_bool_decide as Hne.
  - eexists s, [], _, t. split_and!; [done|by rewrite Hne; apply spent_refl| |constructor|].
    + rewrite Hne. cbn. destruct A as [l v]. cbn in Hne. subst l. by destruct alloc.
    + intros x kv. rewrite Hne, elem_of_nil, elem_of_nil. tauto.
  - assert (exists a x b, t = T a x b) as (a & x & b & ->).
    { destruct t as [|a x b]; [|by eauto]. destruct Hr as (_ & _ & Hn & _). by cbn in Hn. }
    pose proof (ex_intro _ _ Hr : repr s A) as Hr0.
    assert (root s = x) as -> by (by destruct Hr as (_ & ? & _)).
    assert (elems A = nodes a ++ x :: nodes b) as Hel by (by destruct Hr as (_ & _ & <- & _)).
    assert (x ∈ elems A) as Hin by (rewrite Hel, elem_of_app; right; left).
    destruct (repr_dat s A x Hr0 Hin) as [kv Hkv]. rewrite (value_Ok s A x kv) by done. bind.
    assert (present cmp A (fst kv) (nodes a) x (nodes b)) as Hp.
    { split; [done|]. exists kv. split; [done|by apply cmp_refl]. }
    destruct (erase_present s A _ _ _ _ _ Hr Hlen' Hp) as (s1 & w1 & t1 & -> & Hw1 & Hr1 & Hh1). bind.
    assert ((if fn then v ← value (dat s1) x; Ok [(x, v)] else Ok []) = Ok (if fn then [(x, kv)] else [])) as ->.
    { destruct fn; [|done]. by rewrite (value_Ok s1 _ x kv (ex_intro _ _ Hr1)). }
    bind. pose proof (repr_NoDup s A Hr0) as Hnd. rewrite Hel in Hnd.
    apply NoDup_app in Hnd as (Hnda & Hdis & [Hxb Hndb]%NoDup_cons).
    assert (x ∉ nodes a ++ nodes b) as Hxab.
    { apply not_elem_of_app. split; [|done]. intros Hz. apply (Hdis x Hz). left. }
    set (A1 := set_elems A (nodes a ++ nodes b)) in *.
    set (A2 := if alloc then drop_val A1 x else A1).
    assert (exists s2, (if alloc then give_back s1 x else Ok s1) = Ok s2 /\ reprT s2 A2 t1) as (s2 & -> & Hr2).
    { unfold A2. destruct alloc eqn:Hal; [|by exists s1].
      apply (give_back_Ok s1 A1 t1 x kv); try done. rewrite Hh1.
      destruct Hr as (_ & _ & _ & _ & _ & _ & _ & _ & Hh). by apply Hh. }
    bind. assert (elems A2 = nodes a ++ nodes b) as He2 by (unfold A2; by destruct alloc).
    assert (length (elems A) = S (length (elems A2))) as Hlen2.
    { rewrite He2, Hel, !app_length. cbn [length]. lia. }
    destruct (IH s2 A2 t1 Hr2) as (s3 & l & w3 & t3 & -> & Hw3 & Hr3 & Hndl & Hl); [lia..|].
    bind. eexists _, _, _, t3. split; [done|]. split; [rewrite Hlen2; paid|].
    assert (forall z, z ∈ nodes a ++ nodes b -> vals A2 !! z = vals A !! z) as Hsame.
    { intros z Hz. unfold A2. destruct alloc; [|done]. cbn. rewrite lookup_delete_ne; [done|]. by intros ->. }
    split_and!.
    + assert ((if alloc then foldr delete (vals A2) (elems A2) else vals A2) =
              (if alloc then foldr delete (vals A) (elems A) else vals A)) as <-; [|done].
      rewrite He2, Hel. unfold A2. destruct alloc; [|done]. cbn [vals drop_val A1 set_elems].
      apply map_eq. intros z. rewrite !lookup_foldr_delete.
      destruct (decide (z = x)) as [-> |Hzx].
      * rewrite (decide_True (P := x ∈ nodes a ++ x :: nodes b)) by (rewrite elem_of_app; right; left).
        rewrite decide_False by done. by rewrite lookup_delete.
      * rewrite lookup_delete_ne by done.
        destruct (decide (z ∈ nodes a ++ nodes b)) as [Hz|Hz].
        -- rewrite decide_True; [done|]. rewrite elem_of_app, elem_of_cons. rewrite elem_of_app in Hz. tauto.
        -- rewrite decide_False; [done|]. rewrite elem_of_app, elem_of_cons. rewrite elem_of_app in Hz. tauto.
    + destruct fn; [|done]. cbn [app]. constructor; [|done]. intros Hz. apply Hl in Hz as (_ & Hz & _). by rewrite He2 in Hz.
    + intros z kz. rewrite elem_of_app, Hl, He2, Hel. split.
      * intros [Hz|(-> & Hz & Hkz)].
        -- destruct fn; [|by apply elem_of_nil in Hz]. apply elem_of_list_singleton in Hz. simplify_eq.
           split_and!; [done| |done]. rewrite elem_of_app. right. left.
        -- rewrite Hsame in Hkz by done. split_and!; [done| |done].
           rewrite elem_of_app, elem_of_cons. rewrite elem_of_app in Hz. tauto.
      * intros (-> & Hz & Hkz). destruct (decide (z = x)) as [-> |Hzx].
        -- left. apply elem_of_list_singleton. congruence.
        -- assert (z ∈ nodes a ++ nodes b) as Hz'.
           { rewrite elem_of_app, elem_of_cons in Hz. rewrite elem_of_app. tauto. }
           right. rewrite Hsame by done. done.
Qed.

End proofs.
