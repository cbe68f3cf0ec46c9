(** Every permitted call of the ordered map does what the specification says. *)
From stdpp Require Import base numbers option gmap fin_maps list.
From Coq Require Import Sorting.Sorted.
From Verif Require Import Common LinkHeap PathLemmas OrderSpec MapOps MapSpec TreeModel TreeProofs MapProofs MapCases OmModel OmProofs
  CostModel CostErase SplayCost CostSpec CostBounds OmCostModel OmCostErase.
Local Ltac bind := cbn [mbind outcome_bind obind cbind still gratis hopping].
Local Ltac paid := eapply spent_end; [eassumption || (eapply spent_trans; eassumption)|cbn; lia|lia].
Local Ltac free := apply (spent_end _ 0 _ _ idle); [apply spent_refl|done|lia].

Section calls.
Context {K V : Type} (cmp : K -> K -> comparison) (Hcmp : total_preorder cmp).
Context (c : contract) (Hme : macro_err c = true).
Notation alloc := (allocates c).
Context (n : nat).
Local Notation repr := (OmProofs.repr cmp c).
Local Notation reprT := (OmProofs.reprT cmp c).
Local Notation find_present := (OmProofs.find_present cmp Hcmp c n).
Local Notation find_absent := (OmProofs.find_absent cmp Hcmp c n).
Local Notation erase_present := (OmProofs.erase_present cmp Hcmp c n).
Local Notation erase_absent := (OmProofs.erase_absent cmp Hcmp c n).
Local Notation copy_out_Ok := (OmProofs.copy_out_Ok cmp Hcmp c).
Local Notation copy_in_Ok := (OmProofs.copy_in_Ok cmp Hcmp c).
Local Notation overwrite_Ok := (OmProofs.overwrite_Ok cmp Hcmp c).
Local Notation begin_Ok := (OmProofs.begin_Ok cmp Hcmp c).
Local Notation begin_c_Ok := (OmProofs.begin_c_Ok cmp Hcmp c).
Local Notation next_c_Ok := (OmProofs.next_c_Ok cmp Hcmp c).
Local Notation next_Ok := (OmProofs.next_Ok cmp Hcmp c).
Local Notation iter_Ok := (OmProofs.iter_Ok cmp Hcmp c).
Local Notation range_Ok := (OmProofs.range_Ok cmp Hcmp c n).
Local Notation validate_Ok := (OmProofs.validate_Ok cmp Hcmp c).
Local Notation clear_Ok := (OmProofs.clear_Ok cmp Hcmp c n).
Local Notation reprT_set_dat := (OmProofs.reprT_set_dat cmp Hcmp c).
Local Notation alloc_insert_Ok := (OmProofs.alloc_insert_Ok cmp Hcmp c n).
Local Notation insert_Ok := (OmProofs.insert_Ok cmp Hcmp c n).
Local Notation repr_NoDup := (OmProofs.repr_NoDup cmp Hcmp c).
Local Notation splay_root_Ok := (OmProofs.splay_root_Ok cmp Hcmp c n).
Local Notation give_back_Ok := (OmProofs.give_back_Ok cmp Hcmp c).
Local Notation reprT_new := (OmProofs.reprT_new cmp Hcmp c).
Local Notation reprT_put := (OmProofs.reprT_put cmp c).
Local Notation repr_live := (OmProofs.repr_live cmp c).
Local Notation repr_dat := (OmProofs.repr_dat cmp c).
Local Notation repr_vals := (OmProofs.repr_vals cmp c).
Local Notation repr_sorted := (OmProofs.repr_sorted cmp c).
Local Notation repr_empty := (OmProofs.repr_empty cmp c).
Local Notation value_Ok := (OmProofs.value_Ok cmp c).
Local Notation present_nonempty := (OmProofs.present_nonempty cmp).
Implicit Types (s : om K V) (A : view K V).

Lemma entry_present s A t k l1 x l2 :
  reprT s A t -> length (elems A) <= n -> present cmp A k l1 x l2 ->
  exists s' a b w, om_entry_c cmp s k = Ok ((s', occupied_ent x), w) /\ spent n 1 t w (T a x b) /\
    reprT s' A (T a x b) /\ x <> 0.
Proof.
  intros HrT Hlen Hp. assert (repr s A) as Hr by (by exists t).
  destruct (find_present s A t k l1 x l2 HrT Hlen Hp) as (s' & a & b & w & Hf & Hw & Hr' & _).
  assert (x ∈ elems A) as Hin by (destruct Hp as (-> & _); rewrite elem_of_app; right; left).
  destruct (repr_dat s A x Hr Hin) as [kv Hkv]. destruct (repr_live s A x kv Hr Hkv) as (_ & H0 & _).
  unfold om_entry_c. rewrite Hf. bind. rewrite (proj2 (Nat.eqb_neq x 0)) by done.
  eexists s', a, b, _. split; [done|]. split; [paid|done].
Qed.

Lemma entry_absent s A t k l1 l2 :
  reprT s A t -> length (elems A) <= n -> absent cmp A k l1 l2 ->
  exists s' w t', om_entry_c cmp s k = Ok ((s', vacant_ent 0), w) /\ spent n 1 t w t' /\ reprT s' A t'.
Proof.
  intros Hr Hlen Ha. destruct (find_absent s A t k l1 l2 Hr Hlen Ha) as (s' & w & t' & Hf & Hw & Hr').
  unfold om_entry_c. rewrite Hf. bind. eexists s', _, t'. split; [done|]. split; [paid|done].
Qed.

Lemma made_Ok s A t kv ans l1 l2 p A' :
  reprT s A t -> absent cmp A (fst kv) l1 l2 -> made c A l1 l2 ans kv p A' -> length (elems A') <= n ->
  exists s' w t', new_and_insert_c cmp alloc s kv ans = Ok ((s', p), w) /\ spent n 2 t w t' /\ reprT s' A' t' /\
    (if alloc then ans else 0) = p.
Proof.
  intros Hr Hab Hm Hlen. unfold new_and_insert_c. destruct Hm as [Hal Hu|Hal].
  - rewrite Hal. pose proof Hu as (H0 & _). rewrite (proj2 (Nat.eqb_neq ans 0)) by done. cbn [andb negb].
    destruct (insert_Ok s A t kv ans l1 l2 Hr Hu Hab) as (s' & w & t' & -> & Hw & Hr').
    { destruct Hab as (-> & _). cbn in Hlen. rewrite app_length in *. cbn in Hlen. lia. }
    by exists s', w, t'.
  - destruct Hal as [-> | ->].
    + exists s, idle, t. split; [done|]. split; [free|done].
    + rewrite Nat.eqb_refl, andb_false_r. exists s, idle, t.
      split; [done|]. split; [free|]. split; [done|]. by destruct alloc.
Qed.

Lemma present_In A k l1 x l2 : present cmp A k l1 x l2 -> x ∈ elems A.
Proof. intros (-> & _). rewrite elem_of_app. right. left. Qed.

Lemma present_key A k l1 x l2 kv : present cmp A k l1 x l2 -> vals A !! x = Some kv -> cmp k (fst kv) = Eq.
Proof. intros (_ & kv' & H & Hc) Hx. congruence. Qed.

Lemma eq_sym a b : cmp a b = Eq -> cmp b a = Eq.
Proof. intros H. by apply (cmp_flip cmp Hcmp) in H. Qed.

Lemma insert_old_Ok s A t e tmp ans kv l1 x l2 old t0 :
  reprT s A t -> length (elems A) <= n -> vals A !! e = Some kv -> present cmp A (fst kv) l1 x l2 -> vals A !! x = Some old ->
  e ∉ elems A -> tmp ∉ elems A -> tmp <> e -> vals A !! tmp = Some t0 ->
  exists s' w t', om_insert_c cmp alloc s e tmp ans = Ok ((s', occupied_ent tmp), w) /\ spent n 1 t w t' /\
    reprT s' (set_val (set_val (set_val A tmp old) x kv) e old) t'.
Proof.
  intros HrT Hlen He Hp Hx Hin Htin Hte Ht. assert (repr s A) as Hr by (by exists t). unfold om_insert_c.
  rewrite (value_Ok s A e kv) by done. bind.
  destruct (find_present s A _ _ _ _ _ HrT Hlen Hp) as (s1 & a & b & w & -> & Hw & Hr1 & _ & _ & Hroot). bind.
  assert (repr s1 A) as Hr1' by (by eexists).
  pose proof (present_In _ _ _ _ _ Hp) as Hxin. pose proof (present_key _ _ _ _ _ _ Hp Hx) as Hk.
  destruct (repr_live s1 A x old Hr1' Hx) as (Hlx & Hx0 & Hxn).
  destruct (repr_live s1 A e kv Hr1' He) as (Hle & He0 & Hen).
  destruct (repr_live s1 A tmp t0 Hr1' Ht) as (Hlt & Ht0 & Htn).
  assert (x <> e) as Hxe by (by intros ->). assert (tmp <> x) as Htx by (by intros ->).
  rewrite (proj2 (Nat.eqb_neq x 0)) by done. cbn [negb]. rewrite Hroot.
  rewrite (proj2 (Nat.eqb_neq x nil)) by done. cbn [negb oassert]. bind.
  destruct (live_links _ _ Hlx) as (l & r & p & Hl & Hrt & Hpa).
  rewrite (copy_links_Ok _ _ _ l r p) by done. bind.
  set (s2 := set_lk s1 (put_links (lk s1) e l r p)).
  assert (reprT s2 A (T a x b)) as Hr2 by (by apply reprT_put).
  assert (root s2 = x) as Hroot2 by exact Hroot. rewrite Hroot2. rewrite (proj2 (Nat.eqb_neq x e)) by done.
  assert (x ∉ [e]) as Hx' by (by intros ?%elem_of_list_singleton).
  destruct (frame_put (lk s1) e l r p x Hx') as (Hf1 & Hf2 & Hf3).
  destruct (put_lookups (lk s1) e l r p) as (Hg1 & Hg2 & Hg3).
  destruct (copy_out_Ok s2 A _ tmp x old t0 Hr2 Htx Htin Ht Hx) as (l' & r' & p' & Hl' & Hrt' & Hp' & Hcp & Hr3).
  cbn [lk s2 set_lk] in Hl', Hrt', Hp'. rewrite Hf1 in Hl'. rewrite Hf2 in Hrt'. rewrite Hf3 in Hp'.
  assert (l' = l) as -> by congruence. assert (r' = r) as -> by congruence. assert (p' = p) as -> by congruence.
  rewrite Hcp. bind. set (s3 := set_dat _ tmp old) in *.
  assert (forall z, z <> tmp -> vals (set_val A tmp old) !! z = vals A !! z) as Hother.
  { intros z Hz. cbn. by rewrite lookup_insert_ne. }
  destruct (frame_put (lk s2) tmp l r p e) as (Hh1 & Hh2 & Hh3); [by intros ->%elem_of_list_singleton|].
  destruct (frame_put (lk s2) tmp l r p x) as (Hi1 & Hi2 & Hi3); [intros Hxt%elem_of_list_singleton; by apply Htx|].
  destruct (copy_in_Ok s3 (set_val A tmp old) (T a x b) x e kv old l r p) as [Hcp2 Hr4]; try done.
  { by rewrite Hother by done. } { by rewrite Hother by (by apply not_eq_sym). } { by apply eq_sym. }
  { by etrans; [exact Hi1|rewrite <- Hl; exact Hf1]. } { by etrans; [exact Hi2|rewrite <- Hrt; exact Hf2]. }
  { by etrans; [exact Hi3|rewrite <- Hpa; exact Hf3]. } { by etrans; [exact Hh1|exact Hg1]. }
  { by etrans; [exact Hh2|exact Hg2]. } { by etrans; [exact Hh3|exact Hg3]. }
  rewrite Hcp2. bind.
  assert (vals (set_val (set_val A tmp old) x kv) !! e = Some kv) as He4.
  { cbn. by rewrite !lookup_insert_ne. }
  assert (vals (set_val (set_val A tmp old) x kv) !! tmp = Some old) as Ht4.
  { cbn. rewrite lookup_insert_ne by done. by rewrite lookup_insert. }
  destruct (copy_out_Ok _ _ _ e tmp old kv Hr4) as (l5 & r5 & p5 & _ & _ & _ & Hcp5 & Hr5);
    [by apply not_eq_sym|done|done|done|].
  rewrite Hcp5. bind. set (s5 := set_dat _ e old) in *.
  set (A5 := set_val (set_val (set_val A tmp old) x kv) e old) in *.
  assert (live (lk s5) e) as Hle5. { cbn. apply live_put. by right. }
  rewrite set_links_put by done. bind.
  assert (reprT (set_lk s5 (put_links (lk s5) e 0 0 0)) A5 (T a x b)) as Hr6 by (by apply reprT_put).
  assert (live (put_links (lk s5) e 0 0 0) tmp) as Hlt6.
  { destruct (Hr6) as (_ & _ & _ & _ & _ & _ & _ & Hv6 & _). apply (Hv6 tmp old). cbn.
    rewrite !lookup_insert_ne by done. by rewrite lookup_insert. }
  rewrite set_links_put by done. bind. eexists _, _, (T a x b). split; [done|]. split; [paid|].
  exact (reprT_put _ A5 _ tmp 0 0 0 Hr6 Htin Htn).
Qed.

Lemma remove_present s A t e kv l1 x l2 :
  reprT s A t -> length (elems A) <= n -> vals A !! e = Some kv -> present cmp A (fst kv) l1 x l2 ->
  exists s1 w t', erase_c cmp s (fst kv) = Ok ((s1, x), w) /\ spent n 2 t w t' /\
    reprT s1 (set_elems A (l1 ++ l2)) t' /\
    (alloc = true -> x ∈ heap s1) /\ x ∉ l1 ++ l2 /\ x <> 0.
Proof.
  intros HrT Hlen He Hp. assert (repr s A) as Hr by (by exists t).
  destruct (erase_present s A t _ _ _ _ HrT Hlen Hp) as (s1 & w & t' & -> & Hw & Hr1 & Hh).
  pose proof (present_In _ _ _ _ _ Hp) as Hxin. destruct (repr_dat s A x Hr Hxin) as [kx Hkx].
  destruct (repr_live s A x kx Hr Hkx) as (_ & Hx0 & _).
  exists s1, w, t'. split; [done|]. split; [done|]. split; [done|]. split; [|split; [|done]].
  - intros Hal. rewrite Hh. destruct Hr as [? (_ & _ & _ & _ & _ & _ & _ & _ & Hhp)]. by apply Hhp.
  - pose proof (repr_NoDup s A Hr) as Hnd. destruct Hp as (Hel & _). rewrite Hel in Hnd.
    apply NoDup_app in Hnd as (_ & Hd & [Hn _]%NoDup_cons). apply not_elem_of_app. split; [|done].
    intros Hz. apply (Hd x Hz). left.
Qed.

(** The budget of a call: three splays or links, and for clear two for each element. *)
Definition budget A (o : map_op K V) : nat :=
  match o with MClear _ => 2 * length (elems A) | _ => 3 end.

Lemma step_c_Ok s A t o r A' :
  ask_empty c = false -> reprT s A t -> call cmp c A o r A' -> length (elems A) <= n -> length (elems A') <= n ->
  exists s' r' w t', om_step_c cmp alloc s o = Ok ((s', r'), w) /\ agree r r' /\
    reprT s' A' t' /\ spent n (budget A o) t w t'.
Proof.
  intros Hask HrT Hc HnA HnA'. assert (repr s A) as Hr by (by exists t).
  destruct Hc; cbn [om_step_c budget].
  - (* new *) eexists _, _, _, t. split; [done|]. split; [done|]. split; [by apply reprT_new|free].
  - (* contains *)
    pose proof (present_nonempty _ _ _ _ _ H) as Hne. unfold om_contains_c.
    destruct (splay_root_Ok s A t k HrT Hne HnA) as (s' & a & x' & b & kv & w & -> & Hw & Hr' & Hpt & Hx & Hroot & _). bind.
    destruct (parted_present cmp A k _ _ _ _ _ _ (repr_NoDup s A Hr) Hpt H) as (-> & -> & ->).
    rewrite (repr_vals s' A) by (by eexists). rewrite (cmpk_Ok cmp _ k _ kv) by done. bind.
    rewrite (present_key _ _ _ _ _ _ H Hx). eexists _, _, _, _. split; [done|]. split; [done|]. split; [eassumption|paid].
  - destruct H0 as [H0|Hne]; [congruence|]. unfold om_contains_c.
    destruct (splay_root_Ok s A t k HrT Hne HnA) as (s' & a & x' & b & kv & w & -> & Hw & Hr' & Hpt & Hx & Hroot & _). bind.
    rewrite (repr_vals s' A) by (by eexists). rewrite (cmpk_Ok cmp _ k _ kv) by done. bind.
    pose proof (parted_absent cmp A k _ _ _ _ _ kv Hpt H Hx) as Hcc.
    destruct (cmp k (fst kv)); [done|..]; (eexists _, _, _, _; split; [done|]; split; [done|]; split; [eassumption|paid]).
  - (* get *) unfold om_get_c. destruct (find_present s A t _ _ _ _ HrT HnA H) as (s' & a & b & w & -> & Hw & Hr' & _). bind.
    eexists _, _, _, _. split; [done|]. split; [done|]. split; [eassumption|paid].
  - unfold om_get_c. destruct (find_absent s A t _ _ _ HrT HnA H) as (s' & w & t1 & -> & Hw & Hr'). bind.
    eexists _, _, _, _. split; [done|]. split; [done|]. split; [eassumption|paid].
  - (* insert *) unfold om_insert_c. rewrite (value_Ok s A e kv) by done. bind.
    destruct (find_absent s A t _ _ _ HrT HnA H0) as (s1 & w & t1 & -> & Hw & Hr1). bind. rewrite Nat.eqb_refl. cbn [negb].
    destruct (alloc_insert_Ok s1 A t1 e ans kv l1 l2 p A' Hr1 H H0 H1 HnA HnA') as (s2 & w2 & t2 & -> & Hw2 & Hr2). bind.
    eexists _, _, _, _. split; [done|]. split; [unfold refused; by destruct (p =? 0)|]. split; [eassumption|paid].
  - destruct (insert_old_Ok s A t e tmp ans kv l1 x l2 old t0) as (s' & w & t1 & -> & Hw & Hr'); try done. bind.
    eexists _, _, _, _. split; [done|]. split; [done|]. split; [eassumption|paid].
  - (* try_insert *) unfold om_try_insert_c. rewrite (value_Ok s A e kv) by done. bind.
    destruct (find_absent s A t _ _ _ HrT HnA H0) as (s1 & w & t1 & -> & Hw & Hr1). bind. rewrite Nat.eqb_refl. cbn [negb].
    destruct (alloc_insert_Ok s1 A t1 e ans kv l1 l2 p A' Hr1 H H0 H1 HnA HnA') as (s2 & w2 & t2 & -> & Hw2 & Hr2). bind.
    eexists _, _, _, _. split; [done|]. split; [unfold refused; by destruct (Nat.eqb_spec p 0) as [-> |]|]. split; [eassumption|paid].
  - unfold om_try_insert_c. rewrite (value_Ok s A e kv) by done. bind.
    destruct (find_present s A t _ _ _ _ HrT HnA H0) as (s1 & a & b & w & -> & Hw & Hr1 & _ & _ & Hroot). bind.
    pose proof (present_In _ _ _ _ _ H0) as Hin. destruct (repr_dat s A x Hr Hin) as [kx Hkx].
    destruct (repr_live s A x kx Hr Hkx) as (_ & Hx0 & Hxn).
    rewrite (proj2 (Nat.eqb_neq x 0)) by done. cbn [negb]. rewrite Hroot.
    rewrite (proj2 (Nat.eqb_neq x nil)) by done. cbn [negb oassert]. bind.
    eexists _, _, _, _. split; [done|]. split; [done|]. split; [eassumption|paid].
  - (* insert_or_assign *) unfold om_insert_or_assign_c. rewrite (value_Ok s A e kv) by done. bind.
    destruct (find_absent s A t _ _ _ HrT HnA H0) as (s1 & w & t1 & -> & Hw & Hr1). bind. rewrite Nat.eqb_refl. cbn [negb].
    destruct (alloc_insert_Ok s1 A t1 e ans kv l1 l2 p A' Hr1 H H0 H1 HnA HnA') as (s2 & w2 & t2 & -> & Hw2 & Hr2). bind.
    eexists _, _, _, _. split; [done|]. split; [unfold refused; by destruct (Nat.eqb_spec p 0) as [-> |]|]. split; [eassumption|paid].
  - unfold om_insert_or_assign_c. rewrite (value_Ok s A e kv) by done. bind.
    destruct (find_present s A t _ _ _ _ HrT HnA H0) as (s1 & a & b & w & -> & Hw & Hr1 & _ & _ & Hroot). bind.
    pose proof (present_In _ _ _ _ _ H0) as Hin. destruct (repr_dat s A x Hr Hin) as [kx Hkx].
    destruct (repr_live s A x kx Hr Hkx) as (_ & Hx0 & Hxn).
    rewrite (proj2 (Nat.eqb_neq x 0)) by done. cbn [negb]. rewrite Hroot.
    rewrite (proj2 (Nat.eqb_neq x nil)) by done. cbn [negb oassert]. bind.
    destruct (overwrite_Ok s1 A _ x e kv kx Hr1) as (s2 & -> & Hr2); try done.
    { apply eq_sym. by apply (present_key A _ l1 x l2). }
    bind. eexists _, _, _, _. split; [done|]. split; [done|]. split; [eassumption|paid].
  - (* remove *) unfold om_remove_c. rewrite (value_Ok s A e kv) by done. bind.
    destruct (erase_absent s A t _ _ _ HrT HnA H0) as (s1 & w & t1 & -> & Hw & Hr1). bind. rewrite Nat.eqb_refl.
    eexists _, _, _, _. split; [done|]. split; [done|]. split; [eassumption|paid].
  - unfold om_remove_c. rewrite (value_Ok s A e kv) by done. bind.
    destruct (remove_present s A t e kv l1 x l2 HrT HnA H H0) as (s1 & w & t1 & -> & Hw & Hr1 & _ & _ & Hx0). bind.
    rewrite (proj2 (Nat.eqb_neq x 0)) by done. rewrite H1.
    eexists _, _, _, _. split; [done|]. split; [done|]. split; [|paid]. unfold removed. by rewrite H1.
  - unfold om_remove_c. rewrite (value_Ok s A e kv) by done. bind.
    destruct (remove_present s A t e kv l1 x l2 HrT HnA H H0) as (s1 & w & t1 & -> & Hw & Hr1 & Hh & Hxn & Hx0). bind.
    rewrite (proj2 (Nat.eqb_neq x 0)) by done. rewrite H1.
    pose proof (present_In _ _ _ _ _ H0) as Hin. assert (e <> x) as Hex by (by intros ->).
    destruct (copy_out_Ok s1 (set_elems A (l1 ++ l2)) t1 e x old kv Hr1) as (l & r & p & _ & _ & _ & Hcp & Hr2); try done.
    { cbn. destruct H0 as (Hel & _). rewrite Hel in H2. rewrite elem_of_app, elem_of_cons in H2. rewrite elem_of_app. tauto. }
    rewrite Hcp. bind.
    match type of Hr2 with reprT ?s2 ?A2 _ =>
      destruct (give_back_Ok s2 A2 t1 x old) as (s3 & -> & Hr3); [done| |done|by apply Hh|] end.
    { cbn. by rewrite lookup_insert_ne. }
    bind. eexists _, _, _, t1. split; [done|]. split; [done|]. split; [|paid]. unfold removed. rewrite H1.
    unfold drop_val, set_val, set_elems in *. cbn in *. by rewrite <- delete_insert_ne.
  - (* entry *) destruct (entry_present s A t _ _ _ _ HrT HnA H) as (s1 & a & b & w & -> & Hw & Hr1 & _). bind.
    eexists _, _, _, _. split; [done|]. split; [done|]. split; [eassumption|paid].
  - destruct (entry_absent s A t _ _ _ HrT HnA H) as (s1 & w & t1 & -> & Hw & Hr1). bind. eexists _, _, _, _. split; [done|]. split; [done|]. split; [eassumption|paid].
  - (* or_insert *) destruct (entry_absent s A t _ _ _ HrT HnA H1) as (s1 & w & t1 & -> & Hw & Hr1). bind.
    cbn [om_or_insert_c occupied vacant_ent].
    destruct (alloc_insert_Ok s1 A t1 e ans kv l1 l2 p A') as (s2 & w2 & t2 & -> & Hw2 & Hr2); try done.
    { by apply (absent_key cmp Hcmp A k). }
    bind. eexists _, _, _, _. split; [done|]. split; [done|]. split; [eassumption|paid].
  - destruct (entry_present s A t _ _ _ _ HrT HnA H) as (s1 & a & b & w & -> & Hw & Hr1 & _). bind.
    eexists _, _, _, _. split; [done|]. split; [done|]. split; [eassumption|paid].
  - (* insert_entry *) destruct (entry_absent s A t _ _ _ HrT HnA H1) as (s1 & w & t1 & -> & Hw & Hr1). bind.
    cbn [om_insert_entry_c occupied vacant_ent].
    destruct (alloc_insert_Ok s1 A t1 e ans kv l1 l2 p A') as (s2 & w2 & t2 & -> & Hw2 & Hr2); try done.
    { by apply (absent_key cmp Hcmp A k). }
    bind. eexists _, _, _, _. split; [done|]. split; [done|]. split; [eassumption|paid].
  - destruct (entry_present s A t _ _ _ _ HrT HnA H1) as (s1 & a & b & w & -> & Hw & Hr1 & Hx0). bind.
    pose proof (present_In _ _ _ _ _ H1) as Hin. destruct (repr_dat s A x Hr Hin) as [kx Hkx].
    cbn [om_insert_entry_c occupied occupied_ent e_].
    destruct (overwrite_Ok s1 A _ x e kv kx Hr1) as (s2 & -> & Hr2); try done.
    { rewrite <- (cmp_eq_r cmp Hcmp _ _ _ H0). apply eq_sym. by apply (present_key A _ l1 x l2). }
    bind. eexists _, _, _, _. split; [done|]. split; [done|]. split; [eassumption|paid].
  - (* and_modify *) destruct (entry_present s A t _ _ _ _ HrT HnA H) as (s1 & a & b & w & -> & Hw & Hr1 & Hx0). bind.
    cbn [om_and_modify occupied occupied_ent e_]. rewrite (value_Ok s1 A x kv) by (try done; by eexists). bind.
    destruct (repr_live s1 A x kv) as (Hlx & _ & Hxn); [by eexists|done|].
    eexists _, _, _, _. split; [done|]. split; [done|]. split; [|paid]. apply reprT_set_dat; try done.
    intros _. exists kv. split; [done|by apply cmp_refl].
  - destruct (entry_absent s A t _ _ _ HrT HnA H) as (s1 & w & t1 & -> & Hw & Hr1). bind. eexists _, _, _, _. split; [done|]. split; [done|]. split; [eassumption|paid].
  - (* remove_entry *) destruct (entry_present s A t _ _ _ _ HrT HnA H) as (s1 & a & b & w & -> & Hw & Hr1 & Hx0). bind.
    cbn [om_remove_entry_c occupied occupied_ent e_].
    pose proof (present_In _ _ _ _ _ H) as Hin. destruct (repr_dat s A x Hr Hin) as [kx Hkx].
    assert (repr s1 A) as Hr1' by (by eexists).
    rewrite (value_Ok s1 A x kx) by done. bind.
    assert (present cmp A (fst kx) l1 x l2) as Hp.
    { destruct H as (? & _). split; [done|]. exists kx. split; [done|by apply cmp_refl]. }
    destruct (remove_present s1 A _ x kx l1 x l2 Hr1 HnA Hkx Hp) as (s2 & w2 & t2 & -> & Hw2 & Hr2 & Hh & Hxn & _). bind.
    rewrite (proj2 (Nat.eqb_neq x 0)) by done. cbn [negb oassert]. bind. unfold removed.
    destruct alloc eqn:Hal.
    + destruct (give_back_Ok s2 _ _ x kx Hr2) as (s3 & -> & Hr3); [done|done|by apply Hh|]. bind.
      eexists _, _, _, _. split; [done|]. split; [done|]. split; [eassumption|paid].
    + eexists _, _, _, _. split; [done|]. split; [done|]. split; [eassumption|paid].
  - destruct (entry_absent s A t _ _ _ HrT HnA H) as (s1 & w & t1 & -> & Hw & Hr1). bind. eexists _, _, _, _. split; [done|]. split; [done|]. split; [eassumption|paid].
  - (* or_insert_w *) destruct (entry_absent s A t _ _ _ HrT HnA H0) as (s1 & w & t1 & -> & Hw & Hr1). bind.
    cbn [om_or_insert_w_c occupied vacant_ent].
    destruct (made_Ok s1 A t1 (k', v) ans l1 l2 p A' Hr1) as (s2 & w2 & t2 & -> & Hw2 & Hr2 & _); [by apply (absent_key cmp Hcmp A k)|done|done|].
    bind. eexists _, _, _, _. split; [done|]. split; [done|]. split; [eassumption|paid].
  - destruct (entry_present s A t _ _ _ _ HrT HnA H) as (s1 & a & b & w & -> & Hw & Hr1 & Hx0). bind.
    eexists _, _, _, _. split; [done|]. split; [done|]. split; [eassumption|paid].
  - (* insert_entry_w *) destruct (entry_absent s A t _ _ _ HrT HnA H0) as (s1 & w & t1 & -> & Hw & Hr1). bind.
    cbn [om_insert_entry_w_c occupied vacant_ent negb].
    destruct (made_Ok s1 A t1 (k', v) ans l1 l2 p A' Hr1) as (s2 & w2 & t2 & -> & Hw2 & Hr2 & _); [by apply (absent_key cmp Hcmp A k)|done|done|].
    bind. eexists _, _, _, _. split; [done|]. split; [done|]. split; [eassumption|paid].
  - destruct (entry_present s A t _ _ _ _ HrT HnA H0) as (s1 & a & b & w & -> & Hw & Hr1 & Hx0). bind.
    pose proof (present_In _ _ _ _ _ H0) as Hin. destruct (repr_dat s A x Hr Hin) as [kx Hkx].
    cbn [om_insert_entry_w_c occupied occupied_ent negb e_].
    rewrite (value_Ok s1 A x kx) by (try done; by eexists). bind.
    destruct (repr_live s1 A x kx) as (Hlx & _ & Hxn); [by eexists|done|].
    eexists _, _, _, _. split; [done|]. split; [done|]. split; [|paid]. apply reprT_set_dat; try done.
    intros _. exists kx. split; [done|]. cbn [fst]. rewrite <- (cmp_eq_r cmp Hcmp _ _ _ H).
    apply eq_sym. by apply (present_key A _ l1 x l2).
  - (* try_insert_w *) unfold om_try_insert_w_c. destruct (entry_absent s A t _ _ _ HrT HnA H) as (s1 & w & t1 & -> & Hw & Hr1). bind.
    cbn [occupied vacant_ent negb]. unfold insert_and_copy_key_c.
    destruct (made_Ok s1 A t1 (k, v) ans l1 l2 p A' Hr1 H H0 HnA') as (s2 & w2 & t2 & -> & Hw2 & Hr2 & Hp). bind.
    eexists _, _, _, _. split; [done|]. split; [by rewrite Hp, Hme, orb_true_r|]. split; [eassumption|paid].
  - unfold om_try_insert_w_c. destruct (entry_present s A t _ _ _ _ HrT HnA H) as (s1 & a & b & w & -> & Hw & Hr1 & Hx0). bind.
    eexists _, _, _, _. split; [done|]. split; [done|]. split; [eassumption|paid].
  - (* insert_or_assign_w *) unfold om_insert_or_assign_w_c. destruct (entry_absent s A t _ _ _ HrT HnA H) as (s1 & w & t1 & -> & Hw & Hr1). bind.
    cbn [occupied vacant_ent negb]. unfold insert_and_copy_key_c.
    destruct (made_Ok s1 A t1 (k, v) ans l1 l2 p A' Hr1 H H0 HnA') as (s2 & w2 & t2 & -> & Hw2 & Hr2 & Hp). bind.
    eexists _, _, _, _. split; [done|]. split; [by rewrite Hp, Hme, orb_true_r|]. split; [eassumption|paid].
  - unfold om_insert_or_assign_w_c. destruct (entry_present s A t _ _ _ _ HrT HnA H) as (s1 & a & b & w & -> & Hw & Hr1 & Hx0). bind.
    pose proof (present_In _ _ _ _ _ H) as Hin. destruct (repr_dat s A x Hr Hin) as [kx Hkx].
    cbn [occupied occupied_ent negb e_].
    rewrite (value_Ok s1 A x kx) by (try done; by eexists). bind.
    destruct (repr_live s1 A x kx) as (Hlx & _ & Hxn); [by eexists|done|].
    eexists _, _, _, _. split; [done|]. split; [done|]. split; [|paid]. apply reprT_set_dat; try done.
    intros _. exists kx. split; [done|]. cbn [fst]. apply eq_sym. by apply (present_key A _ l1 x l2).
  - (* begin, rbegin *) destruct (begin_c_Ok s A true Hr) as [i ->]. bind.
    eexists _, _, _, t. split; [done|]. split; [done|]. split; [done|free].
  - destruct (begin_c_Ok s A false Hr) as [i ->]. bind.
    eexists _, _, _, t. split; [done|]. split; [done|]. split; [done|free].
  - (* next, rnext *) destruct (next_c_Ok s A true e l1 l2) as [i ->]; [done|done|]. bind.
    eexists _, _, _, t. split; [done|]. split; [done|]. split; [done|free].
  - destruct (next_c_Ok s A false e (rev l2) (rev l1)) as [i ->]; [done| |].
    { cbn. rewrite H, rev_app_distr. cbn. by rewrite <- app_assoc. }
    bind. eexists _, _, _, t. split; [done|]. split; [done|]. split; [done|free].
  - (* ranges *) destruct (range_Ok s A t true a b x y HrT HnA) as (s' & w & t1 & -> & Hw & Hr'); [done|done|]. bind.
    eexists _, _, _, _. split; [done|]. split; [done|]. split; [eassumption|paid].
  - destruct (range_Ok s A t false a b x y HrT HnA) as (s' & w & t1 & -> & Hw & Hr'); [done|done|]. bind.
    eexists _, _, _, _. split; [done|]. split; [done|]. split; [eassumption|paid].
  - (* clear *) unfold om_clear_c.
    destruct (clear_Ok s A t fn (S (Z.to_nat (sz s))) HrT) as (s' & l & w & t1 & -> & Hw & Hr' & Hnd & Hl); [|done|].
    { destruct HrT as (_ & _ & _ & _ & _ & -> & _). lia. }
    bind. eexists _, _, _, t1. split; [done|]. split; [|split; [done|paid]]. split; [done|].
    apply NoDup_Permutation; [done|done|]. intros [x kv]. by rewrite H, Hl.
  - (* size, is_empty, validate *) eexists _, _, _, t. split; [done|]. split; [|split; [done|free]].
    destruct HrT as (_ & _ & _ & _ & _ & Hsz & _). cbn. by rewrite Hsz.
  - eexists _, _, _, t. split; [done|]. split; [|split; [done|free]]. cbn. unfold om_is_empty.
    rewrite (repr_empty s A t) by done. by destruct (elems A).
  - rewrite (validate_Ok s A) by done. bind. eexists _, _, _, t. split; [done|]. split; [done|]. split; [done|free].
Qed.

(** The budget of a sequence of calls: five splays or links for each call, counting
    for each element the two that clear may spend on it. *)
Lemma run_c_Ok s A t os rs A' :
  ask_empty c = false -> reprT s A t -> calls_within cmp c n A os rs A' ->
  exists s' rs' w t' j, om_run_c cmp alloc s os = Ok ((s', rs'), w) /\ Forall2 agree rs rs' /\ reprT s' A' t' /\
    spent n j t w t' /\ j + 2 * length (elems A') <= 5 * length os + 2 * length (elems A).
Proof.
  intros Hask Hr Hc. revert s t Hr. induction Hc as [A HA|A o r A1 os rs A2 HA Hc Hcs IH]; intros s t Hr.
  - exists s, [], idle, t, 0. split; [done|]. split; [done|]. split; [done|]. split; [apply spent_refl|cbn; lia].
  - pose proof (within_le _ _ _ _ _ _ _ Hcs) as HA1.
    destruct (step_c_Ok s A t o r A1 Hask Hr Hc HA HA1) as (s1 & r' & w1 & t1 & Hs & Hag & Hr1 & Hw1).
    destruct (IH s1 t1 Hr1) as (s2 & rs' & w2 & t2 & j & Hrun & Hags & Hr2 & Hw2 & Hj).
    eexists s2, (r' :: rs'), _, t2, (budget A o + j). cbn [om_run_c]. rewrite Hs. bind. rewrite Hrun. bind.
    split; [done|]. split; [by constructor|]. split; [done|]. split; [paid|].
    assert (budget A o + 2 * length (elems A1) <= 5 + 2 * length (elems A)); [|cbn [length]; lia].
    pose proof (call_length cmp c A o r A1 Hc). destruct Hc; cbn [budget] in *; try lia. cbn. lia.
Qed.
End calls.

Section runs.
Context {K V : Type} (cmp : K -> K -> comparison) (Hcmp : total_preorder cmp).
Context (c : contract) (Hme : macro_err c = true).
Notation alloc := (allocates c).
Local Notation repr := (OmProofs.repr cmp c).
Local Notation reprT := (OmProofs.reprT cmp c).
Local Notation iter_Ok := (OmProofs.iter_Ok cmp Hcmp c).
Local Notation validate_Ok := (OmProofs.validate_Ok cmp Hcmp c).
Local Notation repr_dat := (OmProofs.repr_dat cmp c).
Local Notation repr_sorted := (OmProofs.repr_sorted cmp c).
Implicit Types (s : om K V) (A : view K V).

Lemma step_Ok s A o r A' :
  ask_empty c = false -> repr s A -> call cmp c A o r A' ->
  exists s' r', om_step cmp alloc s o = Ok (s', r') /\ agree r r' /\ repr s' A'.
Proof.
  intros Hask [t Hr] Hc.
  destruct (step_c_Ok cmp Hcmp c Hme (length (elems A) + length (elems A')) s A t o r A' Hask Hr Hc)
    as (s' & r' & w & t' & Hs & Hag & Hr' & _); [lia..|].
  exists s', r'. split; [|split; [done|by exists t']]. rewrite <- om_step_erase. apply erase_Ok. by exists w.
Qed.

Lemma run_Ok s A os rs A' :
  ask_empty c = false -> repr s A -> calls cmp c A os rs A' ->
  exists s' rs', om_run cmp alloc s os = Ok (s', rs') /\ Forall2 agree rs rs' /\ repr s' A'.
Proof.
  intros Hask [t Hr] Hc%calls_are_within.
  destruct (run_c_Ok cmp Hcmp c Hme _ s A t os rs A' Hask Hr Hc) as (s' & rs' & w & t' & j & Hs & Hag & Hr' & _).
  exists s', rs'. split; [|split; [done|by exists t']]. rewrite <- om_run_erase. apply erase_Ok. by exists w.
Qed.

Lemma range_Ok s A d a b X Y :
  repr s A ->
  first (fun z => keyed cmp A (dirc (negb d)) a z \/ keyed cmp A Eq a z) (ord d (elems A)) X ->
  first (keyed cmp A (dirc (negb d)) b) (ord d (elems A)) Y ->
  exists s', om_range cmp s d a b = Ok (s', (X, Y)) /\ repr s' A.
Proof.
  intros [t Hr] HX HY.
  destruct (OmProofs.range_Ok cmp Hcmp c _ s A t d a b X Y Hr (le_n _) HX HY) as (s' & w & t' & Hs & _ & Hr').
  exists s'. split; [|by exists t']. rewrite <- om_range_erase. apply erase_Ok. by exists w.
Qed.

Lemma clear_Ok s A fn fuel :
  repr s A -> length (elems A) < fuel ->
  exists s' l, clear_loop cmp alloc fuel s fn = Ok (s', l) /\
    repr s' (View [] (if alloc then foldr delete (vals A) (elems A) else vals A)) /\
    NoDup l /\ (forall x kv, (x, kv) ∈ l <-> fn = true /\ x ∈ elems A /\ vals A !! x = Some kv).
Proof.
  intros [t Hr] Hf.
  destruct (OmProofs.clear_Ok cmp Hcmp c _ s A t fn fuel Hr Hf (le_n _)) as (s' & l & w & t' & Hs & _ & Hr' & Hl).
  exists s', l. split; [|split; [by exists t'|done]]. rewrite <- clear_loop_erase. apply erase_Ok. by exists w.
Qed.

Lemma shows_Ok s A :
  repr s A -> shown A (om_size s) (om_iter s true) (om_iter s false) (om_validate cmp s).
Proof.
  intros Hr. split_and!.
  - destruct Hr as [t (_ & _ & _ & _ & _ & Hsz & _)]. unfold om_size. by rewrite Hsz.
  - by apply (validate_Ok s A).
  - destruct (with_data (vals A) (elems A)) as (ps & Hps & HF). { intros x. by apply (repr_dat s A). }
    exists ps. split_and!; [done|done| |].
    + by apply (iter_Ok s A true).
    + apply (iter_Ok s A false); [done| |by apply Forall_rev]. by rewrite map_rev, Hps.
Qed.

Lemma ascending_Ok s A : repr s A -> ascending cmp A.
Proof. intros Hr. by apply repr_sorted in Hr as [? _]. Qed.

Lemma ascending_dat s A x : repr s A -> x ∈ elems A -> is_Some (vals A !! x).
Proof. intros Hr Hx. destruct (repr_dat s A x Hr Hx) as [kv ?]. by exists kv. Qed.
End runs.

(** ** Histories *)

Section histories.
Context {K V : Type} (cmp : K -> K -> comparison) (Hcmp : total_preorder cmp).
Notation kept alloc := (Contract alloc true false).
Implicit Types (ops : list (map_op K V)) (A : view K V).

Lemma history_repr (alloc : bool) ops rs A :
  calls cmp (kept alloc) start ops rs A ->
  exists s rs', om_run cmp alloc om_init ops = Ok (s, rs') /\ Forall2 agree rs rs' /\ repr cmp (kept alloc) s A.
Proof.
  intros Hc. apply (run_Ok cmp Hcmp (kept alloc) eq_refl om_init start ops rs A eq_refl); [apply repr_init|done].
Qed.

Lemma history (alloc : bool) ops rs A :
  calls cmp (kept alloc) start ops rs A ->
  exists s rs', om_run cmp alloc om_init ops = Ok (s, rs') /\ Forall2 agree rs rs' /\
    shown A (om_size s) (om_iter s true) (om_iter s false) (om_validate cmp s).
Proof.
  intros Hc. destruct (history_repr alloc ops rs A Hc) as (s & rs' & ? & ? & Hr). exists s, rs'.
  split_and!; [done|done|..]; by apply (shows_Ok cmp Hcmp (kept alloc)).
Qed.

Lemma history_covers (alloc : bool) ops rs A k :
  calls cmp (kept alloc) start ops rs A ->
  (exists l1 x l2, present cmp A k l1 x l2) \/ (exists l1 l2, absent cmp A k l1 l2).
Proof.
  intros Hc. destruct (history_repr alloc ops rs A Hc) as (s & rs' & ? & ? & Hr).
  apply covers; [done| |]; [by apply (ascending_Ok cmp (kept alloc) s)|intros x; by apply (ascending_dat cmp (kept alloc) s)].
Qed.

Lemma history_walk (alloc : bool) ops rs A :
  calls cmp (kept alloc) start ops rs A ->
  exists s rs' ps, om_run cmp alloc om_init ops = Ok (s, rs') /\
    om_iter s true = Ok ps /\ om_iter s false = Ok (rev ps) /\
    map fst ps = elems A /\ Forall (fun p => vals A !! fst p = Some (snd p)) ps /\
    StronglySorted (fun p q => cmp (fst (snd p)) (fst (snd q)) = Lt) ps.
Proof.
  intros Hc. destruct (history_repr alloc ops rs A Hc) as (s & rs' & Hrun & _ & Hr).
  destruct (shows_Ok cmp Hcmp (kept alloc) s A Hr) as (_ & _ & ps & Hps & HF & Hf & Hb).
  exists s, rs', ps. split_and!; [done..|]. apply (ascending_walk cmp A); [|done|done].
  by apply (ascending_Ok cmp (kept alloc) s).
Qed.

Lemma history_range (alloc : bool) ops rs A a b :
  calls cmp (kept alloc) start ops rs A -> cmp a b <> Gt ->
  exists s rs' s' l1 l2 l3, om_run cmp alloc om_init ops = Ok (s, rs') /\
    elems A = l1 ++ l2 ++ l3 /\ om_range cmp s true a b = Ok (s', (hd 0 (l2 ++ l3), hd 0 l3)) /\
    Forall (keyed cmp A Gt a) l1 /\ Forall (inside cmp A a b) l2 /\ Forall (keyed cmp A Lt b) l3 /\
    shown A (om_size s') (om_iter s' true) (om_iter s' false) (om_validate cmp s').
Proof.
  intros Hc Hab. destruct (history_repr alloc ops rs A Hc) as (s & rs' & Hrun & _ & Hr).
  destruct (range_exists cmp (kept alloc) A a b) as (x & y & Hcall).
  destruct (range_exact cmp A (kept alloc) a b x y) as (l1 & l2 & l3 & He & -> & -> & ? & ? & ?); try done.
  { by apply (ascending_Ok cmp (kept alloc) s). } { intros z; by apply (ascending_dat cmp (kept alloc) s). }
  inversion Hcall; subst.
  match goal with H : first _ _ (hd 0 (l2 ++ l3)), H' : first _ _ (hd 0 l3) |- _ =>
    destruct (range_Ok cmp Hcmp (kept alloc) s A true a b _ _ Hr H H') as (s' & Hrg & Hr') end.
  exists s, rs', s', l1, l2, l3. split_and!; try done; by apply (shows_Ok cmp Hcmp (kept alloc)).
Qed.

Lemma history_rrange (alloc : bool) ops rs A a b :
  calls cmp (kept alloc) start ops rs A -> cmp b a <> Gt ->
  exists s rs' s' l1 l2 l3, om_run cmp alloc om_init ops = Ok (s, rs') /\
    rev (elems A) = l1 ++ l2 ++ l3 /\ om_range cmp s false a b = Ok (s', (hd 0 (l2 ++ l3), hd 0 l3)) /\
    Forall (keyed cmp A Lt a) l1 /\ Forall (inside cmp A b a) l2 /\ Forall (keyed cmp A Gt b) l3 /\
    shown A (om_size s') (om_iter s' true) (om_iter s' false) (om_validate cmp s').
Proof.
  intros Hc Hab. destruct (history_repr alloc ops rs A Hc) as (s & rs' & Hrun & _ & Hr).
  destruct (rrange_exists cmp (kept alloc) A a b) as (x & y & Hcall).
  destruct (rrange_exact cmp A (kept alloc) a b x y) as (l1 & l2 & l3 & He & -> & -> & ? & ? & ?); try done.
  { by apply (ascending_Ok cmp (kept alloc) s). } { intros z; by apply (ascending_dat cmp (kept alloc) s). }
  inversion Hcall; subst.
  match goal with H : first _ _ (hd 0 (l2 ++ l3)), H' : first _ _ (hd 0 l3) |- _ =>
    destruct (range_Ok cmp Hcmp (kept alloc) s A false a b _ _ Hr H H') as (s' & Hrg & Hr') end.
  exists s, rs', s', l1, l2, l3. split_and!; try done; by apply (shows_Ok cmp Hcmp (kept alloc)).
Qed.

(** Clear: every element once to the destructor; freed exactly with an allocator. *)
Lemma history_clear (alloc fn : bool) ops rs A :
  calls cmp (kept alloc) start ops rs A ->
  exists s rs' ps s' l, om_run cmp alloc om_init ops = Ok (s, rs') /\ om_iter s true = Ok ps /\
    om_clear cmp alloc s fn = Ok (s', l) /\ l ≡ₚ (if fn then ps else []) /\
    om_size s' = Ok 0%Z /\ om_is_empty s' = true /\ om_iter s' true = Ok [] /\ om_validate cmp s' = Ok true /\
    (forall x, x ∈ map fst ps -> dat s' !! x = if alloc then None else dat s !! x) /\
    (forall x, x ∉ map fst ps -> dat s' !! x = dat s !! x).
Proof.
  intros Hc. destruct (history_repr alloc ops rs A Hc) as (s & rs' & Hrun & _ & Hr).
  destruct (shows_Ok cmp Hcmp (kept alloc) s A Hr) as (Hsz & _ & ps & Hps & HF & Hf & _).
  destruct (clear_Ok cmp Hcmp (kept alloc) s A fn (S (Z.to_nat (sz s))) Hr) as (s' & l & Hcl & Hr' & Hnd & Hl).
  { unfold om_size in Hsz. simplify_eq. lia. }
  destruct (shows_Ok cmp Hcmp (kept alloc) s' _ Hr') as (Hsz' & Hv' & ps' & Hps' & _ & Hf' & _).
  cbn in Hps'. destruct ps'; [|done].
  pose proof (repr_NoDup cmp Hcmp (kept alloc) s A Hr) as HndA.
  pose proof (repr_vals cmp (kept alloc) s A Hr) as Hd. pose proof (repr_vals cmp (kept alloc) s' _ Hr') as Hd'.
  cbn [vals] in Hd'.
  exists s, rs', ps, s', l. split_and!; try done.
  - apply NoDup_Permutation; [done| |].
    + destruct fn; [|constructor]. rewrite <- Hps in HndA. by apply (NoDup_fmap_1 fst).
    + intros [x kv]. rewrite Hl. destruct fn.
      * rewrite <- Hps. rewrite Forall_forall in HF. split.
        -- intros (_ & Hx & Hv). apply elem_of_list_fmap in Hx as ([y ky] & -> & Hy). cbn in *.
           specialize (HF _ Hy). cbn in HF. by simplify_eq.
        -- intros Hx. specialize (HF _ Hx). cbn in HF. split_and!; [done| |done].
           apply elem_of_list_fmap. by exists (x, kv).
      * split; [by intros [? _]|intros H; by apply elem_of_nil in H].
  - destruct Hr' as [t' Hr']. unfold om_is_empty. by rewrite (repr_empty cmp (kept alloc) s' _ t' Hr').
  - intros x Hx. rewrite Hps in Hx. rewrite Hd', Hd. cbn. destruct alloc; [|done].
    rewrite lookup_foldr_delete. by rewrite decide_True.
  - intros x Hx. rewrite Hps in Hx. rewrite Hd', Hd. cbn. destruct alloc; [|done].
    rewrite lookup_foldr_delete. by rewrite decide_False.
Qed.
End histories.
