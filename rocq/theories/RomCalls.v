(** Every permitted call of the WAVL map does what the specification says. *)
From stdpp Require Import base numbers option gmap fin_maps list.
From Coq Require Import Sorting.Sorted.
From Verif Require Import Common LinkHeap PathLemmas OrderSpec MapOps MapSpec TreeModel TreeProofs WavlModel WavlProofs WavlRank WavlRemove
  MapProofs MapCases OmProofs WavlNode WavlFrame RomModel RomProofs.
Local Ltac bind := cbn [mbind outcome_bind obind].

Section calls.
Context {K V : Type} (cmp : K -> K -> comparison) (Hcmp : total_preorder cmp).
Context (c : contract) (Hme : macro_err c = true).
Notation alloc := (allocates c).
Local Notation repr := (RomProofs.repr cmp c).
Local Notation reprT := (RomProofs.reprT cmp c).
Local Notation find_present := (RomProofs.find_present cmp Hcmp c).
Local Notation find_absent := (RomProofs.find_absent cmp Hcmp c).
Local Notation remove_Ok := (RomProofs.remove_Ok cmp Hcmp c).
Local Notation copy_out_Ok := (RomProofs.copy_out_Ok cmp Hcmp c).
Local Notation copy_in_Ok := (RomProofs.copy_in_Ok cmp Hcmp c).
Local Notation overwrite_Ok := (RomProofs.overwrite_Ok cmp Hcmp c).
Local Notation next_Ok := (RomProofs.next_Ok cmp c).
Local Notation iter_Ok := (RomProofs.iter_Ok cmp c).
Local Notation range_Ok := (RomProofs.range_Ok cmp Hcmp c).
Local Notation validate_Ok := (RomProofs.validate_Ok cmp Hcmp c).
Local Notation clear_Ok := (RomProofs.clear_Ok cmp Hcmp c).
Local Notation reprT_set_dat := (RomProofs.reprT_set_dat cmp Hcmp c).
Local Notation maybe_alloc_insert_Ok := (RomProofs.maybe_alloc_insert_Ok cmp Hcmp c).
Local Notation insert_copy_Ok := (RomProofs.insert_copy_Ok cmp Hcmp c).
Local Notation repr_NoDup := (RomProofs.repr_NoDup cmp Hcmp c).
Local Notation give_back_Ok := (RomProofs.give_back_Ok cmp Hcmp c).
Local Notation reprT_new := (RomProofs.reprT_new cmp Hcmp c).
Local Notation begin_Ok := (RomProofs.begin_Ok cmp c).
Local Notation reprT_put := (RomProofs.reprT_put cmp c).
Local Notation repr_vals := (RomProofs.repr_vals cmp c).
Local Notation repr_sorted := (RomProofs.repr_sorted cmp c).
Local Notation repr_sz := (RomProofs.repr_sz cmp c).
Local Notation repr_dat := (RomProofs.repr_dat cmp c).
Local Notation repr_alive := (RomProofs.repr_alive cmp c).
Local Notation repr_heap := (RomProofs.repr_heap cmp c).
Local Notation value_Ok := (RomProofs.value_Ok cmp c).
Implicit Types (s : rom K V) (A : view K V).

(** A vacant entry of the place [Q]. *)
Definition spot (Q : zip) : rent := Rent (Ent (zptr nil Q) false false true) (dir_of Q).

Lemma entry_present s A k l1 x l2 :
  repr s A -> present cmp A k l1 x l2 -> rom_entry cmp s k = Ok (Rent (occupied_ent x) (Some Eq)).
Proof. intros Hr Hp. unfold rom_entry. by rewrite (find_present s A k l1 x l2). Qed.

Lemma entry_absent s A k l1 l2 :
  repr s A -> absent cmp A k l1 l2 ->
  exists Q, rom_entry cmp s k = Ok (spot Q) /\ reprT s A (plug Q E) /\
    (forall u, nodes (plug Q u) = l1 ++ nodes u ++ l2).
Proof.
  intros Hr Ha. destruct (find_absent s A k l1 l2 Hr Ha) as (Q & Hf & Hr' & Hsp).
  exists Q. split; [|done]. unfold rom_entry. rewrite Hf. bind. by rewrite dir_miss.
Qed.

Lemma made_Ok s A Q kv ans l1 l2 p A' :
  reprT s A (plug Q E) -> (forall u, nodes (plug Q u) = l1 ++ nodes u ++ l2) ->
  absent cmp A (fst kv) l1 l2 -> made c A l1 l2 ans kv p A' ->
  exists s', new_and_insert alloc s (spot Q) kv ans = Ok (s', p) /\ repr s' A' /\
    (if alloc then ans else 0) = p.
Proof.
  intros Hr Hsp Hab Hm. unfold new_and_insert. destruct Hm as [Hal Hu|Hal].
  - rewrite Hal. pose proof Hu as (H0 & _). rewrite (proj2 (Nat.eqb_neq ans 0)) by done. cbn [andb negb].
    destruct (insert_copy_Ok s A Q kv ans l1 l2 0 0 0 false Hr Hsp Hu Hab) as (s' & Hi & Hr').
    exists s'. by split_and!.
  - destruct Hal as [-> | ->]; [exists s; split_and!; [done|by eexists|done]|].
    rewrite Nat.eqb_refl, andb_false_r. exists s.
    split_and!; [done|by eexists|]. by destruct alloc.
Qed.

Lemma present_In A k l1 x l2 : present cmp A k l1 x l2 -> x ∈ elems A.
Proof. intros (-> & _). rewrite elem_of_app. right. left. Qed.

Lemma present_key A k l1 x l2 kv : present cmp A k l1 x l2 -> vals A !! x = Some kv -> cmp k (fst kv) = Eq.
Proof. intros (_ & kv' & H & Hc) Hx. congruence. Qed.

Lemma eq_sym a b : cmp a b = Eq -> cmp b a = Eq.
Proof. intros H. by apply (cmp_flip cmp Hcmp) in H. Qed.

Lemma insert_old_Ok s A e tmp ans kv l1 x l2 old t0 :
  repr s A -> vals A !! e = Some kv -> present cmp A (fst kv) l1 x l2 -> vals A !! x = Some old ->
  e ∉ elems A -> tmp ∉ elems A -> tmp <> e -> vals A !! tmp = Some t0 ->
  exists s', rom_insert cmp alloc s e tmp ans = Ok (s', occupied_ent tmp) /\
    repr s' (set_val (set_val (set_val A tmp old) x kv) e old).
Proof.
  intros Hr1' He Hp Hx Hin Htin Hte Ht. unfold rom_insert.
  rewrite (value_Ok s A e kv) by done. bind.
  rewrite (find_present s A _ _ _ _ Hr1' Hp). bind. cbn [hit]. pose proof Hr1' as [t Hr1].
  pose proof (present_In _ _ _ _ _ Hp) as Hxin. pose proof (present_key _ _ _ _ _ _ Hp Hx) as Hk.
  destruct (repr_alive s A x old Hr1' Hx) as (Hlx & Hx0 & Hxn).
  destruct (repr_alive s A e kv Hr1' He) as (Hle & He0 & Hen).
  destruct (repr_alive s A tmp t0 Hr1' Ht) as (Hlt & Ht0 & Htn).
  assert (x <> e) as Hxe by (by intros ->). assert (tmp <> x) as Htx by (by intros ->).
  destruct (alive_node _ _ Hlx) as (l & r & p & b & Hnx).
  rewrite (copy_node_Ok _ _ _ l r p b) by done. bind.
  set (s2 := set_tr s (put_node (tr s) e l r p b)).
  assert (reprT s2 A t) as Hr2 by (by apply reprT_put).
  rewrite (proj2 (Nat.eqb_neq x e)) by done.
  assert (node_is (tr s2) x l r p b) as Hnx2 by (by apply node_put_ne).
  assert (node_is (tr s2) e l r p b) as Hne2 by apply node_put.
  destruct (copy_out_Ok s2 A _ tmp x old t0 Hr2 Htx Htin Ht Hx) as (l' & r' & p' & b' & Hnx2' & Hcp & Hr3).
  assert (l' = l /\ r' = r /\ p' = p /\ b' = b) as (-> & -> & -> & ->).
  { destruct Hnx2 as (? & ? & ? & ?), Hnx2' as (? & ? & ? & ?). split_and!; congruence. }
  rewrite Hcp. bind. set (s3 := set_dat _ tmp old) in *.
  assert (forall z, z <> tmp -> vals (set_val A tmp old) !! z = vals A !! z) as Hother.
  { intros z Hz. cbn. by rewrite lookup_insert_ne. }
  destruct (copy_in_Ok s3 (set_val A tmp old) t x e kv old l r p b) as [Hcp2 Hr4]; try done.
  { by rewrite Hother by done. } { by rewrite Hother by (by apply not_eq_sym). } { by apply eq_sym. }
  { by apply node_put_ne. } { by apply node_put_ne. }
  rewrite Hcp2. bind.
  assert (vals (set_val (set_val A tmp old) x kv) !! e = Some kv) as He4.
  { cbn. by rewrite !lookup_insert_ne. }
  assert (vals (set_val (set_val A tmp old) x kv) !! tmp = Some old) as Ht4.
  { cbn. rewrite lookup_insert_ne by done. by rewrite lookup_insert. }
  destruct (copy_out_Ok _ _ _ e tmp old kv Hr4) as (l5 & r5 & p5 & b5 & _ & Hcp5 & Hr5);
    [by apply not_eq_sym|done|done|done|].
  rewrite Hcp5. bind. set (s5 := set_dat _ e old) in *.
  set (A5 := set_val (set_val (set_val A tmp old) x kv) e old) in *.
  rewrite (null_links_Ok (tr s5) e l5 r5 p5 b5) by apply node_put. bind.
  set (s6 := set_tr s5 (put_node (tr s5) e 0 0 0 b5)).
  assert (reprT s6 A5 t) as Hr6 by (by apply reprT_put).
  destruct (repr_alive s6 A5 tmp old) as (Hlt6 & _); [by eexists| |].
  { cbn. rewrite !lookup_insert_ne by done. by rewrite lookup_insert. }
  destruct (alive_node _ _ Hlt6) as (l6 & r6 & p6 & b6 & Hnt).
  change (put_node (tr s5) e 0 0 0 b5) with (tr s6). rewrite (null_links_Ok _ _ _ _ _ _ Hnt). bind.
  eexists. split; [done|]. exists t.
  exact (reprT_put s6 A5 _ tmp 0 0 0 b6 Hr6 Htin Htn).
Qed.

Lemma remove_present s A k l1 x l2 :
  repr s A -> present cmp A k l1 x l2 ->
  exists s1, remove_fixup s x = Ok (s1, x) /\ repr s1 (set_elems A (l1 ++ l2)) /\
    (alloc = true -> x ∈ heap s1) /\ x ∉ l1 ++ l2 /\ x <> 0.
Proof.
  intros Hr Hp. destruct (remove_Ok s A l1 x l2 Hr) as (s1 & -> & Hr1 & Hh); [apply Hp|].
  pose proof (present_In _ _ _ _ _ Hp) as Hxin. destruct (repr_dat s A x Hr Hxin) as [kx Hkx].
  destruct (repr_alive s A x kx Hr Hkx) as (_ & Hx0 & _).
  exists s1. split_and!; [done|done| | |done].
  - intros Hal. rewrite Hh. by apply (repr_heap s A).
  - pose proof (repr_NoDup s A Hr) as Hnd. destruct Hp as (Hel & _). rewrite Hel in Hnd.
    apply NoDup_app in Hnd as (_ & Hd & [Hn _]%NoDup_cons). apply not_elem_of_app. split; [|done].
    intros Hz. apply (Hd x Hz). left.
Qed.

Lemma step_Ok s A o r A' :
  repr s A -> call cmp c A o r A' ->
  exists s' r', rom_step cmp alloc s o = Ok (s', r') /\ agree r r' /\ repr s' A'.
Proof.
  intros Hr Hc. destruct Hc; cbn [rom_step].
  - (* new *) destruct Hr as [t Hr]. eexists _, _. split_and!; [done|done|]. exists t. by apply reprT_new.
  - (* contains *) unfold rom_contains. rewrite (find_present s A _ _ _ _ Hr H). bind.
    eexists _, _. split_and!; [done|done|done].
  - unfold rom_contains. destruct (find_absent s A _ _ _ Hr H) as (Q & -> & _). bind. rewrite dir_miss.
    eexists _, _. split_and!; [done|done|done].
  - (* get *) unfold rom_get. rewrite (find_present s A _ _ _ _ Hr H). bind.
    eexists _, _. split_and!; [done|done|done].
  - unfold rom_get. destruct (find_absent s A _ _ _ Hr H) as (Q & -> & _). bind. rewrite dir_miss.
    eexists _, _. split_and!; [done|done|done].
  - (* insert *) unfold rom_insert. rewrite (value_Ok s A e kv) by done. bind.
    destruct (find_absent s A _ _ _ Hr H0) as (Q & -> & Hr1 & Hsp). bind. rewrite dir_miss.
    destruct (maybe_alloc_insert_Ok s A Q e ans kv l1 l2 p A' Hr1 Hsp H H0 H1) as (s2 & -> & Hr2). bind.
    eexists _, _. split_and!; [done| |done]. unfold refused. by destruct (p =? 0).
  - destruct (insert_old_Ok s A e tmp ans kv l1 x l2 old t0) as (s' & -> & Hr'); try done. bind.
    eexists _, _. split_and!; [done|done|done].
  - (* try_insert *) unfold rom_try_insert. rewrite (value_Ok s A e kv) by done. bind.
    destruct (find_absent s A _ _ _ Hr H0) as (Q & -> & Hr1 & Hsp). bind. rewrite dir_miss.
    destruct (maybe_alloc_insert_Ok s A Q e ans kv l1 l2 p A' Hr1 Hsp H H0 H1) as (s2 & -> & Hr2). bind.
    eexists _, _. split_and!; [done| |done]. unfold refused. by destruct (Nat.eqb_spec p 0) as [-> |].
  - unfold rom_try_insert. rewrite (value_Ok s A e kv) by done. bind.
    rewrite (find_present s A _ _ _ _ Hr H0). bind. cbn [hit].
    eexists _, _. split_and!; [done|done|done].
  - (* insert_or_assign *) unfold rom_insert_or_assign. rewrite (value_Ok s A e kv) by done. bind.
    destruct (find_absent s A _ _ _ Hr H0) as (Q & -> & Hr1 & Hsp). bind. rewrite dir_miss.
    destruct (maybe_alloc_insert_Ok s A Q e ans kv l1 l2 p A' Hr1 Hsp H H0 H1) as (s2 & -> & Hr2). bind.
    eexists _, _. split_and!; [done| |done]. unfold refused. by destruct (Nat.eqb_spec p 0) as [-> |].
  - unfold rom_insert_or_assign. rewrite (value_Ok s A e kv) by done. bind.
    rewrite (find_present s A _ _ _ _ Hr H0). bind. cbn [hit].
    pose proof (present_In _ _ _ _ _ H0) as Hin. destruct (repr_dat s A x Hr Hin) as [kx Hkx].
    destruct (overwrite_Ok s A x e kv kx Hr) as (s2 & -> & Hr2); try done.
    { apply eq_sym. by apply (present_key A _ l1 x l2). }
    bind. eexists _, _. split_and!; [done|done|done].
  - (* remove *) unfold rom_remove. rewrite (value_Ok s A e kv) by done. bind.
    destruct (find_absent s A _ _ _ Hr H0) as (Q & -> & _). bind. rewrite dir_miss.
    eexists _, _. split_and!; [done|done|done].
  - unfold rom_remove. rewrite (value_Ok s A e kv) by done. bind.
    rewrite (find_present s A _ _ _ _ Hr H0). bind. cbn [hit negb].
    destruct (remove_present s A _ l1 x l2 Hr H0) as (s1 & -> & Hr1 & _ & _ & Hx0). bind.
    rewrite H1. eexists _, _. split_and!; [done|done|]. unfold removed. by rewrite H1.
  - unfold rom_remove. rewrite (value_Ok s A e kv) by done. bind.
    rewrite (find_present s A _ _ _ _ Hr H0). bind. cbn [hit negb].
    destruct (remove_present s A _ l1 x l2 Hr H0) as (s1 & -> & Hr1 & Hh & Hxn & Hx0). bind.
    rewrite H1. pose proof (present_In _ _ _ _ _ H0) as Hin. assert (e <> x) as Hex by (by intros ->).
    destruct Hr1 as [t1 Hr1].
    destruct (copy_out_Ok s1 (set_elems A (l1 ++ l2)) t1 e x old kv Hr1) as (l & r & p & b & _ & Hcp & Hr2); try done.
    { cbn. destruct H0 as (Hel & _). rewrite Hel in H2. rewrite elem_of_app, elem_of_cons in H2. rewrite elem_of_app. tauto. }
    rewrite Hcp. bind.
    match type of Hr2 with reprT ?s2 ?A2 _ =>
      destruct (give_back_Ok s2 A2 x old) as (s3 & -> & Hr3); [by exists t1| |done|by apply Hh|] end.
    { cbn. by rewrite lookup_insert_ne. }
    bind. eexists _, _. split_and!; [done|done|]. unfold removed. rewrite H1.
    unfold drop_val, set_val, set_elems in *. cbn in *. by rewrite <- delete_insert_ne.
  - (* entry *) rewrite (entry_present s A _ _ _ _ Hr H). bind. eexists _, _. split_and!; [done|done|done].
  - destruct (entry_absent s A _ _ _ Hr H) as (Q & -> & _). bind. eexists _, _. split_and!; [done|done|done].
  - (* or_insert *) destruct (entry_absent s A _ _ _ Hr H1) as (Q & -> & Hr1 & Hsp). bind.
    unfold rom_or_insert. cbn [occupied re last e_ spot].
    destruct (maybe_alloc_insert_Ok s A Q e ans kv l1 l2 p A') as (s2 & -> & Hr2); try done.
    { by apply (absent_key cmp Hcmp A k). }
    bind. eexists _, _. split_and!; [done|done|done].
  - rewrite (entry_present s A _ _ _ _ Hr H). bind. eexists _, _. split_and!; [done|done|done].
  - (* insert_entry *) destruct (entry_absent s A _ _ _ Hr H1) as (Q & -> & Hr1 & Hsp). bind.
    unfold rom_insert_entry. cbn [occupied re last e_ spot].
    destruct (maybe_alloc_insert_Ok s A Q e ans kv l1 l2 p A') as (s2 & -> & Hr2); try done.
    { by apply (absent_key cmp Hcmp A k). }
    bind. eexists _, _. split_and!; [done|done|done].
  - rewrite (entry_present s A _ _ _ _ Hr H1). bind.
    pose proof (present_In _ _ _ _ _ H1) as Hin. destruct (repr_dat s A x Hr Hin) as [kx Hkx].
    unfold rom_insert_entry. cbn [occupied re occupied_ent e_].
    destruct (overwrite_Ok s A x e kv kx Hr) as (s2 & -> & Hr2); try done.
    { rewrite <- (cmp_eq_r cmp Hcmp _ _ _ H0). apply eq_sym. by apply (present_key A _ l1 x l2). }
    bind. eexists _, _. split_and!; [done|done|done].
  - (* and_modify *) rewrite (entry_present s A _ _ _ _ Hr H). bind.
    unfold rom_and_modify. cbn [occupied re occupied_ent e_]. rewrite (value_Ok s A x kv) by done. bind.
    destruct (repr_alive s A x kv Hr) as (Hlx & Hx0 & Hxn); [done|].
    eexists _, _. split_and!; [done|done|]. destruct Hr as [t Hr]. exists t. apply reprT_set_dat; try done.
    intros _. exists kv. split; [done|by apply cmp_refl].
  - destruct (entry_absent s A _ _ _ Hr H) as (Q & -> & _). bind. eexists _, _. split_and!; [done|done|done].
  - (* remove_entry *) rewrite (entry_present s A _ _ _ _ Hr H). bind.
    unfold rom_remove_entry. cbn [occupied re occupied_ent e_].
    pose proof (present_In _ _ _ _ _ H) as Hin. destruct (repr_dat s A x Hr Hin) as [kx Hkx].
    destruct (remove_present s A k l1 x l2 Hr H) as (s2 & -> & Hr2 & Hh & Hxn & Hx0). bind.
    rewrite (proj2 (Nat.eqb_neq x 0)) by done. cbn [negb oassert]. bind. unfold removed.
    destruct alloc eqn:Hal.
    + destruct (give_back_Ok s2 _ x kx Hr2) as (s3 & -> & Hr3); [done|done|by apply Hh|]. bind.
      eexists _, _. split_and!; [done|done|done].
    + eexists _, _. split_and!; [done|done|done].
  - destruct (entry_absent s A _ _ _ Hr H) as (Q & -> & _). bind. eexists _, _. split_and!; [done|done|done].
  - (* or_insert_w *) destruct (entry_absent s A _ _ _ Hr H0) as (Q & -> & Hr1 & Hsp). bind.
    unfold rom_or_insert_w. cbn [occupied re spot].
    destruct (made_Ok s A Q (k', v) ans l1 l2 p A' Hr1 Hsp) as (s2 & -> & Hr2 & _); [by apply (absent_key cmp Hcmp A k)|done|].
    bind. eexists _, _. split_and!; [done|done|done].
  - rewrite (entry_present s A _ _ _ _ Hr H). bind. eexists _, _. split_and!; [done|done|done].
  - (* insert_entry_w *) destruct (entry_absent s A _ _ _ Hr H0) as (Q & -> & Hr1 & Hsp). bind.
    unfold rom_insert_entry_w. cbn [occupied re spot negb].
    destruct (made_Ok s A Q (k', v) ans l1 l2 p A' Hr1 Hsp) as (s2 & -> & Hr2 & _); [by apply (absent_key cmp Hcmp A k)|done|].
    bind. eexists _, _. split_and!; [done|done|done].
  - rewrite (entry_present s A _ _ _ _ Hr H0). bind.
    pose proof (present_In _ _ _ _ _ H0) as Hin. destruct (repr_dat s A x Hr Hin) as [kx Hkx].
    unfold rom_insert_entry_w. cbn [occupied re occupied_ent negb e_].
    rewrite (value_Ok s A x kx) by done. bind.
    destruct (repr_alive s A x kx Hr) as (Hlx & Hx0 & Hxn); [done|].
    eexists _, _. split_and!; [done|done|]. destruct Hr as [t Hr]. exists t. apply reprT_set_dat; try done.
    intros _. exists kx. split; [done|]. cbn [fst]. rewrite <- (cmp_eq_r cmp Hcmp _ _ _ H).
    apply eq_sym. by apply (present_key A _ l1 x l2).
  - (* try_insert_w *) unfold rom_try_insert_w. destruct (entry_absent s A _ _ _ Hr H) as (Q & -> & Hr1 & Hsp). bind.
    cbn [occupied re spot negb]. unfold insert_and_copy_key.
    destruct (made_Ok s A Q (k, v) ans l1 l2 p A' Hr1 Hsp H H0) as (s2 & -> & Hr2 & Hp). bind.
    eexists _, _. split_and!; [done| |done]. rewrite Hp, Hme, orb_true_r. done.
  - unfold rom_try_insert_w. rewrite (entry_present s A _ _ _ _ Hr H). bind.
    eexists _, _. split_and!; [done|done|done].
  - (* insert_or_assign_w *) unfold rom_insert_or_assign_w. destruct (entry_absent s A _ _ _ Hr H) as (Q & -> & Hr1 & Hsp). bind.
    cbn [occupied re spot negb]. unfold insert_and_copy_key.
    destruct (made_Ok s A Q (k, v) ans l1 l2 p A' Hr1 Hsp H H0) as (s2 & -> & Hr2 & Hp). bind.
    eexists _, _. split_and!; [done| |done]. rewrite Hp, Hme, orb_true_r. done.
  - unfold rom_insert_or_assign_w. rewrite (entry_present s A _ _ _ _ Hr H). bind.
    pose proof (present_In _ _ _ _ _ H) as Hin. destruct (repr_dat s A x Hr Hin) as [kx Hkx].
    cbn [occupied re occupied_ent negb e_].
    rewrite (value_Ok s A x kx) by done. bind.
    destruct (repr_alive s A x kx Hr) as (Hlx & Hx0 & Hxn); [done|].
    eexists _, _. split_and!; [done|done|]. destruct Hr as [t Hr]. exists t. apply reprT_set_dat; try done.
    intros _. exists kx. split; [done|]. cbn [fst]. apply eq_sym. by apply (present_key A _ l1 x l2).
  - (* begin, rbegin *) rewrite (begin_Ok s A) by done. bind. eexists _, _. split_and!; [done|done|done].
  - rewrite (begin_Ok s A) by done. bind. eexists _, _. split_and!; [done|done|done].
  - (* next, rnext *) rewrite (next_Ok s A true e l1 l2) by done. bind. eexists _, _. split_and!; [done|done|done].
  - rewrite (next_Ok s A false e (rev l2) (rev l1)); [|done|].
    + bind. eexists _, _. split_and!; [done|done|done].
    + cbn. rewrite H, rev_app_distr. cbn. by rewrite <- app_assoc.
  - (* ranges *) rewrite (range_Ok s A true a b x y Hr) by done. bind.
    eexists _, _. split_and!; [done|done|done].
  - rewrite (range_Ok s A false a b x y Hr) by done. bind.
    eexists _, _. split_and!; [done|done|done].
  - (* clear *) unfold rom_clear.
    destruct (clear_Ok s A fn (S (Z.to_nat (sz s))) Hr) as (s' & l & -> & Hr' & Hnd & Hl).
    { rewrite (repr_sz s A Hr). lia. }
    bind. eexists _, _. split_and!; [done| |done]. split; [done|].
    apply NoDup_Permutation; [done|done|]. intros [x kv]. by rewrite H, Hl.
  - (* size, is_empty, validate *) eexists _, _. split_and!; [done| |done].
    cbn. by rewrite (repr_sz s A Hr).
  - eexists _, _. split_and!; [done| |done]. cbn. unfold rom_is_empty.
    rewrite (repr_sz s A Hr). by destruct (elems A).
  - rewrite (validate_Ok s A) by done. bind. eexists _, _. split_and!; [done|done|done].
Qed.

Lemma run_Ok s A os rs A' :
  repr s A -> calls cmp c A os rs A' ->
  exists s' rs', rom_run cmp alloc s os = Ok (s', rs') /\ Forall2 agree rs rs' /\ repr s' A'.
Proof.
  intros Hr Hc. revert s Hr. induction Hc as [A|A o r A1 os rs A2 Hc Hcs IH]; intros s Hr.
  - exists s, []. done.
  - destruct (step_Ok s A o r A1 Hr Hc) as (s1 & r' & Hs & Hag & Hr1).
    destruct (IH s1 Hr1) as (s2 & rs' & Hrun & Hags & Hr2).
    exists s2, (r' :: rs'). cbn [rom_run]. rewrite Hs. bind. rewrite Hrun. bind. split_and!; [done|by constructor|done].
Qed.

Lemma shows_Ok s A :
  repr s A -> shown A (rom_size s) (rom_iter s true) (rom_iter s false) (rom_validate cmp s).
Proof.
  intros Hr. split_and!.
  - unfold rom_size. by rewrite (repr_sz s A).
  - by apply (validate_Ok s A).
  - destruct (with_data (vals A) (elems A)) as (ps & Hps & HF). { intros x. by apply (repr_dat s A). }
    exists ps. split_and!; [done|done| |].
    + by apply (iter_Ok s A true).
    + apply (iter_Ok s A false); [done| |by apply Forall_rev]. by rewrite map_rev, Hps.
Qed.

Lemma ascending_Ok s A : repr s A -> ascending cmp A.
Proof. intros Hr. by apply repr_sorted in Hr as [? _]. Qed.

Lemma ascending_dat s A x : repr s A -> x ∈ elems A -> is_Some (vals A !! x).
Proof. intros Hr Hx. destruct (repr_dat s A x Hr Hx) as [kv ?]. by exists kv. Qed.
End calls.

(** ** Histories *)

(** [x] is a node of the tree [m] links below the root. *)
Inductive below (s : wavl) : nat -> nat -> Prop :=
  | below_root : wroot s <> nil -> below s 0 (wroot s)
  | below_child m x d y : below s m x -> br (wl s) d !! x = Some y -> y <> nil -> below s (S m) y.

Section histories.
Context {K V : Type} (cmp : K -> K -> comparison) (Hcmp : total_preorder cmp).
Notation kept alloc := (Contract alloc true true).
Implicit Types (ops : list (map_op K V)) (A : view K V).

Lemma history_repr (alloc : bool) ops rs A :
  calls cmp (kept alloc) start ops rs A ->
  exists s rs', rom_run cmp alloc rom_init ops = Ok (s, rs') /\ Forall2 agree rs rs' /\ repr cmp (kept alloc) s A.
Proof.
  intros Hc. apply (run_Ok cmp Hcmp (kept alloc) eq_refl rom_init start ops rs A); [apply repr_init|done].
Qed.

Lemma history (alloc : bool) ops rs A :
  calls cmp (kept alloc) start ops rs A ->
  exists s rs', rom_run cmp alloc rom_init ops = Ok (s, rs') /\ Forall2 agree rs rs' /\
    shown A (rom_size s) (rom_iter s true) (rom_iter s false) (rom_validate cmp s).
Proof.
  intros Hc. destruct (history_repr alloc ops rs A Hc) as (s & rs' & ? & ? & Hr). exists s, rs'.
  split_and!; [done|done|..]; by apply (shows_Ok cmp Hcmp (kept alloc)).
Qed.

Lemma history_covers (alloc : bool) ops rs A k :
  calls cmp (kept alloc) start ops rs A ->
  (exists l1 x l2, present cmp A k l1 x l2) \/ (exists l1 l2, absent cmp A k l1 l2).
Proof.
  intros Hc. destruct (history_repr alloc ops rs A Hc) as (s & rs' & ? & ? & Hr).
  apply covers; [done| |]; [by apply (ascending_Ok cmp (kept alloc) s)|intros x; by apply (ascending_dat cmp (kept alloc) s)].
Qed.

Lemma history_walk (alloc : bool) ops rs A :
  calls cmp (kept alloc) start ops rs A ->
  exists s rs' ps, rom_run cmp alloc rom_init ops = Ok (s, rs') /\
    rom_iter s true = Ok ps /\ rom_iter s false = Ok (rev ps) /\
    map fst ps = elems A /\ Forall (fun p => vals A !! fst p = Some (snd p)) ps /\
    StronglySorted (fun p q => cmp (fst (snd p)) (fst (snd q)) = Lt) ps.
Proof.
  intros Hc. destruct (history_repr alloc ops rs A Hc) as (s & rs' & Hrun & _ & Hr).
  destruct (shows_Ok cmp Hcmp (kept alloc) s A Hr) as (_ & _ & ps & Hps & HF & Hf & Hb).
  exists s, rs', ps. split_and!; [done..|]. apply (ascending_walk cmp A); [|done|done].
  by apply (ascending_Ok cmp (kept alloc) s).
Qed.

Lemma history_range (alloc : bool) ops rs A a b :
  calls cmp (kept alloc) start ops rs A -> cmp a b <> Gt ->
  exists s rs' l1 l2 l3, rom_run cmp alloc rom_init ops = Ok (s, rs') /\
    elems A = l1 ++ l2 ++ l3 /\ rom_range cmp s true a b = Ok (hd 0 (l2 ++ l3), hd 0 l3) /\
    Forall (keyed cmp A Gt a) l1 /\ Forall (inside cmp A a b) l2 /\ Forall (keyed cmp A Lt b) l3.
Proof.
  intros Hc Hab. destruct (history_repr alloc ops rs A Hc) as (s & rs' & Hrun & _ & Hr).
  destruct (range_exists cmp (kept alloc) A a b) as (x & y & Hcall).
  destruct (range_exact cmp A (kept alloc) a b x y) as (l1 & l2 & l3 & He & -> & -> & ? & ? & ?); try done.
  { by apply (ascending_Ok cmp (kept alloc) s). } { intros z; by apply (ascending_dat cmp (kept alloc) s). }
  inversion Hcall; subst.
  match goal with H : first _ _ (hd 0 (l2 ++ l3)), H' : first _ _ (hd 0 l3) |- _ =>
    pose proof (range_Ok cmp Hcmp (kept alloc) s A true a b _ _ Hr H H') as Hrg end.
  by exists s, rs', l1, l2, l3.
Qed.

Lemma history_rrange (alloc : bool) ops rs A a b :
  calls cmp (kept alloc) start ops rs A -> cmp b a <> Gt ->
  exists s rs' l1 l2 l3, rom_run cmp alloc rom_init ops = Ok (s, rs') /\
    rev (elems A) = l1 ++ l2 ++ l3 /\ rom_range cmp s false a b = Ok (hd 0 (l2 ++ l3), hd 0 l3) /\
    Forall (keyed cmp A Lt a) l1 /\ Forall (inside cmp A b a) l2 /\ Forall (keyed cmp A Gt b) l3.
Proof.
  intros Hc Hab. destruct (history_repr alloc ops rs A Hc) as (s & rs' & Hrun & _ & Hr).
  destruct (rrange_exists cmp (kept alloc) A a b) as (x & y & Hcall).
  destruct (rrange_exact cmp A (kept alloc) a b x y) as (l1 & l2 & l3 & He & -> & -> & ? & ? & ?); try done.
  { by apply (ascending_Ok cmp (kept alloc) s). } { intros z; by apply (ascending_dat cmp (kept alloc) s). }
  inversion Hcall; subst.
  match goal with H : first _ _ (hd 0 (l2 ++ l3)), H' : first _ _ (hd 0 l3) |- _ =>
    pose proof (range_Ok cmp Hcmp (kept alloc) s A false a b _ _ Hr H H') as Hrg end.
  by exists s, rs', l1, l2, l3.
Qed.

(** Clear: every element once to the destructor; freed exactly with an allocator. *)
Lemma history_clear (alloc fn : bool) ops rs A :
  calls cmp (kept alloc) start ops rs A ->
  exists s rs' ps s' l, rom_run cmp alloc rom_init ops = Ok (s, rs') /\ rom_iter s true = Ok ps /\
    rom_clear alloc s fn = Ok (s', OK, l) /\ l ≡ₚ (if fn then ps else []) /\
    rom_size s' = Ok 0%Z /\ rom_is_empty s' = true /\ rom_iter s' true = Ok [] /\ rom_validate cmp s' = Ok true /\
    (forall x, x ∈ map fst ps -> dat s' !! x = if alloc then None else dat s !! x) /\
    (forall x, x ∉ map fst ps -> dat s' !! x = dat s !! x).
Proof.
  intros Hc. destruct (history_repr alloc ops rs A Hc) as (s & rs' & Hrun & _ & Hr).
  destruct (shows_Ok cmp Hcmp (kept alloc) s A Hr) as (Hsz & _ & ps & Hps & HF & Hf & _).
  destruct (clear_Ok cmp Hcmp (kept alloc) s A fn (S (Z.to_nat (sz s))) Hr) as (s' & l & Hcl & Hr' & Hnd & Hl).
  { unfold rom_size in Hsz. simplify_eq. lia. }
  destruct (shows_Ok cmp Hcmp (kept alloc) s' _ Hr') as (Hsz' & Hv' & ps' & Hps' & _ & Hf' & _).
  cbn in Hps'. destruct ps'; [|done].
  pose proof (repr_NoDup cmp Hcmp (kept alloc) s A Hr) as HndA.
  pose proof (repr_vals cmp (kept alloc) s A Hr) as Hd. pose proof (repr_vals cmp (kept alloc) s' _ Hr') as Hd'.
  cbn [vals] in Hd'.
  exists s, rs', ps, s', l. split_and!; try done.
  - apply NoDup_Permutation; [done| |].
    + destruct fn; [|constructor]. rewrite <- Hps in HndA. by apply (NoDup_fmap_1 fst).
    + intros [x kv]. rewrite Hl. destruct fn.
      * rewrite <- Hps. rewrite Forall_forall in HF. split.
        -- intros (_ & Hx & Hv). apply elem_of_list_fmap in Hx as ([y ky] & -> & Hy). cbn in *.
           specialize (HF _ Hy). cbn in HF. by simplify_eq.
        -- intros Hx. specialize (HF _ Hx). cbn in HF. split_and!; [done| |done].
           apply elem_of_list_fmap. by exists (x, kv).
      * split; [by intros [? _]|intros H; by apply elem_of_nil in H].
  - unfold rom_is_empty. by rewrite (repr_sz cmp (kept alloc) s' _ Hr').
  - intros x Hx. rewrite Hps in Hx. rewrite Hd', Hd. cbn. destruct alloc; [|done].
    rewrite lookup_foldr_delete. by rewrite decide_True.
  - intros x Hx. rewrite Hps in Hx. rewrite Hd', Hd. cbn. destruct alloc; [|done].
    rewrite lookup_foldr_delete. by rewrite decide_False.
Qed.

(** ** Balance *)

Lemma below_height (s : rom K V) (t : tree) m x :
  wroot (tr s) = ptr nil t -> rep nil (wl (tr s)) nil t -> below (tr s) m x ->
  exists Q a b, t = plug Q (T a x b) /\ length Q = m.
Proof.
  intros Hroot Hrep. induction 1 as [Hne|m x d y Hb IH Hy Hne].
  - rewrite Hroot in *. destruct t as [|a x b]; [done|]. by exists [], a, b.
  - destruct IH as (Q & a & b & -> & <-).
    assert (root_of : ptr nil (plug Q (T a x b)) = ptr nil (plug Q (T a x b))) by done.
    destruct (proj2 (zrep_plug nil (wl (tr s)) _ Q (T a x b)) (conj root_of Hrep)) as [_ Hr].
    destruct Hr as (Hl & Hrt & _). destruct d; cbn [br] in Hy.
    + assert (y = ptr nil b) as -> by congruence. destruct b as [|b1 z b2]; [done|].
      by exists ((true, x, a) :: Q), b1, b2.
    + assert (y = ptr nil a) as -> by congruence. destruct a as [|a1 z a2]; [done|].
      by exists ((false, x, b) :: Q), a1, a2.
Qed.

Lemma history_depth (alloc : bool) ops rs A :
  calls cmp (kept alloc) start ops rs A ->
  exists s rs', rom_run cmp alloc rom_init ops = Ok (s, rs') /\
    forall m x, below (tr s) m x -> 2 ^ S m <= S (length (elems A)) * S (length (elems A)).
Proof.
  intros Hc. destruct (history_repr alloc ops rs A Hc) as (s & rs' & Hrun & _ & [t Hr]).
  exists s, rs'. split; [done|]. intros m x Hb. destruct (reprT_rep cmp (kept alloc) s A t Hr) as (Hroot & Hrep & _).
  destruct (below_height s t m x Hroot Hrep Hb) as (Q & a & b & Ht & Hlen).
  destruct Hr as ((_ & _ & n & Hok) & Hn & _). rewrite <- Hn. etrans; [|by apply (ok_log _ _ _ Hok)].
  apply Nat.pow_le_mono_r; [done|]. pose proof (plug_height Q (T a x b)) as Hh. rewrite <- Ht in Hh. cbn [height] in Hh. lia.
Qed.

Lemma find_loop_mono f f' (dat : gmap nat (K * V)) h k p x c q :
  f <= f' -> find_loop nil cmp f dat h k p x c = Ok q -> find_loop nil cmp f' dat h k p x c = Ok q.
Proof.
  revert f' p x c. induction f as [|f IH]; intros f' p x c Hle; [done|]. destruct f' as [|f']; [lia|].
  cbn [find_loop]. destruct (x =? nil); [done|]. destruct (cmpk cmp dat k x) as [o| |]; bind; try done.
  destruct (is_eq o); [done|]. destruct (rd (br h (is_gt o)) x) as [n| |]; bind; try done. apply IH. lia.
Qed.

Lemma history_search (alloc : bool) ops rs A k f :
  calls cmp (kept alloc) start ops rs A ->
  S (length (elems A)) * S (length (elems A)) < 2 ^ S f ->
  exists s rs', rom_run cmp alloc rom_init ops = Ok (s, rs') /\
    find_loop nil cmp (S f) (dat s) (wl (tr s)) k nil (wroot (tr s)) None = find cmp s k /\
    exists p, find cmp s k = Ok p.
Proof.
  intros Hc Hf. destruct (history_repr alloc ops rs A Hc) as (s & rs' & Hrun & _ & Hr).
  exists s, rs'. split; [done|]. pose proof Hr as [t Ht].
  assert (height t < S f) as Hh.
  { destruct Ht as ((_ & _ & n & Hok) & Hn & _). pose proof (ok_log _ _ _ Hok) as Hlog. rewrite Hn in Hlog.
    apply (Nat.pow_lt_mono_r_iff 2); [lia|]. lia. }
  assert (exists p, find_loop nil cmp (S f) (dat s) (wl (tr s)) k nil (wroot (tr s)) None = Ok p) as [p Hp].
  { destruct (loop_cases cmp Hcmp (kept alloc) s A t k (S f) Ht Hh) as [(x & l1 & l2 & -> & _)|(Q & l & r & -> & _)]; by eauto. }
  assert (exists q, find cmp s k = Ok q) as [q Hq].
  { destruct (find_cases cmp Hcmp (kept alloc) s A t k Ht) as [(x & l1 & l2 & -> & _)|(Q & l & r & -> & _)]; by eauto. }
  rewrite Hp, Hq. split; [|by eauto]. unfold find, tree_find in Hq.
  destruct (Nat.le_ge_cases (S f) (budget (sz s))) as [Hle|Hle].
  - by rewrite (find_loop_mono _ _ _ _ _ _ _ _ _ Hle Hp) in Hq.
  - by rewrite (find_loop_mono _ _ _ _ _ _ _ _ _ Hle Hq) in Hp.
Qed.
End histories.
