(** The specification of the ordered maps can be computed: every key is present or
    absent, ranges exist and are what they should be, and permitted calls can be
    found mechanically (for the examples). *)
From stdpp Require Import base numbers option gmap fin_maps list.
From Coq Require Import Sorting.Sorted.
From Verif Require Import Common OrderSpec MapOps MapSpec TreeModel TreeProofs MapProofs.

Section cases.
Context {K V : Type} (cmp : K -> K -> comparison).
Implicit Types (A : view K V).

Definition same (a b : comparison) : bool :=
  match a, b with Eq, Eq | Lt, Lt | Gt, Gt => true | _, _ => false end.
Definition keyedb A (o : comparison) (k : K) (x : nat) : bool :=
  match vals A !! x with Some kv => same (cmp k (fst kv)) o | None => false end.

Lemma keyedb_spec A o k x : keyedb A o k x = true <-> keyed cmp A o k x.
Proof.
  unfold keyedb, keyed. destruct (vals A !! x) as [kv|].
  - split.
    + intros H. exists kv. split; [done|]. by destruct (cmp k (fst kv)), o.
    + intros (kv' & ? & <-). simplify_eq. by destruct (cmp k (fst kv')).
  - split; [done|]. intros (? & ? & _). done.
Qed.

(** Position of a key in the list of elements. *)
Fixpoint position A (k : K) (l : list nat) : list nat * option nat * list nat :=
  match l with
  | [] => ([], None, [])
  | x :: l' =>
    if keyedb A Gt k x then let '(l1, o, l2) := position A k l' in (x :: l1, o, l2)
    else if keyedb A Eq k x then ([], Some x, l')
    else ([], None, l)
  end.

Lemma position_app A k l : let '(l1, o, l2) := position A k l in
  l = l1 ++ (match o with Some x => [x] | None => [] end) ++ l2 /\ Forall (keyed cmp A Gt k) l1 /\
  match o with Some x => keyed cmp A Eq k x | None => match l2 with [] => True | x :: _ => keyedb A Gt k x = false /\ keyedb A Eq k x = false end end.
Proof.
  induction l as [|x l IH]; cbn [position]; [by split_and!|].
  destruct (keyedb A Gt k x) eqn:HG.
  - destruct (position A k l) as [[l1 o] l2]. destruct IH as (-> & HF & HE). split_and!; [done| |done].
    constructor; [by apply keyedb_spec|done].
  - destruct (keyedb A Eq k x) eqn:HE.
    + split_and!; [done|constructor|by apply keyedb_spec].
    + split_and!; done || constructor.
Qed.

Lemma position_present A k l1 x l2 : position A k (elems A) = (l1, Some x, l2) -> present cmp A k l1 x l2.
Proof. intros H. pose proof (position_app A k (elems A)) as Hp. rewrite H in Hp. destruct Hp as (? & _ & ?). done. Qed.

Lemma position_absent A k l1 l2 :
  position A k (elems A) = (l1, None, l2) -> forallb (keyedb A Lt k) l2 = true -> absent cmp A k l1 l2.
Proof.
  intros H Hl. pose proof (position_app A k (elems A)) as Hp. rewrite H in Hp. destruct Hp as (He & ? & _).
  split_and!; [done|done|]. apply Forall_forall. intros z Hz. apply keyedb_spec.
  rewrite forallb_forall in Hl. apply Hl. by apply elem_of_list_In.
Qed.

(** Every key is present or absent. *)
Lemma covers A k :
  total_preorder cmp -> ascending cmp A -> (forall x, x ∈ elems A -> is_Some (vals A !! x)) ->
  (exists l1 x l2, present cmp A k l1 x l2) \/ (exists l1 l2, absent cmp A k l1 l2).
Proof.
  intros Hcmp Hs Hl. pose proof (position_app A k (elems A)) as Hp.
  destruct (position A k (elems A)) as [[l1 [x|]] l2] eqn:E.
  - left. exists l1, x, l2. by apply position_present.
  - right. exists l1, l2. apply position_absent; [done|]. cbn [app] in Hp. destruct Hp as (He & _ & Hx).
    destruct l2 as [|x l2]; [done|]. destruct Hx as [HG HE].
    assert (forall z, z ∈ elems A -> keyedb A Gt k z = false -> keyedb A Eq k z = false -> keyedb A Lt k z = true) as Htri.
    { intros z Hz. destruct (Hl z Hz) as [kv Hkv]. unfold keyedb. rewrite Hkv. by destruct (cmp k (fst kv)). }
    assert (keyedb A Lt k x = true) as HL. { apply Htri; [|done..]. rewrite He, elem_of_app. right. left. }
    apply forallb_forall. intros z Hz%elem_of_list_In. apply elem_of_cons in Hz as [-> |Hz]; [done|].
    apply keyedb_spec. apply keyedb_spec in HL as (kx & Hkx & Hc).
    unfold ascending in Hs. rewrite He in Hs.
    assert (StronglySorted (fun x y => exists a b, vals A !! x = Some a /\ vals A !! y = Some b /\ cmp (fst a) (fst b) = Lt) (x :: l2)) as Hs2.
    { clear -Hs. induction l1 as [|y l1 IH]; [done|]. apply IH. by apply StronglySorted_inv in Hs as [? _]. }
    apply StronglySorted_inv in Hs2 as [_ Hs2]. rewrite Forall_forall in Hs2.
    destruct (Hs2 z Hz) as (a & b & Ha & Hb & Hab). simplify_eq. exists b. split; [done|]. by eapply (cmp_lt_trans cmp Hcmp).
Qed.

(** The first element with a property, computed. *)
Fixpoint firstb (p : nat -> bool) (l : list nat) : nat :=
  match l with [] => 0 | x :: l => if p x then x else firstb p l end.
Lemma firstb_first (P : nat -> Prop) p l x :
  (forall z, p z = true <-> P z) -> firstb p l = x -> first P l x.
Proof.
  intros HP <-. induction l as [|x l IH]; cbn; [constructor|].
  destruct (p x) eqn:E; [constructor; by apply HP|]. apply first_later; [|done]. rewrite <- HP. congruence.
Qed.

Lemma keyedb2_spec A o k x : keyedb A o k x || keyedb A Eq k x = true <-> keyed cmp A o k x \/ keyed cmp A Eq k x.
Proof. rewrite orb_true_iff, !keyedb_spec. done. Qed.

(** What is before and after an element. *)
Fixpoint around (e : nat) (l : list nat) : option (list nat * list nat) :=
  match l with
  | [] => None
  | x :: l => if x =? e then Some ([], l) else
      match around e l with Some (l1, l2) => Some (x :: l1, l2) | None => None end
  end.
Lemma around_spec e l l1 l2 : around e l = Some (l1, l2) -> l = l1 ++ e :: l2.
Proof.
  revert l1. induction l as [|x l IH]; intros l1; cbn; [done|]. destruct (Nat.eqb_spec x e) as [-> |].
  - intros [= <- <-]. done.
  - destruct (around e l) as [[m1 m2]|]; [|done]. intros [= <- <-]. cbn. by rewrite (IH m1).
Qed.

(** Elements with their data, for clear. *)
Definition contents A : list (nat * (K * V)) :=
  omap (fun x => match vals A !! x with Some kv => Some (x, kv) | None => None end) (elems A).
Lemma contents_spec A (fn : bool) : NoDup (elems A) ->
  (forall (x : nat) (kv : K * V), (x, kv) ∈ (if fn then contents A else @nil (nat * (K * V))) <-> fn = true /\ x ∈ elems A /\ vals A !! x = Some kv) /\
  NoDup (if fn then contents A else @nil (nat * (K * V))).
Proof.
  intros Hnd. destruct fn; [|split; [|constructor]].
  - split.
    + intros x kv. unfold contents. rewrite elem_of_list_omap. split.
      * intros (y & Hy & He). destruct (vals A !! y) eqn:E; by simplify_eq.
      * intros (_ & Hx & Hv). exists x. by rewrite Hv.
    + unfold contents. induction Hnd as [|x l Hx Hnd IH]; [constructor|]. cbn.
      destruct (vals A !! x) as [kv|]; [|done]. constructor; [|done].
      rewrite elem_of_list_omap. intros (y & Hy & He). destruct (vals A !! y); by simplify_eq.
  - intros x kv. split; [intros H; by apply elem_of_nil in H|by intros [? _]].
Qed.

Lemma call_clear_contents c A (fn : bool) : NoDup (elems A) ->
  call cmp c A (MClear fn) (RDestroyed OK (if fn then contents A else []))
    (View [] (if allocates c then foldr delete (vals A) (elems A) else vals A)).
Proof. intros H. destruct (contents_spec A fn H). by apply call_clear. Qed.

(** Two first elements delimit a section of a sorted list. *)
Lemma first_section (R : nat -> nat -> Prop) (P Q : nat -> Prop) l x y :
  StronglySorted R l -> (forall u v, R u v -> P u -> P v) -> (forall u v, R u v -> Q u -> Q v) ->
  (forall u, Q u -> P u) -> first P l x -> first Q l y ->
  exists l1 l2 l3, l = l1 ++ l2 ++ l3 /\ x = hd 0 (l2 ++ l3) /\ y = hd 0 l3 /\
    Forall (fun z => ~ P z) l1 /\ Forall (fun z => P z /\ ~ Q z) l2 /\ Forall Q l3.
Proof.
  intros Hs HP HQ HQP. revert x y. induction Hs as [|z l Hs IH HF]; intros x y Hx Hy.
  - inversion Hx; inversion Hy; subst. by exists [], [], [].
  - rewrite Forall_forall in HF.
    assert (forall T : nat -> Prop, (forall u v, R u v -> T u -> T v) -> T z -> Forall T (z :: l)) as Hall.
    { intros T HT Hz. constructor; [done|]. apply Forall_forall. intros v Hv. by apply (HT z); [apply HF|]. }
    inversion Hx as [|? ? HPz|? ? ? HnP Hx']; subst.
    + inversion Hy as [|? ? HQz|? ? ? HnQ Hy']; subst.
      * exists [], [], (y :: l). split_and!; auto.
      * pose proof (Hall P HP HPz) as HPl. apply Forall_cons in HPl as [_ HPl].
        assert (exists m1 m3, l = m1 ++ m3 /\ y = hd 0 m3 /\ Forall (fun z => ~ Q z) m1 /\ Forall Q m3) as (m1 & m3 & -> & -> & H1 & H3).
        { destruct (IH (hd 0 l) y) as (l1 & l2 & l3 & -> & _ & -> & H1 & H2 & H3); [|done|].
          - destruct l; [constructor|]. apply Forall_cons in HPl as [? _]. by constructor.
          - exists (l1 ++ l2), l3. split_and!; [by rewrite app_assoc|done| |done]. apply Forall_app. split.
            + eapply Forall_impl; [exact H1|]. cbn. naive_solver.
            + eapply Forall_impl; [exact H2|]. naive_solver. }
        exists [], (x :: m1), m3. split_and!; [done..| |done]. constructor; [done|].
        apply Forall_app in HPl as [HPl _]. rewrite Forall_forall in H1, HPl |- *. naive_solver.
    + inversion Hy as [|? ? HQz|? ? ? HnQ Hy']; subst; [by apply HQP in HQz|].
      destruct (IH x y Hx' Hy') as (l1 & l2 & l3 & -> & ? & ? & ? & ? & ?).
      exists (z :: l1), l2, l3. split_and!; auto.
Qed.

Definition inside A (a b : K) (z : nat) : Prop :=
  exists kv, vals A !! z = Some kv /\ cmp a (fst kv) <> Gt /\ cmp (fst kv) b <> Gt.

(** A range call delimits exactly the elements between its bounds. *)
Lemma range_exact A c a b x y :
  total_preorder cmp -> ascending cmp A -> (forall x, x ∈ elems A -> is_Some (vals A !! x)) -> cmp a b <> Gt ->
  call cmp c A (MRange a b) (RRange x y) A ->
  exists l1 l2 l3, elems A = l1 ++ l2 ++ l3 /\ x = hd 0 (l2 ++ l3) /\ y = hd 0 l3 /\
    Forall (keyed cmp A Gt a) l1 /\ Forall (inside A a b) l2 /\ Forall (keyed cmp A Lt b) l3.
Proof.
  intros Hcmp Hs Hl Hab Hc. inversion Hc; subst.
  match goal with H : first _ _ x, H' : first _ _ y |- _ => rename H into Hx; rename H' into Hy end.
  repeat match goal with H : A = A |- _ => clear H end.
  assert (forall z k o, z ∈ elems A -> ~ keyed cmp A o k z -> exists kv, vals A !! z = Some kv /\ cmp k (fst kv) <> o) as Hneg.
  { intros z k o Hz Hn. destruct (Hl z Hz) as [kv Hkv]. exists kv. split; [done|]. intros Ho. apply Hn. by exists kv. }
  destruct (first_section _ (fun z => keyed cmp A Lt a z \/ keyed cmp A Eq a z) (fun z => keyed cmp A Lt b z) _ x y Hs) as (l1 & l2 & l3 & He & -> & -> & H1 & H2 & H3); [| | |exact Hx|exact Hy|].
  - intros u v (ku & kv & Hu & Hv & Hlt) Hk.
    assert (cmp a (fst kv) = Lt); [|left; by exists kv].
    destruct Hk as [(k' & Hk' & Hk)|(k' & Hk' & Hk)]; simplify_eq.
    + by eapply (cmp_lt_trans cmp Hcmp).
    + by rewrite (cmp_eq_l cmp Hcmp _ _ _ Hk).
  - intros u v (ku & kv & Hu & Hv & Hlt) (k' & Hk' & Hk). simplify_eq. exists kv. split; [done|]. by eapply (cmp_lt_trans cmp Hcmp).
  - intros u (ku & Hu & Hk). left. exists ku. split; [done|]. destruct (cmp a b) eqn:E; [|by apply (cmp_lt_trans cmp Hcmp _ b)|done].
    by rewrite (cmp_eq_l cmp Hcmp _ _ _ E).
  - exists l1, l2, l3. split_and!; [done..| | |done].
    + rewrite Forall_forall in H1 |- *. intros z Hz. assert (z ∈ elems A) as Hin by (rewrite He, !elem_of_app; auto).
      destruct (Hl z Hin) as [kv Hkv]. exists kv. split; [done|]. specialize (H1 z Hz).
      destruct (cmp a (fst kv)) eqn:E; [exfalso; apply H1; right; by exists kv|exfalso; apply H1; left; by exists kv|done].
    + rewrite Forall_forall in H2 |- *. intros z Hz. assert (z ∈ elems A) as Hin by (rewrite He, !elem_of_app; auto).
      destruct (Hl z Hin) as [kv Hkv]. exists kv. split; [done|]. destruct (H2 z Hz) as [HP HQ]. split.
      * destruct HP as [(k' & Hk' & Hk)|(k' & Hk' & Hk)]; simplify_eq; by rewrite Hk.
      * intros Hk. apply HQ. exists kv. split; [done|]. by apply (cmp_flip cmp Hcmp) in Hk.
Qed.

(** The same downwards. *)
Lemma rrange_exact A c a b x y :
  total_preorder cmp -> ascending cmp A -> (forall x, x ∈ elems A -> is_Some (vals A !! x)) -> cmp b a <> Gt ->
  call cmp c A (MRRange a b) (RRange x y) A ->
  exists l1 l2 l3, rev (elems A) = l1 ++ l2 ++ l3 /\ x = hd 0 (l2 ++ l3) /\ y = hd 0 l3 /\
    Forall (keyed cmp A Lt a) l1 /\ Forall (inside A b a) l2 /\ Forall (keyed cmp A Gt b) l3.
Proof.
  intros Hcmp Hs Hl Hab Hc. inversion Hc; subst.
  match goal with H : first _ _ x, H' : first _ _ y |- _ => rename H into Hx; rename H' into Hy end.
  repeat match goal with H : A = A |- _ => clear H end.
  assert (StronglySorted (fun x y => exists a b, vals A !! y = Some a /\ vals A !! x = Some b /\ cmp (fst a) (fst b) = Lt) (rev (elems A))) as Hs'.
  { unfold ascending in Hs. clear -Hs. induction Hs as [|z l Hs IH HF]; [constructor|]. cbn [rev].
    assert (forall m, StronglySorted (fun x y => exists a b, vals A !! y = Some a /\ vals A !! x = Some b /\ cmp (fst a) (fst b) = Lt) m ->
      Forall (fun y => exists a b, vals A !! z = Some a /\ vals A !! y = Some b /\ cmp (fst a) (fst b) = Lt) m ->
      StronglySorted (fun x y => exists a b, vals A !! y = Some a /\ vals A !! x = Some b /\ cmp (fst a) (fst b) = Lt) (m ++ [z])) as Hsnoc.
    { intros m Hm HFm. induction Hm as [|w m Hm IHm HFw]; [by repeat constructor|]. apply Forall_cons in HFm as [Hw HFm]. cbn.
      constructor; [by apply IHm|]. apply Forall_app. split; [done|]. by constructor. }
    apply Hsnoc; [done|]. by apply Forall_rev. }
  assert (forall z, z ∈ rev (elems A) -> z ∈ elems A) as Hrv by (intros z; by rewrite <- Permutation_rev).
  destruct (first_section _ (fun z => keyed cmp A Gt a z \/ keyed cmp A Eq a z) (fun z => keyed cmp A Gt b z) _ x y Hs') as (l1 & l2 & l3 & He & -> & -> & H1 & H2 & H3); [| | |exact Hx|exact Hy|].
  - intros u v (kv & ku & Hv & Hu & Hlt) Hk.
    assert (cmp (fst kv) a = Lt) as HL; [|left; exists kv; split; [done|]; by apply (cmp_flip cmp Hcmp) in HL].
    destruct Hk as [(k' & Hk' & Hk)|(k' & Hk' & Hk)]; simplify_eq; apply (cmp_flip cmp Hcmp) in Hk; cbn in Hk.
    + by eapply (cmp_lt_trans cmp Hcmp).
    + by rewrite <- (cmp_eq_r cmp Hcmp _ _ _ Hk).
  - intros u v (kv & ku & Hv & Hu & Hlt) (k' & Hk' & Hk). simplify_eq. exists kv. split; [done|].
    apply (cmp_flip cmp Hcmp) in Hk; cbn in Hk.
    assert (cmp (fst kv) b = Lt) as HL by (by eapply (cmp_lt_trans cmp Hcmp)). by apply (cmp_flip cmp Hcmp) in HL.
  - intros u (ku & Hu & Hk). left. exists ku. split; [done|]. apply (cmp_flip cmp Hcmp) in Hk; cbn in Hk.
    assert (cmp (fst ku) a = Lt) as HL; [|by apply (cmp_flip cmp Hcmp) in HL].
    destruct (cmp b a) eqn:E; [|by apply (cmp_lt_trans cmp Hcmp _ b)|done]. by rewrite <- (cmp_eq_r cmp Hcmp _ _ _ E).
  - exists l1, l2, l3. split_and!; [done..| | |done].
    + rewrite Forall_forall in H1 |- *. intros z Hz. assert (z ∈ elems A) as Hin by (apply Hrv; rewrite He, !elem_of_app; auto).
      destruct (Hl z Hin) as [kv Hkv]. exists kv. split; [done|]. specialize (H1 z Hz).
      destruct (cmp a (fst kv)) eqn:E; [exfalso; apply H1; right; by exists kv|done|exfalso; apply H1; left; by exists kv].
    + rewrite Forall_forall in H2 |- *. intros z Hz. assert (z ∈ elems A) as Hin by (apply Hrv; rewrite He, !elem_of_app; auto).
      destruct (Hl z Hin) as [kv Hkv]. exists kv. split; [done|]. destruct (H2 z Hz) as [HP HQ]. split.
      * intros Hk. apply HQ. by exists kv.
      * intros Hk. apply (cmp_flip cmp Hcmp) in Hk; cbn in Hk.
        destruct HP as [(k' & Hk' & Hk2)|(k' & Hk' & Hk2)]; simplify_eq; congruence.
Qed.
Lemma range_exists c A a b : exists x y, call cmp c A (MRange a b) (RRange x y) A.
Proof.
  eexists _, _. apply call_range.
  - eapply firstb_first; [intros; apply keyedb2_spec|done].
  - eapply firstb_first; [intros; apply keyedb_spec|done].
Qed.
Lemma rrange_exists c A a b : exists x y, call cmp c A (MRRange a b) (RRange x y) A.
Proof.
  eexists _, _. apply call_rrange.
  - eapply firstb_first; [intros; apply keyedb2_spec|done].
  - eapply firstb_first; [intros; apply keyedb_spec|done].
Qed.

Lemma ascending_walk A (ps : list (nat * (K * V))) :
  ascending cmp A -> map fst ps = elems A -> Forall (fun p => vals A !! fst p = Some (snd p)) ps ->
  StronglySorted (fun p q => cmp (fst (snd p)) (fst (snd q)) = Lt) ps.
Proof.
  unfold ascending. intros Hs Hps HF. rewrite <- Hps in Hs. clear Hps. induction ps as [|p ps IH]; [constructor|].
  apply Forall_cons in HF as [Hp HF]. cbn in Hs. apply StronglySorted_inv in Hs as [Hs Hlt].
  constructor; [by apply IH|].
  rewrite Forall_forall in Hlt. rewrite Forall_forall in HF. apply Forall_forall. intros q Hq.
  destruct (Hlt (fst q)) as (a & b & Ha & Hb & Hab); [by apply elem_of_list_fmap_1|].
  specialize (HF q Hq). by simplify_eq.
Qed.
End cases.

(** Finds the derivation for a concrete history. *)
Ltac position_tac := first
  [ solve [eapply position_present; vm_compute; reflexivity]
  | solve [eapply position_absent; [vm_compute; reflexivity|vm_compute; reflexivity]] ].
Ltac not_member := solve [apply (bool_decide_unpack _); vm_compute; reflexivity].
Ltac added_tac := first
  [ solve [eapply added_own; reflexivity]
  | solve [eapply added_copy; [reflexivity|split_and!; [lia|lia|vm_compute; reflexivity]]]
  | solve [eapply added_refused; reflexivity]
  | solve [eapply made_new; [reflexivity|split_and!; [lia|lia|vm_compute; reflexivity]]]
  | solve [eapply made_refused; (left; reflexivity) || (right; reflexivity)] ].
Ltac first_tac := first
  [ solve [eapply firstb_first; [intros; apply keyedb2_spec|vm_compute; reflexivity]]
  | solve [eapply firstb_first; [intros; apply keyedb_spec|vm_compute; reflexivity]] ].
Ltac side_tac := first
  [ position_tac | added_tac | first_tac | not_member | reflexivity | lia
  | solve [eapply around_spec; vm_compute; reflexivity]
  | solve [vm_compute; reflexivity] | solve [left; reflexivity] | solve [right; by vm_compute]
  | solve [split_and!; [lia|lia|vm_compute; reflexivity]] ].
Ltac call_tac := first
  [ solve [econstructor; side_tac]
  | solve [eapply call_contains_yes; side_tac] | solve [eapply call_contains_no; side_tac]
  | solve [eapply call_get_yes; side_tac] | solve [eapply call_get_no; side_tac]
  | solve [eapply call_insert_new; side_tac] | solve [eapply call_insert_old; side_tac]
  | solve [eapply call_try_new; side_tac] | solve [eapply call_try_old; side_tac]
  | solve [eapply call_assign_new; side_tac] | solve [eapply call_assign_old; side_tac]
  | solve [eapply call_remove_no; side_tac] | solve [eapply call_remove_own; side_tac]
  | solve [eapply call_remove_free; side_tac]
  | solve [eapply call_entry_yes; side_tac] | solve [eapply call_entry_no; side_tac]
  | solve [eapply call_or_insert_new; side_tac] | solve [eapply call_or_insert_old; side_tac]
  | solve [eapply call_insert_entry_new; side_tac] | solve [eapply call_insert_entry_old; side_tac]
  | solve [eapply call_modify_yes; side_tac] | solve [eapply call_modify_no; side_tac]
  | solve [eapply call_remove_entry_yes; side_tac] | solve [eapply call_remove_entry_no; side_tac]
  | solve [eapply call_or_insert_w_new; side_tac] | solve [eapply call_or_insert_w_old; side_tac]
  | solve [eapply call_insert_entry_w_new; side_tac] | solve [eapply call_insert_entry_w_old; side_tac]
  | solve [eapply call_try_w_new; side_tac] | solve [eapply call_try_w_old; side_tac]
  | solve [eapply call_assign_w_new; side_tac] | solve [eapply call_assign_w_old; side_tac]
  | solve [eapply call_clear_contents; apply (bool_decide_unpack _); vm_compute; reflexivity] ].
Ltac history_tac := repeat once (eapply calls_cons; [call_tac|]); apply calls_nil.
