(** Proofs about the pairing heap. The heap is a forest given by the list of
    children of every node, oldest first. *)
From Coq Require Import Sorted.
From stdpp Require Import base numbers option gmap fin_maps fin_sets list.
From Verif Require Import Common LinkHeap PathLemmas OrderSpec TickModel PqModel PqCostModel PqCostErase.
From Verif Require Export PqPotential.
From Verif Require Import PqSpec PqCostSpec.

Ltac bind := cbn [mbind outcome_bind obind tbind TickModel.plain tick].
Ltac isSome := rewrite ?lookup_insert_is_Some'; eauto 6.

(** * Forests of nodes *)

(** The part of the tree below [x] is finite. *)
Inductive fin (K : kids) (x : nat) : Prop :=
  | fin_none : K !! x = None -> fin K x
  | fin_intro : (forall ks k, K !! x = Some ks -> k ∈ ks -> fin K k) -> fin K x.

(** A ring of siblings. *)
Definition ring (m : fld) (ks : list nat) : Prop := path m ks (hd 0 ks).

Section forest.
Context {V : Type}.
Implicit Types (s : pmem V) (K : kids).

Record forest s K : Prop := Forest {
  f_zero : K !! 0 = None;
  f_lc : forall x ks, K !! x = Some ks -> lc s !! x = Some (default 0 (last ks));
  f_ns : forall x ks, K !! x = Some ks -> ring (ns s) ks;
  f_ps : forall x ks, K !! x = Some ks -> ring (ps s) (rev ks);
  f_pa : forall x ks k, K !! x = Some ks -> k ∈ ks -> pa s !! k = Some x;
  f_in : forall x ks k, K !! x = Some ks -> k ∈ ks -> is_Some (K !! k);
  f_nd : forall x ks, K !! x = Some ks -> NoDup ks;
  f_live : forall x, is_Some (K !! x) ->
    is_Some (ns s !! x) /\ is_Some (ps s !! x) /\ is_Some (pa s !! x) /\ is_Some (dat s !! x)
}.

Lemma wlc_Ok s p q : is_Some (lc s !! p) -> wlc s p q = Ok (set_lc s (<[p:=q]> (lc s))).
Proof. intros H. unfold wlc. by rewrite wr_Ok. Qed.
Lemma wns_Ok s p q : is_Some (ns s !! p) -> wns s p q = Ok (set_ns s (<[p:=q]> (ns s))).
Proof. intros H. unfold wns. by rewrite wr_Ok. Qed.
Lemma wps_Ok s p q : is_Some (ps s !! p) -> wps s p q = Ok (set_ps s (<[p:=q]> (ps s))).
Proof. intros H. unfold wps. by rewrite wr_Ok. Qed.
Lemma wpa_Ok s p q : is_Some (pa s !! p) -> wpa s p q = Ok (set_pa s (<[p:=q]> (pa s))).
Proof. intros H. unfold wpa. by rewrite wr_Ok. Qed.

(** Only the fields change; the nodes that are live stay so. *)
Record same s s' : Prop := Same {
  sm_dat : dat s' = dat s; sm_heap : heap s' = heap s; sm_root : root s' = root s; sm_sz : sz s' = sz s;
  sm_lc : forall x, is_Some (lc s' !! x) <-> is_Some (lc s !! x);
  sm_ns : forall x, is_Some (ns s' !! x) <-> is_Some (ns s !! x);
  sm_ps : forall x, is_Some (ps s' !! x) <-> is_Some (ps s !! x);
  sm_pa : forall x, is_Some (pa s' !! x) <-> is_Some (pa s !! x)
}.

(** [s'] agrees with [s] at [x] except for the left child. *)
Definition keeps s s' (x : nat) : Prop :=
  ns s' !! x = ns s !! x /\ ps s' !! x = ps s !! x /\ pa s' !! x = pa s !! x.

Lemma same_refl s : same s s.
Proof. split; naive_solver. Qed.
Lemma same_trans s1 s2 s3 : same s1 s2 -> same s2 s3 -> same s1 s3.
Proof. intros [] []. split; try congruence; intros; naive_solver. Qed.
Lemma keeps_refl s x : keeps s s x.
Proof. done. Qed.
Lemma keeps_trans s1 s2 s3 x : keeps s1 s2 x -> keeps s2 s3 x -> keeps s1 s3 x.
Proof. unfold keeps. intuition congruence. Qed.

Lemma upd_same (m : fld) p q x : is_Some (m !! p) -> is_Some (<[p:=q]> m !! x) <-> is_Some (m !! x).
Proof.
  intros Hp. rewrite lookup_insert_is_Some'. split; [intros [->|?]; done|tauto].
Qed.

Lemma ring_upd m ks x q : x ∉ ks -> ring m ks -> ring (<[x:=q]> m) ks.
Proof. apply path_upd. Qed.
Lemma ring_ext m m' ks : (forall x, x ∈ ks -> m' !! x = m !! x) -> ring m ks -> ring m' ks.
Proof. apply path_ext. Qed.

Lemma kid_unique s K x y ks ls k : forest s K -> K !! x = Some ks -> K !! y = Some ls ->
  k ∈ ks -> k ∈ ls -> x = y.
Proof.
  intros F Hx Hy Hk Hk'. pose proof (f_pa _ _ F _ _ _ Hx Hk). pose proof (f_pa _ _ F _ _ _ Hy Hk'). congruence.
Qed.

(** One node changes its children from [ks] to [ls], which are alive. *)
Lemma forest_change s s' K p ks ls : forest s K -> K !! p = Some ks -> same s s' ->
  lc s' !! p = Some (default 0 (last ls)) ->
  ring (ns s') ls -> ring (ps s') (rev ls) -> (forall k, k ∈ ls -> pa s' !! k = Some p) ->
  (forall k, k ∈ ls -> is_Some (K !! k)) -> NoDup ls ->
  (forall x, x <> p -> lc s' !! x = lc s !! x) ->
  (forall x k, x <> p -> k ∈ default [] (K !! x) ->
     ns s' !! k = ns s !! k /\ ps s' !! k = ps s !! k /\ pa s' !! k = pa s !! k) ->
  forest s' (<[p:=ls]> K).
Proof.
  intros F Hp Hs Hlc Hns Hps Hpa Hin Hnd Hlc' Hfr. split.
  - rewrite lookup_insert_ne; [apply F|]. intros ->. rewrite (f_zero _ _ F) in Hp. done.
  - intros x xs [[<- <-]|[Hne Hx]]%lookup_insert_Some; [done|]. rewrite Hlc' by done. by apply F.
  - intros x xs [[<- <-]|[Hne Hx]]%lookup_insert_Some; [done|]. eapply ring_ext; [|by apply (f_ns _ _ F _ _ Hx)].
    intros k Hk. destruct (Hfr x k) as (Hq & _ & _); [done|by rewrite Hx|done].
  - intros x xs [[<- <-]|[Hne Hx]]%lookup_insert_Some; [done|]. eapply ring_ext; [|by apply (f_ps _ _ F _ _ Hx)].
    intros k Hk. rewrite elem_of_rev in Hk. destruct (Hfr x k) as (_ & Hq & _); [done|by rewrite Hx|done].
  - intros x xs k [[<- <-]|[Hne Hx]]%lookup_insert_Some; [auto|]. intros Hk.
    destruct (Hfr x k) as (_ & _ & ->); [done|by rewrite Hx|]. by eapply F.
  - intros x xs k [[<- <-]|[Hne Hx]]%lookup_insert_Some Hk; apply lookup_insert_is_Some'; right; [by apply Hin|].
    by eapply F.
  - intros x xs [[<- <-]|[Hne Hx]]%lookup_insert_Some; [done|]. by eapply F.
  - intros x Hx. assert (is_Some (K !! x)) as Hx'.
    { apply lookup_insert_is_Some' in Hx as [<-|Hx]; [by eexists|done]. }
    destruct (f_live _ _ F x Hx') as (H1 & H2 & H3 & H4).
    rewrite (sm_ns _ _ Hs), (sm_ps _ _ Hs), (sm_pa _ _ Hs), (sm_dat _ _ Hs). done.
Qed.

Lemma ring_link (m : fld) ks c l h : NoDup (ks ++ [c]) -> last ks = Some l -> head ks = Some h -> ring m ks ->
  ring (<[l:=c]> (<[c:=h]> m)) (ks ++ [c]).
Proof.
  intros Hnd Hl Hh Hr. unfold ring in *. apply NoDup_app in Hnd as (Hnd & Hd & _).
  assert (hd 0 ks = h) as Hh' by (destruct ks; [done|by simplify_eq/=]).
  assert (l ∈ ks) as Hin by (by eapply last_Some_elem_of).
  assert (c ∉ ks) as Hc by (intros Hx; apply (Hd c Hx); left).
  assert (hd 0 (ks ++ [c]) = h) as -> by (destruct ks; [done|by simplify_eq/=]).
  apply path_app. split.
  - simpl. eapply path_last; [done|done|]. by apply path_upd.
  - simpl. split; [|done]. rewrite lookup_insert_ne by (intros <-; done). by rewrite lookup_insert.
Qed.

Lemma ring_link_rev (m : fld) ks c l h : NoDup (ks ++ [c]) -> last ks = Some l -> head ks = Some h -> ring m (rev ks) ->
  ring (<[h:=c]> (<[c:=l]> m)) (rev (ks ++ [c])).
Proof.
  intros Hnd Hl Hh Hr. unfold ring in *. rewrite rev_app_distr. simpl. apply NoDup_app in Hnd as (Hnd & Hd & _).
  assert (h ∈ ks) as Hin by (by apply head_Some_elem_of).
  assert (c ∉ ks) as Hc by (intros Hx; apply (Hd c Hx); left).
  assert (forall b, hd b (rev ks) = l) as Hhd.
  { intros b. apply head_rev in Hl. destruct (rev ks); [done|by simplify_eq/=]. }
  split.
  - rewrite lookup_insert_ne by (intros <-; done). rewrite lookup_insert. by rewrite Hhd.
  - eapply path_last; [by apply NoDup_ListNoDup, NoDup_rev, NoDup_ListNoDup|by apply last_rev|].
    apply path_upd; [by rewrite elem_of_rev|]. rewrite Hhd in Hr. done.
Qed.

Lemma link_child_Ok s K p c ks : forest s K -> K !! p = Some ks -> is_Some (K !! c) -> ~ kid K c -> p <> c ->
  exists s', link_child s p c = Ok s' /\ forest s' (<[p:=ks ++ [c]]> K) /\ same s s' /\
    forall x, x <> c -> ~ kid K x -> keeps s s' x.
Proof.
  intros F Hp Hc Hnk Hpc. destruct (f_live _ _ F c Hc) as (HcN & HcP & HcA & HcD).
  assert (HcK : c ∉ ks) by (intros Hx; apply Hnk; by exists p, ks).
  assert (Hc0 : c <> 0) by (intros ->; destruct Hc as [? Hc]; rewrite (f_zero _ _ F) in Hc; done).
  pose proof (f_nd _ _ F _ _ Hp) as Hnd. pose proof (f_ns _ _ F _ _ Hp) as Hns. pose proof (f_ps _ _ F _ _ Hp) as Hps.
  assert (Hnd' : NoDup (ks ++ [c])).
  { apply NoDup_app. split_and!; [done| |apply NoDup_singleton]. intros x Hx ->%elem_of_list_singleton. done. }
  unfold link_child. rewrite (rd_Ok _ _ _ (f_lc _ _ F _ _ Hp)). bind.
  destruct (last ks) as [l|] eqn:Hl; simpl default.
  - assert (Hlin : l ∈ ks) by (by eapply last_Some_elem_of).
    destruct (head ks) as [h|] eqn:Hh; [|by destruct ks].
    assert (Hhin : h ∈ ks) by (by apply head_Some_elem_of).
    assert (Hl0 : l <> 0).
    { intros ->. destruct (f_in _ _ F _ _ _ Hp Hlin) as [? Hx]. rewrite (f_zero _ _ F) in Hx. done. }
    destruct (Nat.eqb_spec l 0) as [?|_]; [done|].
    assert (Hh' : hd 0 ks = h) by (destruct ks; [done|by simplify_eq/=]).
    assert (Hnl : ns s !! l = Some h).
    { eapply path_last_lookup; [done|]. rewrite <- Hh'. exact Hns. }
    destruct (f_live _ _ F l (f_in _ _ F _ _ _ Hp Hlin)) as (HlN & HlP & HlA & HlD).
    destruct (f_live _ _ F h (f_in _ _ F _ _ _ Hp Hhin)) as (HhN & HhP & HhA & HhD).
    rewrite (rd_Ok _ _ _ Hnl). bind.
    rewrite wns_Ok by done. bind. rewrite wps_Ok by done. bind. cbn [set_ps set_ns ns].
    rewrite (rd_Ok _ l h) by (rewrite lookup_insert_ne by (intros <-; done); done). bind.
    rewrite wps_Ok by (cbn; isSome). bind. rewrite wns_Ok by (cbn; isSome). bind.
    rewrite wlc_Ok by (cbn; eexists; apply (f_lc _ _ F _ _ Hp)). bind.
    rewrite wpa_Ok by done. cbn.
    eexists. split; [reflexivity|]. 
    assert (HS : same s (set_pa
       (set_lc
          (set_ns
             (set_ps (set_ps (set_ns s (<[c:=h]> (ns s))) (<[c:=l]> (ps s)))
                (<[h:=c]> (<[c:=l]> (ps s)))) (<[l:=c]> (<[c:=h]> (ns s))))
          (<[p:=c]> (lc s))) (<[c:=p]> (pa s)))).
    { split; cbn; try done; intros x.
      - apply upd_same. eexists; apply (f_lc _ _ F _ _ Hp).
      - rewrite !upd_same; [done|done|by apply upd_same].
      - rewrite !upd_same; [done|done|by apply upd_same].
      - by apply upd_same. }
    split_and!; [|exact HS|].
    + eapply forest_change; [done|done|exact HS|..]; cbn.
      * rewrite last_snoc. by rewrite lookup_insert.
      * by apply ring_link.
      * by apply ring_link_rev.
      * intros k [Hk| ->%elem_of_list_singleton]%elem_of_app; [|by rewrite lookup_insert].
        rewrite lookup_insert_ne by (intros <-; done). by eapply F.
      * intros k [Hk| ->%elem_of_list_singleton]%elem_of_app; [by eapply F|done].
      * done.
      * intros x Hx. by rewrite lookup_insert_ne.
      * intros x k Hne Hk. destruct (K !! x) as [xs|] eqn:Hx; [|by apply elem_of_nil in Hk]. simpl in Hk.
        assert (k <> c) by (intros ->; apply Hnk; by exists x, xs).
        assert (k <> l) by (intros ->; apply Hne; by eapply kid_unique).
        assert (k <> h) by (intros ->; apply Hne; by eapply kid_unique).
        by rewrite !lookup_insert_ne.
    + intros x Hxc Hxk. assert (x <> l) by (intros ->; apply Hxk; by exists p, ks).
      assert (x <> h) by (intros ->; apply Hxk; by exists p, ks).
      unfold keeps. cbn. by rewrite !lookup_insert_ne.
  - apply last_None in Hl as ->. cbn.
    rewrite wps_Ok by done. bind. rewrite wns_Ok by done. bind.
    rewrite wlc_Ok by (cbn; eexists; apply (f_lc _ _ F _ _ Hp)). bind.
    rewrite wpa_Ok by done. cbn.
    eexists. split; [reflexivity|].
    assert (HS : same s (set_pa (set_lc (set_ns (set_ps s (<[c:=c]> (ps s))) (<[c:=c]> (ns s))) (<[p:=c]> (lc s))) (<[c:=p]> (pa s)))).
    { split; cbn; try done; intros x; apply upd_same; try done. eexists; apply (f_lc _ _ F _ _ Hp). }
    split_and!; [|exact HS|].
    + eapply forest_change; [done|done|exact HS|..]; cbn.
      * by rewrite lookup_insert.
      * unfold ring. simpl. by rewrite lookup_insert.
      * unfold ring. simpl. by rewrite lookup_insert.
      * intros k ->%elem_of_list_singleton. by rewrite lookup_insert.
      * by intros k ->%elem_of_list_singleton.
      * apply NoDup_singleton.
      * intros x Hx. by rewrite lookup_insert_ne.
      * intros x k Hne Hk. destruct (K !! x) as [xs|] eqn:Hx; [|by apply elem_of_nil in Hk]. simpl in Hk.
        assert (k <> c) by (intros ->; apply Hnk; by exists x, xs).
        by rewrite !lookup_insert_ne.
    + intros x Hxc Hxk. unfold keeps. cbn. by rewrite !lookup_insert_ne.
Qed.

(** * Shape of a forest *)

Lemma desc_trans K a b c : desc K a b -> desc K b c -> desc K a c.
Proof. intros Hab Hbc. induction Hbc as [|p ks x _ IH Hp Hx]; [done|]. by eapply desc_kid. Qed.

Lemma desc_mono K K' : (forall x ks k, K !! x = Some ks -> k ∈ ks -> exists ks', K' !! x = Some ks' /\ k ∈ ks') ->
  forall a b, desc K a b -> desc K' a b.
Proof.
  intros Hm a b Hd. induction Hd as [|p ks x _ IH Hp Hx]; [constructor|].
  destruct (Hm _ _ _ Hp Hx) as (ks' & Hp' & Hx'). by eapply desc_kid.
Qed.

Lemma desc_kid_or K a x : desc K a x -> a = x \/ kid K x.
Proof. destruct 1 as [|p ks x _ Hp Hx]; [by left|right]. by exists p, ks. Qed.

Lemma fin_mono K K' : (forall x ks k, K' !! x = Some ks -> k ∈ ks -> exists ks', K !! x = Some ks' /\ k ∈ ks') ->
  forall x, fin K x -> fin K' x.
Proof.
  intros Hm x Hf. induction Hf as [x Hn|x _ IH]; apply fin_intro; intros ks k Hx Hk.
  { destruct (Hm _ _ _ Hx Hk) as (ks' & Hx' & Hk'). congruence. }
  destruct (Hm _ _ _ Hx Hk) as (ks' & Hx' & Hk'). by eapply IH.
Qed.

Lemma fin_link K p ks c : K !! p = Some ks -> ~ kid K p -> p <> c -> (forall x, fin K x) ->
  forall x, fin (<[p:=ks ++ [c]]> K) x.
Proof.
  intros Hp Hk Hne Hf.
  assert (H1 : forall y, fin K y -> ~ desc K y p -> fin (<[p:=ks ++ [c]]> K) y).
  { intros y Hy. induction Hy as [y Hy|y _ IH]; intros Hd; apply fin_intro; intros ls k Hl Hkin.
    { apply lookup_insert_Some in Hl as [[<- <-]|[Hn Hl]]; [by destruct Hd; constructor|congruence]. }
    apply lookup_insert_Some in Hl as [[<- <-]|[Hn Hl]]; [by destruct Hd; constructor|].
    eapply IH; [done|done|]. intros [->|Hkp]%desc_kid_or; [|done]. apply Hk. by exists y, ls. }
  intros x. specialize (Hf x) as Hx. induction Hx as [x Hx|x _ IH]; apply fin_intro; intros ls k Hl Hkin.
  { apply lookup_insert_Some in Hl as [[<- <-]|[Hn Hl]]; congruence. }
  apply lookup_insert_Some in Hl as [[<- <-]|[Hn Hl]]; [|by eapply IH].
  apply elem_of_app in Hkin as [Hkin|Hkin]; [by eapply IH|].
  apply elem_of_list_singleton in Hkin as ->. apply H1; [done|]. intros [?|?]%desc_kid_or; congruence.
Qed.

Lemma kid_insert K p ls x : kid (<[p:=ls]> K) x -> x ∈ ls \/ kid K x.
Proof.
  intros (q & ks & Hq & Hx). apply lookup_insert_Some in Hq as [[<- <-]|[_ Hq]]; [by left|right]. by exists q, ks.
Qed.

Section order.
Context (cmp : V -> V -> comparison) (order : comparison) (TP : total_preorder cmp) (HO : order = Lt \/ order = Gt).

(** [a] does not go before [b]. *)
Definition worse (D : gmap nat V) (a b : nat) : Prop :=
  forall v w, D !! a = Some v -> D !! b = Some w -> cmp v w <> order.

Lemma cmp_refl (v : V) : cmp v v = Eq.
Proof. pose proof (tp_opp _ TP v v) as H. by destruct (cmp v v). Qed.

Lemma not_order_trans (a b c : V) : cmp a b <> order -> cmp b c <> order -> cmp a c <> order.
Proof.
  intros H1 H2. destruct HO as [-> | ->].
  - rewrite (tp_opp _ TP b a) in H1. rewrite (tp_opp _ TP c b) in H2. rewrite (tp_opp _ TP c a).
    pose proof (tp_trans _ TP c b a). destruct (cmp b a), (cmp c b), (cmp c a); simpl in *; try done; exfalso; by apply H.
  - eapply tp_trans; eauto.
Qed.

Lemma order_asym (a b : V) : cmp a b = order -> cmp b a <> order.
Proof. intros H. rewrite (tp_opp _ TP a b), H. by destruct HO as [-> | ->]. Qed.

Lemma worse_trans D a b c : is_Some (D !! b) -> worse D a b -> worse D b c -> worse D a c.
Proof. intros [w Hw] H1 H2 v u Hv Hu. eapply not_order_trans; [by apply H1|by apply H2]. Qed.
Lemma worse_refl D a : worse D a a.
Proof. intros v w H1 H2. simplify_eq. rewrite cmp_refl. by destruct HO as [-> | ->]. Qed.

Lemma is_order_spec (c : comparison) : is_order order c = true <-> c = order.
Proof. unfold is_order. destruct HO as [-> | ->]; by destruct c. Qed.

Record shape (D : gmap nat V) K (R : nat -> Prop) : Prop := Shape {
  sh_root : forall r, R r -> is_Some (K !! r) /\ ~ kid K r;
  sh_cov : forall x, is_Some (K !! x) -> exists r, R r /\ desc K r x;
  sh_fin : forall x, fin K x;
  sh_ord : forall x ks k, K !! x = Some ks -> k ∈ ks -> worse D k x
}.

Lemma shape_ext D K (R R' : nat -> Prop) : (forall x, R x <-> R' x) -> shape D K R -> shape D K R'.
Proof.
  intros He [H1 H2 H3 H4]. split; [|intros x Hx; destruct (H2 x Hx) as (r & Hr & Hd)|done|done].
  - intros r Hr. apply H1. by apply He.
  - exists r. by rewrite <- He.
Qed.

Lemma shape_link D K (R : nat -> Prop) p ks c : shape D K R -> K !! p = Some ks -> R p -> R c -> p <> c ->
  worse D c p -> shape D (<[p:=ks ++ [c]]> K) (fun x => R x /\ x <> c).
Proof.
  intros [H1 H2 H3 H4] Hp Rp Rc Hne Hw. split.
  - intros r [Hr Hn]. destruct (H1 r Hr) as [Hs Hk]. split; [isSome|]. intros [Hx|Hx]%kid_insert; [|done].
    apply elem_of_app in Hx as [Hx|Hx%elem_of_list_singleton]; [|done]. apply Hk. by exists p, ks.
  - intros x Hx. assert (is_Some (K !! x)) as Hx' by (apply lookup_insert_is_Some' in Hx as [<-|Hx]; [by eexists|done]).
    destruct (H2 x Hx') as (r & Hr & Hd).
    assert (Hd' : desc (<[p:=ks ++ [c]]> K) r x).
    { eapply desc_mono; [|done]. intros y ls k Hy Hkin. destruct (decide (p = y)) as [<-|Hn].
      - exists (ks ++ [c]). rewrite lookup_insert. simplify_eq. split; [done|]. apply elem_of_app. by left.
      - exists ls. by rewrite lookup_insert_ne. }
    destruct (decide (r = c)) as [->|Hn]; [|by exists r].
    exists p. split; [done|]. eapply desc_trans; [|done]. eapply desc_kid; [constructor|by rewrite lookup_insert|].
    apply elem_of_app. right. left.
  - intros x. apply fin_link; [done|by apply H1|done|done].
  - intros x ls k [[<- <-]|[Hn Hx]]%lookup_insert_Some Hk; [|by eapply H4].
    apply elem_of_app in Hk as [Hk| ->%elem_of_list_singleton]; [by eapply H4|done].
Qed.

Lemma value_Ok s x v : dat s !! x = Some v -> value s x = Ok v.
Proof. unfold value. by intros ->. Qed.

Lemma merge_Ok s K (R : nat -> Prop) a b : forest s K -> shape (dat s) K R -> R a -> R b -> a <> b ->
  exists s' w l ks, merge_c cmp order s a b = Ok (s', w, 1) /\ (w = a /\ l = b \/ w = b /\ l = a) /\
    joined cmp order (dat s) a b w /\
    K !! w = Some ks /\ forest s' (<[w:=ks ++ [l]]> K) /\
    shape (dat s) (<[w:=ks ++ [l]]> K) (fun x => R x /\ x <> l) /\ same s s' /\
    forall x, x <> l -> ~ kid K x -> keeps s s' x.
Proof.
  intros F S Ra Rb Hne. destruct (sh_root _ _ _ S _ Ra) as [Ka Na]. destruct (sh_root _ _ _ S _ Rb) as [Kb Nb].
  destruct (f_live _ _ F a Ka) as (_ & _ & _ & va & Hva). destruct (f_live _ _ F b Kb) as (_ & _ & _ & vb & Hvb).
  assert (a <> 0) by (intros ->; rewrite (f_zero _ _ F) in Ka; by destruct Ka).
  assert (b <> 0) by (intros ->; rewrite (f_zero _ _ F) in Kb; by destruct Kb).
  unfold merge_c. destruct (Nat.eqb_spec a 0), (Nat.eqb_spec b 0), (Nat.eqb_spec a b); try done. cbn [orb].
  unfold beats. rewrite (value_Ok _ _ _ Hvb). bind. rewrite (value_Ok _ _ _ Hva). bind.
  destruct (is_order order (cmp vb va)) eqn:E.
  - apply is_order_spec in E. destruct Kb as [ks Hb].
    destruct (link_child_Ok s K b a ks) as (s' & -> & F' & HS & Hk); try done. bind.
    exists s', b, a, ks. split_and!; try done; [by right|left; split; [done|right; by exists vb, va]|].
    apply shape_link; try done. intros v w ? ?. simplify_eq. by apply order_asym.
  - assert (E' : cmp vb va <> order) by (intros E'%is_order_spec; congruence). destruct Ka as [ks Ha].
    destruct (link_child_Ok s K a b ks) as (s' & -> & F' & HS & Hk); try done. bind.
    exists s', a, b, ks. split_and!; try done; [by left|right; split_and!; [done|done|]; intros; by simplify_eq|].
    apply shape_link; try done. intros v w ? ?. by simplify_eq.
Qed.

(** A forest does not see the links of its roots. *)
Lemma forest_roots s s' K : forest s K -> same s s' -> (forall x, lc s' !! x = lc s !! x) ->
  (forall x, kid K x -> keeps s s' x) -> forest s' K.
Proof.
  intros F HS Hlc Hk. split; try apply F.
  - intros x ks Hx. rewrite Hlc. by apply F.
  - intros x ks Hx. eapply ring_ext; [|by apply (f_ns _ _ F _ _ Hx)]. intros k Hin. apply Hk. by exists x, ks.
  - intros x ks Hx. eapply ring_ext; [|by apply (f_ps _ _ F _ _ Hx)]. intros k Hin. rewrite elem_of_rev in Hin.
    destruct (Hk k) as (_ & ? & _); [by exists x, ks|done].
  - intros x ks k Hx Hin. destruct (Hk k) as (_ & _ & ->); [by exists x, ks|]. by eapply F.
  - intros x Hx. rewrite (sm_ns _ _ HS), (sm_ps _ _ HS), (sm_pa _ _ HS), (sm_dat _ _ HS). by apply F.
Qed.

Lemma path_cons_nd m x y (xs : list nat) b : path m (x :: y :: xs) b -> m !! x = Some y.
Proof. by intros [? _]. Qed.

Definition dom_eq K K' : Prop := forall x, is_Some (K' !! x) <-> is_Some (K !! x).

Lemma dom_ins K p ls x : is_Some (K !! p) -> is_Some (<[p:=ls]> K !! x) <-> is_Some (K !! x).
Proof. intros Hp. rewrite lookup_insert_is_Some'. split; [intros [<-|?]; done|tauto]. Qed.
Lemma dom_eq_insert K p ls : is_Some (K !! p) -> dom_eq K (<[p:=ls]> K).
Proof. intros Hp x. by apply dom_ins. Qed.

Lemma pair_loop_Ok eldest fuel : forall s K (E : nat -> Prop) acc rest,
  length rest < fuel -> forest s K ->
  shape (dat s) K (fun x => x = acc \/ x ∈ rest \/ E x) ->
  NoDup rest -> acc ∉ rest -> (forall x, E x -> x <> acc /\ x ∉ rest) ->
  path (ns s) rest eldest -> eldest ∉ rest ->
  exists s' K' acc' rest' n,
    pair_loop_c cmp order fuel s eldest acc (hd eldest rest) = Ok (s', acc', hd eldest rest', n) /\
    spent n K acc rest K' acc' rest' /\ (forall x m w, E x -> tree K x m w -> tree K' x m w) /\
    forest s' K' /\ shape (dat s) K' (fun x => x = acc' \/ x ∈ rest' \/ E x) /\
    (rest' = [] \/ exists c, rest' = [c] /\ c <> eldest /\ c <> acc') /\
    (forall x, E x -> x <> acc' /\ x ∉ rest') /\
    dom_eq K K' /\ same s s' /\
    (forall x, E x \/ K !! x = None -> keeps s s' x).
Proof.
  induction fuel as [|fuel IH]; intros s K E acc rest Hf F S Hnd Hacc HE Hp Hel; [lia|].
  destruct rest as [|cur [|next rest]].
  - exists s, K, acc, [], 0. cbn. rewrite Nat.eqb_refl. split_and!; try done; try apply same_refl; [apply spent_none|by left].
  - exists s, K, acc, [cur], 0. cbn. apply not_elem_of_cons in Hel as [Hel _]. destruct (Nat.eqb_spec cur eldest); [done|].
    destruct Hp as [Hp _]. simpl in Hp. rewrite (rd_Ok _ _ _ Hp). bind. rewrite Nat.eqb_refl.
    apply not_elem_of_cons in Hacc as [? _].
    split_and!; try done; try apply same_refl; [apply spent_none|]. right. by exists cur.
  - cbn [hd pair_loop_c]. apply not_elem_of_cons in Hel as [Hel1 Hel]. apply not_elem_of_cons in Hel as [Hel2 Hel].
    apply not_elem_of_cons in Hacc as [Ha1 Hacc]. apply not_elem_of_cons in Hacc as [Ha2 Hacc].
    apply NoDup_cons in Hnd as [Hc Hnd]. apply NoDup_cons in Hnd as [Hn Hnd].
    apply not_elem_of_cons in Hc as [Hcn Hc].
    destruct Hp as (Hp1 & Hp2 & Hp). simpl in Hp1, Hp2.
    destruct (Nat.eqb_spec cur eldest); [done|]. rewrite (rd_Ok _ _ _ Hp1). bind.
    destruct (Nat.eqb_spec next eldest); [done|]. rewrite (rd_Ok _ _ _ Hp2). bind.
    destruct (sh_root _ _ _ S cur) as [Kc Nc]; [right; left; left|].
    destruct (sh_root _ _ _ S next) as [Kn Nn]; [right; left; right; left|].
    destruct (f_live _ _ F _ Kc) as (HcN & HcP & _ & _). destruct (f_live _ _ F _ Kn) as (HnN & HnP & _ & _).
    rewrite wps_Ok by done. bind. rewrite wns_Ok by done. bind.
    rewrite wps_Ok by (cbn; isSome). bind. rewrite wns_Ok by (cbn; isSome). bind.
    remember (set_ns _ _) as s4 eqn:Hs4.
    assert (HS4 : same s s4).
    { subst s4. split; cbn; try done; intros x; rewrite !upd_same; try done; by apply upd_same. }
    assert (Hk4 : forall x, x <> cur -> x <> next -> keeps s s4 x).
    { intros x H1 H2. subst s4. unfold keeps. cbn. by rewrite !lookup_insert_ne. }
    assert (Hd4 : dat s4 = dat s) by apply HS4.
    assert (F4 : forest s4 K).
    { eapply forest_roots; [done|done|by subst s4|]. intros x Hx. apply Hk4; intros ->; done. }
    rewrite <- Hd4 in S. clear Hs4.
    destruct (merge_Ok s4 K _ cur next F4 S) as (s5 & m & lo & ks & -> & Hm & Hj & HKm & F5 & S5 & HS5 & Hk5); [by right; left; left|by right; left; right; left|done|].
    bind. assert (Hd5 : dat s5 = dat s4) by apply HS5. rewrite <- Hd5 in S5.
    assert (Ham : acc <> m) by (destruct Hm as [[-> ->]|[-> ->]]; congruence).
    assert (Hal : acc <> lo) by (destruct Hm as [[-> ->]|[-> ->]]; congruence).
    destruct (merge_Ok s5 _ _ acc m F5 S5) as (s6 & acc' & lo' & ks' & -> & Hm' & Hj' & HKm' & F6 & S6 & HS6 & Hk6);
      [split; [by left|done]| |done|].
    { destruct Hm as [[-> ->]|[-> ->]]; (split; [|done]); right; left; [left|right; left]. }
    bind. assert (Hd6 : dat s6 = dat s5) by apply HS6.
    assert (Hkeep : forall x, x <> cur -> x <> next -> x <> acc -> ~ kid K x -> keeps s s6 x).
    { intros x H1 H2 H3 Hx. eapply keeps_trans; [by apply Hk4|]. eapply keeps_trans; [apply Hk5|apply Hk6].
      - destruct Hm as [[-> ->]|[-> ->]]; done.
      - done.
      - destruct Hm' as [[-> ->]|[-> ->]]; [|done]. destruct Hm as [[-> ->]|[-> ->]]; done.
      - intros [Hin|Hin]%kid_insert; [|done]. apply elem_of_app in Hin as [Hin| ->%elem_of_list_singleton].
        + apply Hx. by exists m, ks.
        + destruct Hm as [[-> ->]|[-> ->]]; done. }
    assert (Hrest : forall x, x ∈ rest -> keeps s s6 x).
    { intros x Hx. apply Hkeep; try (intros ->; done). apply (sh_root _ _ _ S). right. left. by do 2 right. }
    set (K' := <[acc':=ks' ++ [lo']]> (<[m:=ks ++ [lo]]> K)) in *.
    assert (HD : dom_eq K K').
    { intros x. unfold K'. rewrite (dom_ins _ _ _ _ (mk_is_Some _ _ HKm')). apply dom_ins; eauto. }
    destruct (IH s6 K' E acc' rest) as (s' & K'' & acc'' & rest' & nl & -> & Hsp & Hoth & F' & S' & H1 & H2 & H3 & H4 & H5).
    + simpl in Hf. lia.
    + done.
    + rewrite Hd6. eapply shape_ext; [|exact S6]. intros x. cbn. rewrite !elem_of_cons.
      assert (HEa : E x -> x <> acc /\ x <> cur /\ x <> next).
      { intros Hx. destruct (HE x Hx) as [? Hx']. apply not_elem_of_cons in Hx' as [? Hx'].
        apply not_elem_of_cons in Hx' as [? _]. done. }
      assert (HRa : x ∈ rest -> x <> acc /\ x <> cur /\ x <> next) by (intros Hx; split_and!; intros ->; done).
      destruct Hm' as [[-> ->]|[-> ->]]; destruct Hm as [[-> ->]|[-> ->]]; clear -HEa HRa Ha1 Ha2 Hcn;
        destruct (decide (x = acc)), (decide (x = cur)), (decide (x = next)); subst; try congruence; tauto.
    + done.
    + destruct Hm' as [[-> ->]|[-> ->]]; [done|]. destruct Hm as [[-> ->]|[-> ->]]; done.
    + intros x Hx. destruct (HE x Hx) as [Hx1 Hx']. apply not_elem_of_cons in Hx' as [Hx2 Hx'].
      apply not_elem_of_cons in Hx' as [Hx3 Hx']. split; [|done].
      destruct Hm' as [[-> ->]|[-> ->]]; [done|]. destruct Hm as [[-> ->]|[-> ->]]; done.
    + eapply path_ext; [|exact Hp]. intros x Hx. by apply Hrest.
    + done.
    + exists s', K'', acc'', rest', (1 + (1 + nl)). rewrite Hd6, Hd5, Hd4 in S'.
      assert (M1 : meets K cur next m lo (<[m:=ks ++ [lo]]> K)) by (split; [done|by exists ks]).
      assert (M2 : meets (<[m:=ks ++ [lo]]> K) acc m acc' lo' K') by (split; [done|by exists ks']).
      destruct (sh_root _ _ _ S acc) as [_ Na]; [by left|]. split_and!; try done.
      * eapply spent_pair; try done.
      * intros x k w Hx Tx. apply Hoth; [done|]. destruct (HE x Hx) as [Hx1 Hx']. apply not_elem_of_cons in Hx' as [Hx2 Hx'].
        apply not_elem_of_cons in Hx' as [Hx3 Hx']. eapply meets_other; [exact M2| | | | |].
        -- eapply meets_kid; [exact M1|done|done].
        -- eapply meets_kid; [exact M1|by destruct Hm as [[-> ->]|[-> ->]]|by destruct Hm as [[-> ->]|[-> ->]]].
        -- done.
        -- by destruct Hm as [[-> ->]|[-> ->]].
        -- by eapply meets_other.
      * intros x. rewrite (H3 x). apply HD.
      * eapply same_trans; [done|]. eapply same_trans; [done|]. by eapply same_trans.
      * intros x Hx. eapply keeps_trans; [|apply H5].
        -- destruct Hx as [Hx|Hx].
           ++ destruct (HE x Hx) as [Hx1 Hx']. apply not_elem_of_cons in Hx' as [Hx2 Hx'].
              apply not_elem_of_cons in Hx' as [Hx3 Hx']. apply Hkeep; try done. apply (sh_root _ _ _ S). auto.
           ++ apply Hkeep.
              ** intros ->. rewrite Hx in Kc. by destruct Kc.
              ** intros ->. rewrite Hx in Kn. by destruct Kn.
              ** intros ->. destruct (sh_root _ _ _ S acc) as [[? Hq] _]; [by left|]. congruence.
              ** intros (q & qs & Hq & Hin). destruct (f_in _ _ F _ _ _ Hq Hin). congruence.
        -- destruct Hx as [Hx|Hx]; [by left|right]. apply eq_None_not_Some. rewrite (HD x). rewrite Hx. by intros [? ?].
Qed.

(** The children [ks] of a deleted node are merged into one tree. *)
Lemma delete_min_Ok s K (E : nat -> Prop) e ks : forest s K ->
  lc s !! e = Some (default 0 (last ks)) -> ring (ns s) ks -> NoDup ks ->
  shape (dat s) K (fun x => x ∈ ks \/ E x) -> (forall x, E x -> x ∉ ks) ->
  exists s' K' r n, delete_min_c cmp order s e = Ok (s', r, n) /\ gathers n K ks K' r /\
    (forall x m w, E x -> tree K x m w -> tree K' x m w) /\ forest s' K' /\
    shape (dat s) K' (fun x => r <> 0 /\ x = r \/ E x) /\
    (r = 0 <-> ks = []) /\ ~ E r /\
    (ks <> [] -> ns s' !! r = Some r /\ ps s' !! r = Some r /\ pa s' !! r = Some 0) /\
    dom_eq K K' /\ same s s' /\ (forall x, E x \/ K !! x = None -> keeps s s' x).
Proof.
  intros F Hl Hr Hnd S HE. unfold delete_min_c. rewrite (rd_Ok _ _ _ Hl). bind.
  assert (HK : forall x, x ∈ ks -> is_Some (K !! x)) by (intros x Hx; apply (sh_root _ _ _ S); by left).
  assert (HE0 : ~ E 0).
  { intros H0. destruct (sh_root _ _ _ S 0) as [[? H] _]; [by right|]. rewrite (f_zero _ _ F) in H. done. }
  destruct ks as [|h ks].
  { cbn. exists s, K, 0, 0. split_and!; try done; try apply same_refl; [apply gathers_none|]. eapply shape_ext; [|exact S].
    intros x. cbn. rewrite elem_of_nil. tauto. }
  destruct (last (h :: ks)) as [l|] eqn:Hlast; [|by apply last_None in Hlast].
  assert (Hlin : l ∈ h :: ks) by (by eapply last_Some_elem_of).
  assert (Hl0 : l <> 0) by (intros ->; destruct (HK 0 Hlin) as [? Hx]; rewrite (f_zero _ _ F) in Hx; done).
  change (default 0 (Some l)) with l in *. destruct (Nat.eqb_spec l 0); [done|].
  unfold ring in Hr. simpl hd in Hr. rewrite (rd_Ok _ l h) by (by eapply path_last_lookup). bind.
  pose proof Hr as [Hh Hp]. rewrite (rd_Ok _ _ _ Hh). bind.
  apply NoDup_cons in Hnd as [Hhn Hnd].
  destruct (pair_loop_Ok h (Datatypes.S (size (ns s))) s K E h ks) as (s1 & K1 & acc & rest & n1 & -> & Hsp & Hoth & F1 & S1 & Hrest & HE1 & HD1 & HS1 & Hk1).
  - assert (length (h :: ks) <= size (ns s)); [|simpl in *; lia].
    eapply (path_size _ _ h); [|done]. by apply NoDup_cons.
  - done.
  - eapply shape_ext; [|exact S]. intros x. cbn. rewrite elem_of_cons. tauto.
  - done.
  - done.
  - intros x Hx. specialize (HE x Hx). by apply not_elem_of_cons in HE.
  - done.
  - done.
  - bind. 
    assert (exists s2 K2 r n2, (if hd h rest =? h then Ok (s1, acc, 0) else merge_c cmp order s1 acc (hd h rest)) = Ok (s2, r, n2) /\
      (r <> 0 -> gathers (n1 + n2) K (h :: ks) K2 r) /\ (forall x m w, E x -> tree K x m w -> tree K2 x m w) /\
      forest s2 K2 /\ shape (dat s) K2 (fun x => x = r \/ E x) /\ ~ E r /\ dom_eq K K2 /\ same s s2 /\
      (forall x, E x \/ K !! x = None -> keeps s s2 x)) as (s2 & K2 & r & n2 & -> & Hga & Hoth2 & F2 & S2 & HE2 & HD2 & HS2 & Hk2).
    { destruct Hrest as [->|(c & -> & Hc1 & Hc2)]; simpl hd.
      - rewrite Nat.eqb_refl. exists s1, K1, acc, 0. split_and!; try done.
        + rewrite Nat.add_0_r. by apply gathers_even.
        + eapply shape_ext; [|exact S1]. intros x. cbn. rewrite elem_of_nil. tauto.
        + intros Hx. by destruct (HE1 acc Hx).
      - destruct (Nat.eqb_spec c h); [done|]. assert (Hd1 : dat s1 = dat s) by apply HS1. rewrite <- Hd1 in S1.
        destruct (merge_Ok s1 K1 _ acc c F1 S1) as (s2 & w & lo & qs & -> & Hw & Hj & HKw & F2 & S2 & HS2 & Hk2); [by left|right; left; left|done|].
        exists s2, (<[w:=qs ++ [lo]]> K1), w, 1.
        assert (M : meets K1 acc c w lo (<[w:=qs ++ [lo]]> K1)) by (split; [done|by exists qs]).
        destruct (sh_root _ _ _ S1 acc) as [_ Na]; [by left|]. destruct (sh_root _ _ _ S1 c) as [_ Nc]; [right; left; left|].
        split_and!; try done.
        + intros Hw0. by eapply gathers_odd.
        + intros x k u Hx Tx. destruct (HE1 x Hx) as [? Hq]. apply not_elem_of_cons in Hq as [? _].
          eapply meets_other; [exact M|done|done|done|done|]. by apply Hoth.
        + rewrite <- Hd1. eapply shape_ext; [|exact S2]. intros x. cbn. rewrite elem_of_list_singleton.
          assert (E x -> x <> acc /\ x <> c) by (intros Hx; destruct (HE1 x Hx) as [? Hq]; split; [done|]; intros ->; apply Hq; left).
          destruct Hw as [[-> ->]|[-> ->]]; clear -H Hc2; destruct (decide (x = acc)), (decide (x = c)); subst; try congruence; tauto.
        + intros Hx. destruct (HE1 w Hx) as [? Hq]. destruct Hw as [[-> ->]|[-> ->]]; [done|]. apply Hq. left.
        + intros x. rewrite (dom_ins _ _ _ _ (mk_is_Some _ _ HKw)). apply HD1.
        + by eapply same_trans.
        + intros x Hx. eapply keeps_trans; [by apply Hk1|]. apply Hk2.
          * intros ->. destruct Hx as [Hx|Hx].
            -- destruct (HE1 lo Hx) as [? Hq]. destruct Hw as [[-> ->]|[-> ->]]; [|done]. apply Hq. left.
            -- assert (is_Some (K1 !! lo)) as Hq; [|apply HD1 in Hq as [??]; congruence].
               apply (sh_root _ _ _ S1). destruct Hw as [[-> ->]|[-> ->]]; [right; left; left|by left].
          * destruct Hx as [Hx|Hx]; [apply (sh_root _ _ _ S1); auto|].
            intros (q & us & Hq & Hin). destruct (proj1 (HD1 x)) as [? ?]; [|congruence]. by eapply F1. }
    bind. destruct (sh_root _ _ _ S2 r) as [Kr Nr]; [by left|]. destruct (f_live _ _ F2 _ Kr) as (HrN & HrP & HrA & _).
    rewrite wps_Ok by done. bind. rewrite wns_Ok by done. bind. rewrite wpa_Ok by done. bind. cbn.
    assert (Hr0 : r <> 0) by (intros ->; rewrite (f_zero _ _ F2) in Kr; by destruct Kr).
    eexists _, K2, r, (n1 + n2). split; [do 2 f_equal; lia|].
    assert (HS3 : same s2 (set_pa (set_ns (set_ps s2 (<[r:=r]> (ps s2))) (<[r:=r]> (ns s2))) (<[r:=0]> (pa s2)))).
    { split; cbn; try done; intros x; by apply upd_same. }
    split_and!; try done.
    + by apply Hga.
    + eapply forest_roots; [done|done|done|]. intros x Hx. unfold keeps. cbn. assert (r <> x) by (intros <-; done). by rewrite !lookup_insert_ne.
    + eapply shape_ext; [|exact S2]. intros x. cbn. tauto.
    + intros _. cbn. by rewrite !lookup_insert.
    + by eapply same_trans.
    + intros x Hx. eapply keeps_trans; [by apply Hk2|]. unfold keeps. cbn.
      assert (r <> x); [|by rewrite !lookup_insert_ne]. intros <-. destruct Hx as [Hx|Hx]; [done|].
      destruct (proj1 (HD2 r) Kr). congruence.
Qed.

(** * Cutting, deleting, adding *)

Lemma ring_rotate m a b : ring m (a ++ b) -> ring m (b ++ a).
Proof.
  unfold ring. destruct a as [|x a], b as [|y b]; simpl app; rewrite ?app_nil_r; try done.
  change (x :: a ++ y :: b) with ((x :: a) ++ y :: b). change (y :: b ++ x :: a) with ((y :: b) ++ x :: a).
  rewrite !path_app. simpl hd. tauto.
Qed.

Lemma ring_cut m e r y p : NoDup (e :: r) -> ring m (e :: r) -> head r = Some y -> last r = Some p ->
  m !! e = Some y /\ ring (<[p:=y]> m) r.
Proof.
  intros [He Hnd]%NoDup_cons [Hm Hp] Hy Hl. unfold ring in *. simpl in Hp, Hm.
  assert (Hh : forall b, hd b r = y) by (intros b; destruct r; [done|by simplify_eq/=]).
  rewrite Hh in *. split; [done|]. by eapply path_last.
Qed.

Lemma NoDup_rot (a b : list nat) : NoDup (a ++ b) -> NoDup (b ++ a).
Proof. by rewrite (Permutation_app_comm a b). Qed.
Lemma NoDup_rev' (a : list nat) : NoDup a -> NoDup (rev a).
Proof. intros. by apply NoDup_ListNoDup, NoDup_rev, NoDup_ListNoDup. Qed.

Lemma cut_child_Ok s K q ks e : forest s K -> K !! q = Some ks -> e ∈ ks ->
  exists s' a b, let ls := remaining a b in cut_child s e = Ok s' /\ ks = a ++ e :: b /\ forest s' (<[q:=ls]> K) /\
    (forall k, k ∈ ls <-> k ∈ ks /\ k <> e) /\ same s s' /\
    pa s' !! e = Some 0 /\ (exists n p, ns s' !! e = Some n /\ ps s' !! e = Some p /\ n <> 0 /\ p <> 0) /\
    forall x, ~ kid K x -> keeps s s' x.
Proof.
  intros F Hq He. pose proof (f_nd _ _ F _ _ Hq) as Hnd.
  pose proof (f_ns _ _ F _ _ Hq) as Hns. pose proof (f_ps _ _ F _ _ Hq) as Hps.
  pose proof (f_pa _ _ F _ _ _ Hq He) as Hpa. pose proof (f_lc _ _ F _ _ Hq) as Hlc.
  assert (HK : forall k, k ∈ ks -> is_Some (K !! k)) by (intros k Hk; by eapply F).
  assert (H0 : forall k, is_Some (K !! k) -> k <> 0) by (intros k Hk ->; rewrite (f_zero _ _ F) in Hk; by destruct Hk).
  assert (Hq0 : q <> 0) by (apply H0; eauto).
  apply elem_of_list_split in He as (a & b & ->).
  set (r := b ++ a).
  assert (Hmem : forall k, k ∈ r <-> k ∈ a ++ e :: b /\ k <> e).
  { intros k. unfold r. rewrite !elem_of_app, elem_of_cons.
    assert (e ∉ a /\ e ∉ b) as [Ha Hb].
    { apply NoDup_app in Hnd as (_ & Hd & Hnd). apply NoDup_cons in Hnd as [? _]. split; [|done].
      intros Hx. apply (Hd e Hx). left. }
    split; [|tauto]. intros [Hk|Hk]; (split; [tauto|intros ->; done]). }
  assert (Hnr : NoDup (e :: r)) by (apply (NoDup_rot a (e :: b)) in Hnd; done).
  assert (Hrn : ring (ns s) (e :: r)) by (apply (ring_rotate _ a (e :: b)) in Hns; done).
  assert (Hrp : ring (ps s) (e :: rev r)).
  { unfold r. rewrite rev_app_distr. rewrite rev_app_distr in Hps. simpl in Hps. rewrite <- app_assoc in Hps.
    apply ring_rotate in Hps. done. }
  assert (Hnrr : NoDup (e :: rev r)).
  { apply NoDup_cons in Hnr as [Hi Hn]. apply NoDup_cons. rewrite elem_of_rev. split; [done|by apply NoDup_rev']. }
  (* the list of children afterwards *)
  set (ls := remaining a b).
  assert (Hrl : exists u v, r = u ++ v /\ ls = v ++ u).
  { unfold r, ls, remaining. destruct b as [|y b]; [|by exists (y :: b), a]. destruct a as [|h a]; [by exists [], []|].
    by exists [h], a. }
  assert (Hlr : forall k, k ∈ ls <-> k ∈ r).
  { destruct Hrl as (u & v & -> & ->). intros k. rewrite !elem_of_app. tauto. }
  destruct (f_live _ _ F e (HK e ltac:(apply elem_of_app; right; left))) as (HeN & HeP & HeA & _).
  assert (He0 : e <> 0) by (apply H0, HK, elem_of_app; right; left).
  unfold cut_child. exists (set_pa (set_lc (set_ns (set_ps s
     (match head r, last r with Some y, Some p => <[y:=p]> (ps s) | _, _ => ps s end))
     (match head r, last r with Some y, Some p => <[p:=y]> (ns s) | _, _ => ns s end))
     (match b with [] => <[q:=match a with [] => 0 | h :: _ => h end]> (lc s) | _ => lc s end))
     (<[e:=0]> (pa s))), a, b. fold ls. cbv zeta.
  assert (Hrun : forall (s1 : pmem V) n, ns s1 !! e = Some n -> lc s1 = lc s -> pa s1 = pa s ->
    n = match r with [] => e | y :: _ => y end ->
    (q0 ← rd (pa s1) e;
     s3 ← (if q0 =? 0 then Ok s1
           else l ← rd (lc s1) q0;
                if e =? l then n2 ← rd (ns s1) e; wlc s1 q0 (if n2 =? e then 0 else n2) else Ok s1);
     wpa s3 e 0) = Ok (set_pa (set_lc s1 (match b with [] => <[q:=match a with [] => 0 | h :: _ => h end]> (lc s) | _ => lc s end)) (<[e:=0]> (pa s)))).
  { intros s1 n Hn Hl1 Hp1 Hn'. rewrite Hp1, (rd_Ok _ _ _ Hpa). bind. destruct (Nat.eqb_spec q 0); [done|].
    rewrite Hl1, (rd_Ok _ _ _ Hlc). bind.
    destruct b as [|y b].
    - rewrite last_snoc. simpl. rewrite Nat.eqb_refl. rewrite (rd_Ok _ _ _ Hn). bind.
      rewrite wlc_Ok by (rewrite Hl1; eauto). bind. rewrite wpa_Ok by (cbn; rewrite Hp1; done). cbn. rewrite Hl1, Hp1.
      unfold r in *. subst n. simpl. destruct a as [|h a]; simpl; [by rewrite Nat.eqb_refl|].
      destruct (Nat.eqb_spec h e) as [->|]; [|done]. simpl in Hnr. apply NoDup_cons in Hnr as [Hnr _]. destruct Hnr. left.
    - destruct (last (a ++ e :: y :: b)) as [l|] eqn:E; [|by apply last_None in E; destruct a].
      rewrite last_app, !last_cons in E. cbn. assert (l ∈ y :: b) as Hl.
      { destruct (last b) as [z|] eqn:E'; simplify_eq; [right; by eapply last_Some_elem_of|left]. }
      destruct (Nat.eqb_spec e l) as [->|].
      { apply NoDup_cons in Hnr as [Hnr _]. destruct Hnr. unfold r. apply elem_of_app. by left. }
      bind. rewrite wpa_Ok by (by rewrite Hp1). rewrite Hp1. destruct s1; cbn in *. by subst. }
  destruct (head r) as [y|] eqn:Hy.
  - destruct (last r) as [p|] eqn:Hp; [|apply last_None in Hp; by rewrite Hp in Hy].
    destruct (ring_cut _ _ _ _ _ Hnr Hrn Hy Hp) as [Hne Hrn'].
    destruct (ring_cut _ e (rev r) p y Hnrr Hrp) as [Hpe Hrp']; [by apply head_rev|by apply last_rev|].
    assert (Hyr : y ∈ r) by (by apply head_Some_elem_of). assert (Hpr : p ∈ r) by (by eapply last_Some_elem_of).
    assert (y <> e) by (by apply Hmem). assert (p <> e) by (by apply Hmem).
    destruct (f_live _ _ F y (HK y ltac:(by apply Hmem))) as (HyN & HyP & _ & _).
    destruct (f_live _ _ F p (HK p ltac:(by apply Hmem))) as (HpN & HpP & _ & _).
    rewrite (rd_Ok _ _ _ Hne). bind. rewrite (rd_Ok _ _ _ Hpe). bind. rewrite wps_Ok by done. bind. cbn [set_ps ps ns].
    rewrite (rd_Ok (<[y:=p]> (ps s)) e p) by (by rewrite lookup_insert_ne). bind. rewrite (rd_Ok _ _ _ Hne). bind.
    rewrite wns_Ok by done. bind.
    match goal with |- _ = Ok ?x /\ _ => remember x as s' eqn:Hs' end.
    rewrite (Hrun _ y); [|cbn; by rewrite lookup_insert_ne|done|done|destruct r; by simplify_eq/=].
    assert (HS : same s s').
    { subst s'. split; cbn; try done; intros x; try (by apply upd_same).
      destruct b; [|done]. apply upd_same. eauto. }
    split_and!.
    + by subst s'.
    + done.
    + eapply forest_change; [done|done|exact HS|..]; subst s'; cbn.
      * unfold ls, remaining. destruct b as [|z b]; [|rewrite Hlc; f_equal; f_equal; rewrite !last_app, !last_cons; by destruct (last b)].
        rewrite lookup_insert. destruct a as [|h a]; [done|]. by rewrite last_snoc.
      * destruct Hrl as (u & v & Er & ->). apply ring_rotate. by rewrite <- Er.
      * destruct Hrl as (u & v & Er & ->). rewrite rev_app_distr. apply ring_rotate. rewrite <- rev_app_distr. by rewrite <- Er.
      * intros k Hk%Hlr%Hmem. rewrite lookup_insert_ne by naive_solver. eapply (f_pa _ _ F); [done|tauto].
      * intros k Hk%Hlr%Hmem. apply HK. tauto.
      * destruct Hrl as (u & v & Er & ->). apply NoDup_rot. rewrite <- Er. by apply NoDup_cons in Hnr as [_ ?].
      * intros x Hx. destruct b; [|done]. by rewrite lookup_insert_ne.
      * intros x k Hne' Hk. destruct (K !! x) as [xs|] eqn:Hx; [|by apply elem_of_nil in Hk]. simpl in Hk.
        assert (Hnot : k ∉ a ++ e :: b) by (intros Hin; apply Hne'; by eapply kid_unique).
        rewrite !lookup_insert_ne; [done|..]; intros <-; apply Hnot; try (by apply Hmem). apply elem_of_app. right. left.
    + intros k. rewrite Hlr. apply Hmem.
    + done.
    + subst s'. cbn. by rewrite lookup_insert.
    + exists y, p. subst s'. cbn. rewrite !lookup_insert_ne by done. split_and!; try done; apply H0, HK; by apply Hmem.
    + intros x Hx. subst s'. unfold keeps. cbn.
      assert (Hx' : x ∉ a ++ e :: b) by (intros Hin; apply Hx; by exists q, (a ++ e :: b)).
      rewrite !lookup_insert_ne; [done|..]; intros <-; apply Hx'; try (by apply Hmem). apply elem_of_app. right. left.
  - assert (Er : r = []) by (by destruct r). rewrite Er in *. 
    assert (a = [] /\ b = []) as [-> ->] by (unfold r in Er; by apply app_nil in Er as [-> ->]).
    unfold ring in Hrn, Hrp. simpl in Hrn, Hrp. destruct Hrn as [Hne _]. destruct Hrp as [Hpe _].
    rewrite (rd_Ok _ _ _ Hne). bind. rewrite (rd_Ok _ _ _ Hpe). bind. rewrite wps_Ok by done. bind. cbn [set_ps ps ns].
    rewrite (insert_id (ps s) e e) by done.
    rewrite (rd_Ok (ps s) e e) by done. bind. rewrite (rd_Ok _ _ _ Hne). bind.
    rewrite wns_Ok by done. bind. cbn [ns set_ps]. rewrite (insert_id (ns s) e e) by done.
    match goal with |- _ = Ok ?x /\ _ => remember x as s' eqn:Hs' end.
    rewrite (Hrun _ e); [|done..].
    assert (HS : same s s').
    { subst s'. split; cbn; try done; intros x; apply upd_same; eauto. }
    split_and!.
    + by subst s'.
    + done.
    + eapply forest_change; [done|done|exact HS|..]; subst s'; cbn; try done.
      * by rewrite lookup_insert.
      * by intros k ?%elem_of_nil.
      * by intros k ?%elem_of_nil.
      * apply NoDup_nil_2.
      * intros x Hx. by rewrite lookup_insert_ne.
      * intros x k Hne' Hk. destruct (K !! x) as [xs|] eqn:Hx; [|by apply elem_of_nil in Hk]. simpl in Hk.
        assert (Hnot : k ∉ [e]) by (intros Hin; apply Hne'; by eapply kid_unique).
        rewrite !lookup_insert_ne; [done|..]; intros <-; apply Hnot; left.
    + intros k. rewrite Hlr. apply Hmem.
    + done.
    + subst s'. cbn. by rewrite lookup_insert.
    + exists e, e. subst s'. cbn. done.
    + intros x Hx. subst s'. unfold keeps. cbn.
      rewrite !lookup_insert_ne; [done|..]; intros <-. apply Hx. exists q, [e]. split; [done|left].
Qed.

Lemma fin_irrefl K : forall x, fin K x -> forall y, desc K x y -> forall ks, K !! y = Some ks -> x ∉ ks.
Proof.
  intros x Hf. induction Hf as [x Hn|x _ IH]; intros y Hd ks Hy Hx.
  { assert (x = y) as <- by (clear Hy Hx; induction Hd; [done|subst; congruence]). congruence. }
  (* first step from x towards y *)
  assert (Hs : x = y \/ exists xs k, K !! x = Some xs /\ k ∈ xs /\ desc K k y).
  { clear Hy Hx. induction Hd as [|p ps z Hd IHd Hp Hz]; [by left|right]. destruct IHd as [->|(xs & k & Hxs & Hk & Hkp)].
    - exists ps, z. split_and!; [done|done|constructor].
    - exists xs, k. split_and!; [done|done|]. by eapply desc_kid. }
  destruct Hs as [->|(xs & k & Hxs & Hk & Hky)].
  - eapply (IH ks y Hy Hx y); [constructor|done|done].
  - eapply (IH xs k Hxs Hk x); [by eapply desc_kid|done|done].
Qed.

Lemma fin_self K x ks : fin K x -> K !! x = Some ks -> x ∉ ks.
Proof. intros Hf Hx. eapply fin_irrefl; [done|constructor|done]. Qed.

Lemma shape_cut s D K (R : nat -> Prop) q ks ls e : forest s K -> shape D K R -> K !! q = Some ks -> e ∈ ks ->
  (forall k, k ∈ ls <-> k ∈ ks /\ k <> e) -> shape D (<[q:=ls]> K) (fun x => R x \/ x = e).
Proof.
  intros F [H1 H2 H3 H4] Hq He Hls.
  assert (Hsub : forall x xs k, <[q:=ls]> K !! x = Some xs -> k ∈ xs -> exists xs', K !! x = Some xs' /\ k ∈ xs').
  { intros x xs k [[<- <-]|[Hn Hx]]%lookup_insert_Some Hk; [|by eauto]. exists ks. split; [done|]. by apply Hls in Hk as [? _]. }
  split.
  - intros r [Hr| ->].
    + destruct (H1 r Hr) as [Hs Hn]. split; [isSome|]. intros (p & ps & Hp & Hin).
      destruct (Hsub _ _ _ Hp Hin) as (ps' & Hp' & Hin'). apply Hn. by exists p, ps'.
    + split; [apply lookup_insert_is_Some'; right; by eapply F|]. intros (p & ps & Hp & Hin).
      apply lookup_insert_Some in Hp as [[<- <-]|[Hn Hp]]; [by apply Hls in Hin as [_ ?]|].
      apply Hn. by eapply kid_unique.
  - intros x Hx. assert (is_Some (K !! x)) as Hx' by (apply lookup_insert_is_Some' in Hx as [<-|Hx]; [by eexists|done]).
    destruct (H2 x Hx') as (r & Hr & Hd). clear Hx Hx'.
    assert (desc (<[q:=ls]> K) r x \/ desc (<[q:=ls]> K) e x) as [Hd'|Hd']; [|by exists r; eauto|by exists e; eauto].
    induction Hd as [|p ps x Hd IH Hp Hx]; [left; constructor|].
    destruct (decide (x = e)) as [->|Hne]; [right; constructor|].
    assert (exists ps', <[q:=ls]> K !! p = Some ps' /\ x ∈ ps') as (ps' & Hp' & Hx').
    { destruct (decide (q = p)) as [<-|Hn].
      - exists ls. rewrite lookup_insert. simplify_eq. split; [done|]. by apply Hls.
      - exists ps. by rewrite lookup_insert_ne. }
    destruct IH as [IH|IH]; [left|right]; by eapply desc_kid.
  - intros x. eapply fin_mono; [|done]. exact Hsub.
  - intros x xs k Hx Hk. destruct (Hsub _ _ _ Hx Hk) as (xs' & Hx' & Hk'). by eapply H4.
Qed.

Lemma forest_delete s K e : forest s K -> ~ kid K e -> forest s (delete e K).
Proof.
  intros F Hn. split.
  - rewrite lookup_delete_None. right. apply F.
  - intros x ks [_ Hx]%lookup_delete_Some. by apply F.
  - intros x ks [_ Hx]%lookup_delete_Some. by eapply F.
  - intros x ks [_ Hx]%lookup_delete_Some. by eapply F.
  - intros x ks k [_ Hx]%lookup_delete_Some. by eapply F.
  - intros x ks k [_ Hx]%lookup_delete_Some Hk. rewrite lookup_delete_ne; [by eapply F|].
    intros <-. apply Hn. by exists x, ks.
  - intros x ks [_ Hx]%lookup_delete_Some. by eapply F.
  - intros x [ks [_ Hx]%lookup_delete_Some]. apply (f_live _ _ F). eauto.
Qed.

Lemma shape_delete s D K (R : nat -> Prop) e ks : forest s K -> shape D K R -> R e -> K !! e = Some ks ->
  shape D (delete e K) (fun x => x ∈ ks \/ (R x /\ x <> e)).
Proof.
  intros F [H1 H2 H3 H4] Re He. split.
  - intros r [Hr|[Hr Hn]].
    + assert (r <> e) by (intros ->; by eapply fin_self).
      split; [rewrite lookup_delete_ne by done; by eapply F|]. intros (p & ps & [Hp1 Hp]%lookup_delete_Some & Hin).
      apply Hp1. by eapply kid_unique.
    + destruct (H1 r Hr) as [Hs Hk]. split; [by rewrite lookup_delete_ne|]. intros (p & ps & [Hp1 Hp]%lookup_delete_Some & Hin).
      apply Hk. by exists p, ps.
  - intros x [xs [Hx1 Hx]%lookup_delete_Some]. destruct (H2 x (mk_is_Some _ _ Hx)) as (r & Hr & Hd).
    clear xs Hx. induction Hd as [|p ps x Hd IH Hp Hx].
    + exists r. split; [right; done|constructor].
    + destruct (decide (e = p)) as [<-|Hn].
      * exists x. split; [left; by simplify_eq|constructor].
      * destruct IH as (r' & Hr' & Hd'); [done|]. exists r'. split; [done|]. eapply desc_kid; [done|by rewrite lookup_delete_ne|done].
  - intros x. eapply fin_mono; [|done]. intros y ys k [_ Hy]%lookup_delete_Some Hk. eauto.
  - intros x xs k [_ Hx]%lookup_delete_Some Hk. by eapply H4.
Qed.

(** Data that matter: those of nodes and their parents. *)
Lemma shape_data D D' K (R : nat -> Prop) e : shape D K R -> ~ kid K e ->
  (forall x, x <> e -> D' !! x = D !! x) -> (forall ks k, K !! e = Some ks -> k ∈ ks -> worse D' k e) ->
  shape D' K R.
Proof.
  intros [H1 H2 H3 H4] Hn Hd Hw. split; try done. intros x ks k Hx Hk.
  destruct (decide (x = e)) as [->|Hne]; [by eapply Hw|]. intros v w Hv Hw'.
  rewrite Hd in Hw' by done. rewrite Hd in Hv by (intros ->; apply Hn; by exists x, ks). by eapply H4.
Qed.

Lemma desc_worse s K r x : forest s K -> (forall D (R : nat -> Prop), shape D K R -> (forall y, is_Some (K !! y) -> is_Some (D !! y)) ->
  is_Some (K !! r) -> desc K r x -> worse D x r).
Proof.
  intros F D R S HD Hr Hd. induction Hd as [|p ks x Hd IH Hp Hx]; [apply worse_refl|].
  eapply worse_trans; [|by eapply (sh_ord _ _ _ S)|exact IH]. apply HD. eauto.
Qed.

(** In a heap nothing beats the root. *)
Lemma root_front s K D r x : forest s K -> shape D K (fun x => r <> 0 /\ x = r) ->
  (forall y, is_Some (K !! y) -> is_Some (D !! y)) -> is_Some (K !! x) -> worse D x r.
Proof.
  intros F S HD Hx. destruct (sh_cov _ _ _ S x Hx) as (r' & [H0 ->] & Hd). 
  eapply desc_worse; [done|done|done| |done]. by apply (sh_root _ _ _ S).
Qed.

Lemma shape_empty K D : shape D K (fun _ => False) -> K = ∅.
Proof.
  intros S. apply map_empty. intros x. apply eq_None_not_Some. intros Hx.
  by destruct (sh_cov _ _ _ S x Hx) as (r & [] & _).
Qed.

Lemma forest_add s K e : forest s K -> e <> 0 -> K !! e = None -> lc s !! e = Some 0 ->
  is_Some (ns s !! e) -> is_Some (ps s !! e) -> is_Some (pa s !! e) -> is_Some (dat s !! e) ->
  forest s (<[e:=[]]> K).
Proof.
  intros F He HK Hl Hn Hp Ha Hd. split.
  - rewrite lookup_insert_ne by done. apply F.
  - intros x ks [[<- <-]|[Hne Hx]]%lookup_insert_Some; [done|]. by apply F.
  - intros x ks [[<- <-]|[Hne Hx]]%lookup_insert_Some; [done|]. by eapply F.
  - intros x ks [[<- <-]|[Hne Hx]]%lookup_insert_Some; [done|]. by eapply F.
  - intros x ks k [[<- <-]|[Hne Hx]]%lookup_insert_Some Hk; [by apply elem_of_nil in Hk|]. by eapply F.
  - intros x ks k [[<- <-]|[Hne Hx]]%lookup_insert_Some Hk; [by apply elem_of_nil in Hk|].
    apply lookup_insert_is_Some'. right. by eapply F.
  - intros x ks [[<- <-]|[Hne Hx]]%lookup_insert_Some; [apply NoDup_nil_2|]. by eapply F.
  - intros x [<-|Hx]%lookup_insert_is_Some'; [done|]. by apply F.
Qed.

Lemma shape_add s D K (R : nat -> Prop) e : forest s K -> shape D K R -> K !! e = None ->
  shape D (<[e:=[]]> K) (fun x => R x \/ x = e).
Proof.
  intros F [H1 H2 H3 H4] HK. 
  assert (Hkid : forall x, kid (<[e:=[]]> K) x -> kid K x).
  { intros x [Hx|Hx]%kid_insert; [by apply elem_of_nil in Hx|done]. }
  split.
  - intros r [Hr| ->].
    + destruct (H1 r Hr) as [Hs Hn]. split; [isSome|]. intros Hk. by apply Hn, Hkid.
    + split; [isSome|]. intros (p & ps & Hp & Hin)%Hkid. destruct (f_in _ _ F _ _ _ Hp Hin). congruence.
  - intros x [<-|Hx]%lookup_insert_is_Some'.
    + exists e. split; [by right|constructor].
    + destruct (H2 x Hx) as (r & Hr & Hd). exists r. split; [by left|]. eapply desc_mono; [|done].
      intros y ys k Hy Hk. exists ys. rewrite lookup_insert_ne; [done|]. intros <-. congruence.
  - intros x. eapply fin_mono; [|done]. intros y ys k [[<- <-]|[Hne Hy]]%lookup_insert_Some Hk; [by apply elem_of_nil in Hk|]. eauto.
  - intros x xs k [[<- <-]|[Hne Hx]]%lookup_insert_Some Hk; [by apply elem_of_nil in Hk|]. by eapply H4.
Qed.

Lemma forest_dat s s' K : forest s K -> lc s' = lc s -> ns s' = ns s -> ps s' = ps s -> pa s' = pa s ->
  (forall x, is_Some (dat s !! x) -> is_Some (dat s' !! x)) -> forest s' K.
Proof.
  intros F Hl Hn Hp Ha Hd. split; rewrite ?Hl, ?Hn, ?Hp, ?Ha; try apply F.
  intros x Hx. destruct (f_live _ _ F x Hx) as (?&?&?&?). split_and!; auto.
Qed.

Definition single (r : nat) : nat -> Prop := fun x => r <> 0 /\ x = r.

(** pq->root_ = merge(pq, pq->root_, e) for a node [e] that is the root of its
    own tree in the forest. *)
Lemma merge_root_Ok s K e : forest s K -> shape (dat s) K (fun x => single (root s) x \/ x = e) -> e <> root s ->
  exists s' K' n, merge_root_c cmp order s e = Ok (s', n) /\ joins n K (root s) e K' (root s') /\
    forest s' K' /\ shape (dat s) K' (single (root s')) /\
    joined cmp order (dat s) (root s) e (root s') /\ dom_eq K K' /\ same s (set_root s' (root s)) /\
    (forall x, K !! x = None \/ x = root s' -> keeps s s' x).
Proof.
  intros F S Hne. destruct (sh_root _ _ _ S e) as [Ke Ne]; [by right|].
  assert (He0 : e <> 0) by (intros ->; rewrite (f_zero _ _ F) in Ke; by destruct Ke).
  unfold merge_root_c. destruct (decide (root s = 0)) as [H0|H0].
  - rewrite H0. unfold merge_c. cbn. exists (set_root s e), K, 0. split_and!; try done.
    + by apply joins_empty.
    + by eapply forest_dat.
    + eapply shape_ext; [|exact S]. intros x. cbn. unfold single. naive_solver.
    + left. split; [done|]. by left.
  - destruct (merge_Ok s K _ (root s) e F S) as (s' & w & l & ks & -> & Hw & Hj & HKw & F' & S' & HS & Hk);
      [by left; split|by right|done|]. bind.
    exists (set_root s' w), (<[w:=ks ++ [l]]> K), 1. destruct (sh_root _ _ _ S (root s)) as [_ Nr]; [by left; split|].
    split_and!; try done.
    + apply (joins_meet _ _ _ _ l); try done; [split; [done|by exists ks]|by destruct Hw as [[-> _]|[-> _]]].
    + by eapply forest_dat.
    + eapply shape_ext; [|exact S']. intros x. cbn. unfold single.
      destruct Hw as [[-> ->]|[-> ->]]; [|naive_solver]. destruct (decide (x = e)), (decide (x = root s)); naive_solver.
    + apply dom_eq_insert. eauto.
    + destruct HS. split; done.
    + intros x Hx. destruct (Hk x) as (?&?&?); [..|done].
      * intros ->. destruct Hx as [Hx|Hx].
        -- assert (is_Some (K !! l)) as [??]; [|congruence]. apply (sh_root _ _ _ S).
           destruct Hw as [[-> ->]|[-> ->]]; [by right|by left].
        -- cbn in Hx. subst. destruct Hw as [[? ->]|[? ->]]; congruence.
      * destruct Hx as [Hx|Hx].
        -- intros (p & qs & Hp & Hin). destruct (f_in _ _ F _ _ _ Hp Hin). congruence.
        -- cbn in Hx. subst. apply (sh_root _ _ _ S). destruct Hw as [[-> ->]|[-> ->]]; [by left|by right].
Qed.

(** [e] leaves the heap. The data of [e] itself may have changed since the heap
    was in order ([D]). *)
Lemma delete_root_Ok s K D e : forest s K -> shape D K (single (root s)) -> is_Some (K !! e) ->
  (forall x, x <> e -> dat s !! x = D !! x) -> is_Some (D !! e) ->
  exists s' K' n, delete_root_c cmp order s e = Ok (s', n) /\ toll n (fun m => 4 * m ^ 3) 0 1 K (root s) K' (root s') /\
    forest s' K' /\ shape (dat s) K' (single (root s')) /\
    (forall x, is_Some (K' !! x) <-> x <> e /\ is_Some (K !! x)) /\
    same s (set_root s' (root s)) /\
    (forall x, K !! x = None -> keeps s s' x) /\
    (e = root s -> root s' <> 0 -> ns s' !! root s' = Some (root s') /\ ps s' !! root s' = Some (root s') /\ pa s' !! root s' = Some 0) /\
    (e <> root s -> root s' = root s /\ keeps s s' (root s)).
Proof.
  intros F S Ke HD HDe. unfold delete_root_c, delete_node_c.
  assert (HDK : forall y, is_Some (K !! y) -> is_Some (D !! y)).
  { intros y Hy. destruct (decide (y = e)) as [->|Hn]; [done|]. rewrite <- HD by done. by apply F. }
  destruct (Nat.eqb_spec (root s) e) as [Hre|Hre].
  - destruct Ke as [ks He]. assert (Hr0 : root s <> 0) by (intros H0; rewrite H0 in Hre; subst e; rewrite (f_zero _ _ F) in He; done).
    destruct (sh_root _ _ _ S e) as [_ Ne]; [by split|].
    pose proof (shape_delete _ _ _ _ e ks F S ltac:(by split) He) as S1.
    assert (Hke : ~ kid (delete e K) e).
    { intros (p & ps & [_ Hp]%lookup_delete_Some & Hin). apply Ne. by exists p, ps. }
    apply (shape_data _ (dat s) _ _ e) in S1; [|done|done|intros ? ? [? _]%lookup_delete_Some; congruence].
    destruct (delete_min_Ok s (delete e K) (fun _ => False) e ks) as (s' & K' & r & n & -> & Hga & _ & F' & S' & Hr & _ & Hrl & HD' & HS' & Hk').
    + by apply forest_delete.
    + by apply F.
    + by eapply F.
    + by eapply F.
    + eapply shape_ext; [|exact S1]. intros x. cbn. unfold single. naive_solver.
    + done.
    + bind. exists (set_root s' r), K', n. rewrite Nat.add_0_r. split_and!; try done.
      * rewrite Hre. eapply toll_root; try done. congruence.
      * by eapply forest_dat.
      * eapply shape_ext; [|exact S']. intros x. cbn. unfold single. tauto.
      * intros x. rewrite (HD' x). unfold is_Some. setoid_rewrite lookup_delete_Some. naive_solver.
      * destruct HS'. split; done.
      * intros x Hx. apply Hk'. right. rewrite lookup_delete_None. by right.
      * intros _ Hx. apply Hrl. cbn in Hx. by rewrite <- Hr.
  - destruct (sh_cov _ _ _ S e Ke) as (r0 & [Hr0 ->] & Hd0). destruct (desc_kid_or _ _ _ Hd0) as [?|(q & qs & Hq & Hin)]; [done|].
    assert (Hqe : q <> e) by (intros ->; by eapply fin_self; [apply (sh_fin _ _ _ S)|..]).
    destruct (cut_child_Ok s K q qs e F Hq Hin) as (s1 & ca & cb & -> & Hqs & F1 & Hls & HS1 & Hpa1 & _ & Hk1). bind.
    set (ls := remaining ca cb) in *.
    assert (Hdq : desc K (root s) q).
    { destruct (sh_cov _ _ _ S q) as (r1 & [_ ->] & Hx); [eauto|done]. }
    pose proof (shape_cut _ _ _ _ _ _ _ _ F S Hq Hin Hls) as S1. destruct Ke as [ks He].
    set (K1 := <[q:=ls]> K) in *.
    assert (He1 : K1 !! e = Some ks) by (unfold K1; by rewrite lookup_insert_ne).
    destruct (sh_root _ _ _ S1 e) as [_ Ne]; [by right|].
    pose proof (shape_delete _ _ _ _ e ks F1 S1 ltac:(by right) He1) as S2.
    assert (Hke : ~ kid (delete e K1) e).
    { intros (p & ps & [_ Hp]%lookup_delete_Some & Hin'). apply Ne. by exists p, ps. }
    apply (shape_data _ (dat s) _ _ e) in S2; [|done|done|intros ? ? [? _]%lookup_delete_Some; congruence].
    assert (Hrk : root s ∉ ks).
    { intros Hx. apply (sh_root _ _ _ S1 (root s)); [by left; split|]. by exists e, ks. }
    assert (Hd1 : dat s1 = dat s) by apply HS1. assert (Hr1 : root s1 = root s) by apply HS1.
    destruct (delete_min_Ok s1 (delete e K1) (fun x => x = root s) e ks) as (s2 & K2 & r & n & -> & Hga & Hoth & F2 & S3 & Hr & Hnr & Hrl & HD2 & HS2 & Hk2).
    + by apply forest_delete.
    + by apply F1.
    + by eapply F1.
    + by eapply F1.
    + rewrite Hd1. eapply shape_ext; [|exact S2]. intros x. cbn. unfold single. naive_solver.
    + by intros x ->.
    + bind. assert (Hr2 : root s2 = root s) by (rewrite <- Hr1; apply HS2). rewrite Hr2.
      assert (Hd2 : dat s2 = dat s) by (rewrite <- Hd1; apply HS2). rewrite Hd1 in S3.
      assert (HKdom : forall x, is_Some (K2 !! x) <-> x <> e /\ is_Some (K !! x)).
      { intros x. rewrite (HD2 x). assert (is_Some (K1 !! x) <-> is_Some (K !! x)) as <-.
        { apply (dom_eq_insert K q ls). eauto. }
        unfold is_Some. setoid_rewrite lookup_delete_Some. naive_solver. }
      assert (Hrn : ~ kid K (root s)) by (apply (sh_root _ _ _ S); by split).
      destruct (decide (r = 0)) as [->|Hrne].
      * unfold merge_c. rewrite Nat.eqb_refl, orb_true_r. cbn [orb]. destruct (Nat.eqb_spec (root s) 0) as [?|_]; [done|].
        bind. exists (set_root s2 (root s)), K2, n. split_and!; try done.
        -- by rewrite !Nat.add_0_r.
        -- subst qs. eapply (toll_delete_last n K q ca e cb); try done. intros m w. by apply Hoth.
        -- by eapply forest_dat.
        -- eapply shape_ext; [|exact S3]. intros x. cbn. unfold single. naive_solver.
        -- cbn. assert (HS12 : same s s2) by (by eapply same_trans). destruct HS12. split; done.
        -- intros x Hx. eapply keeps_trans; [apply Hk1|].
           ++ intros (p & us & Hp & Hi). destruct (f_in _ _ F _ _ _ Hp Hi). congruence.
           ++ apply Hk2. right. rewrite lookup_delete_None. right. unfold K1. rewrite lookup_insert_ne; [done|]. intros <-. congruence.
        -- split; [done|]. cbn. destruct (keeps_trans s s1 s2 (root s)) as (?&?&?); [by apply Hk1|by apply Hk2; left|done].
      * rewrite <- Hd2 in S3.
        destruct (merge_Ok s2 K2 _ (root s) r F2 S3) as (s3 & w & l & us & -> & Hw & Hj & HKw & F3 & S4 & HS3 & Hk3);
          [by right|by left; split|by intros <-|]. bind.
        assert (w = root s /\ l = r) as [-> ->].
        { destruct Hw as [Hw|[-> ->]]; [done|]. exfalso.
          destruct Hj as [[_ [?|(v & w & Hv & Hw & Hc)]]|[? _]]; [done| |congruence].
          assert (r <> e /\ is_Some (K !! r)) as [Hre' HrK].
          { apply HKdom. apply (sh_root _ _ _ S3). by left; split. }
          rewrite Hd2 in Hv, Hw. rewrite HD in Hv, Hw by done.
          eapply (root_front s K D (root s) r F S HDK HrK); eauto. }
        exists (set_root s3 (root s)), (<[root s:=us ++ [r]]> K2), (n + 1). split_and!; try done.
        -- by rewrite Nat.add_0_r.
        -- subst qs. destruct (sh_root _ _ _ S3 (root s)) as [_ N1]; [by right|]. destruct (sh_root _ _ _ S3 r) as [_ N2]; [by left; split|].
           eapply (toll_delete n K q ca e cb (root s) ks K2 r r); try done; [intros m w; by apply Hoth|split; [by left|by exists us]].
        -- by eapply forest_dat.
        -- rewrite <- Hd2. eapply shape_ext; [|exact S4]. intros x. cbn. unfold single.
           destruct (decide (x = root s)), (decide (x = r)); naive_solver.
        -- intros x. rewrite <- HKdom. apply dom_eq_insert. eauto.
        -- cbn. assert (HS13 : same s s3) by (eapply same_trans; [done|]; by eapply same_trans). destruct HS13. split; done.
        -- intros x Hx. assert (Hx2 : K2 !! x = None).
           { apply eq_None_not_Some. intros [_ [??]]%HKdom. congruence. }
           eapply keeps_trans; [apply Hk1|eapply keeps_trans; [apply Hk2|apply Hk3]].
           ++ intros (p & vs & Hp & Hi). destruct (f_in _ _ F _ _ _ Hp Hi). congruence.
           ++ right. rewrite lookup_delete_None. right. unfold K1. rewrite lookup_insert_ne; [done|]. intros <-. congruence.
           ++ intros ->. destruct (sh_root _ _ _ S3 r) as [[??] _]; [by left; split|]. congruence.
           ++ intros (p & vs & Hp & Hi). destruct (f_in _ _ F2 _ _ _ Hp Hi). congruence.
        -- split; [done|]. cbn. destruct (keeps_trans s s2 s3 (root s)) as (?&?&?); [eapply keeps_trans; [by apply Hk1|by apply Hk2; left]| |done].
           apply Hk3; [by intros <-|]. apply (sh_root _ _ _ S3). by right.
Qed.

(** * The invariant and the calls *)

Record Inv (alloc : bool) (s : pmem V) (A : view V) (K : kids) : Prop := {
  i_forest : forest s K;
  i_shape : shape (dat s) K (single (root s));
  i_queue : forall x, x ∈ queue A <-> is_Some (K !! x);
  i_top : root s = top A;
  i_dat : dat s = vals A;
  i_sz : sz s = Z.of_nat (size (queue A));
  i_live : forall x, is_Some (dat s !! x) ->
    is_Some (lc s !! x) /\ is_Some (ns s !! x) /\ is_Some (ps s !! x) /\ is_Some (pa s !! x);
  i_zero : dat s !! 0 = None;
  i_root : root s <> 0 -> pa s !! root s = Some 0 /\
    exists n p, ns s !! root s = Some n /\ ps s !! root s = Some p /\ n <> 0 /\ p <> 0 /\
      (worn A = false -> n = root s /\ p = root s);
  i_idle : forall e, e ∈ idle A -> is_Some (dat s !! e) /\ e ∉ queue A /\ (ns s !! e = Some 0 \/ ps s !! e = Some 0);
  i_heap : alloc = true -> forall x, x ∈ queue A -> x ∈ heap s
}.

Section calls.
Context (alloc : bool) (off : nat).
Implicit Types (A : view V).

Lemma Inv_root_queue s A K : Inv alloc s A K -> root s <> 0 <-> root s ∈ queue A.
Proof.
  intros I. rewrite (i_queue _ _ _ _ I). split.
  - intros H0. apply (sh_root _ _ _ (i_shape _ _ _ _ I)). by split.
  - intros Hx H0. rewrite H0, (f_zero _ _ (i_forest _ _ _ _ I)) in Hx. by destruct Hx.
Qed.

Lemma Inv_empty s A K : Inv alloc s A K -> root s = 0 <-> queue A = ∅.
Proof.
  intros I. split.
  - intros H0. apply set_eq. intros x. rewrite (i_queue _ _ _ _ I). split; [|by intros ?%elem_of_empty].
    intros Hx. destruct (sh_cov _ _ _ (i_shape _ _ _ _ I) x Hx) as (r & [Hr _] & _). done.
  - intros He. destruct (decide (root s = 0)) as [|H0]; [done|]. apply (Inv_root_queue _ _ _ I) in H0.
    rewrite He in H0. by apply elem_of_empty in H0.
Qed.

Lemma Inv_front s A K : Inv alloc s A K -> front_of cmp order (vals A) (queue A) (top A).
Proof.
  intros I. rewrite <- (i_top _ _ _ _ I), <- (i_dat _ _ _ _ I). destruct (decide (root s = 0)) as [H0|H0].
  - left. split; [by apply (Inv_empty _ _ _ I)|done].
  - right. split; [by apply (Inv_root_queue _ _ _ I)|]. intros x v w Hx Hv Hw.
    eapply (root_front s K (dat s)); [apply I|apply I| | |done|done].
    + intros y Hy. by apply (i_forest _ _ _ _ I).
    + by apply (i_queue _ _ _ _ I).
Qed.

Lemma forest_ext s s' K : forest s K -> (forall x, is_Some (K !! x) -> lc s' !! x = lc s !! x /\ keeps s s' x) ->
  (forall x, is_Some (K !! x) -> is_Some (dat s !! x) -> is_Some (dat s' !! x)) -> forest s' K.
Proof.
  intros F Hk Hd. split; try apply F.
  - intros x ks Hx. destruct (Hk x) as [-> _]; [eauto|]. by apply F.
  - intros x ks Hx. eapply ring_ext; [|by apply (f_ns _ _ F _ _ Hx)]. intros k Hin. apply Hk. by eapply F.
  - intros x ks Hx. eapply ring_ext; [|by apply (f_ps _ _ F _ _ Hx)]. intros k Hin. rewrite elem_of_rev in Hin.
    destruct (Hk k) as (_ & _ & ? & _); [by eapply F|done].
  - intros x ks k Hx Hin. destruct (Hk k) as (_ & _ & _ & ->); [by eapply F|]. by eapply F.
  - intros x Hx. destruct (Hk x Hx) as (_ & -> & -> & ->). destruct (f_live _ _ F x Hx) as (?&?&?&?). auto.
Qed.

(** Writing to live nodes keeps them alive. *)
Lemma same_live s s' : same s s' -> (forall x, is_Some (dat s !! x) ->
    is_Some (lc s !! x) /\ is_Some (ns s !! x) /\ is_Some (ps s !! x) /\ is_Some (pa s !! x)) ->
  forall x, is_Some (dat s' !! x) ->
    is_Some (lc s' !! x) /\ is_Some (ns s' !! x) /\ is_Some (ps s' !! x) /\ is_Some (pa s' !! x).
Proof.
  intros HS HL x. rewrite (sm_dat _ _ HS), (sm_lc _ _ HS), (sm_ns _ _ HS), (sm_ps _ _ HS), (sm_pa _ _ HS). apply HL.
Qed.

Definition cleared s (e l n p : nat) : pmem V :=
  PMem (<[e:=l]> (lc s)) (<[e:=n]> (ns s)) (<[e:=p]> (ps s)) (<[e:=0]> (pa s)) (dat s) (heap s) (root s) (sz s).

Lemma init_node_Ok s e : is_Some (lc s !! e) -> is_Some (ns s !! e) -> is_Some (ps s !! e) -> is_Some (pa s !! e) ->
  init_node s e = Ok (cleared s e 0 e e).
Proof.
  intros H1 H2 H3 H4. unfold init_node. rewrite wpa_Ok by done. bind. rewrite wlc_Ok by done. bind.
  rewrite wps_Ok by done. bind. rewrite wns_Ok by done. done.
Qed.
Lemma clear_node_Ok s e : is_Some (lc s !! e) -> is_Some (ns s !! e) -> is_Some (ps s !! e) -> is_Some (pa s !! e) ->
  clear_node s e = Ok (cleared s e 0 0 0).
Proof.
  intros H1 H2 H3 H4. unfold clear_node. rewrite wpa_Ok by done. bind. rewrite wps_Ok by done. bind.
  rewrite wns_Ok by done. bind. rewrite wlc_Ok by done. done.
Qed.
Lemma cleared_same s e l n p : is_Some (lc s !! e) -> is_Some (ns s !! e) -> is_Some (ps s !! e) -> is_Some (pa s !! e) ->
  same s (cleared s e l n p).
Proof. intros. split; cbn; try done; intros; by apply upd_same. Qed.
Lemma cleared_keeps s e l n p x : x <> e -> lc (cleared s e l n p) !! x = lc s !! x /\ keeps s (cleared s e l n p) x.
Proof. intros. unfold keeps. cbn. by rewrite !lookup_insert_ne. Qed.
Lemma cleared_at s e l n p : lc (cleared s e l n p) !! e = Some l /\ ns (cleared s e l n p) !! e = Some n /\
  ps (cleared s e l n p) !! e = Some p /\ pa (cleared s e l n p) !! e = Some 0.
Proof. cbn. by rewrite !lookup_insert. Qed.

(** A node that was just initialised joins the heap. *)
Lemma join_Ok s K e : forest s K -> shape (dat s) K (single (root s)) -> K !! e = None -> e <> 0 ->
  (forall x, is_Some (dat s !! x) ->
    is_Some (lc s !! x) /\ is_Some (ns s !! x) /\ is_Some (ps s !! x) /\ is_Some (pa s !! x)) ->
  is_Some (dat s !! e) ->
  exists s' K' n, (s1 ← init_node s e; merge_root_c cmp order s1 e) = Ok (s', n) /\
    toll n (fun m => 2 * (m + 1)) 1 0 K (root s) K' (root s') /\ forest s' K' /\
    shape (dat s) K' (single (root s')) /\ joined cmp order (dat s) (root s) e (root s') /\
    (forall x, is_Some (K' !! x) <-> x = e \/ is_Some (K !! x)) /\ same s (set_root s' (root s)) /\
    (forall x, x <> e -> K !! x = None \/ x = root s' -> keeps s s' x) /\
    (root s' = e -> ns s' !! e = Some e /\ ps s' !! e = Some e /\ pa s' !! e = Some 0).
Proof.
  intros F S He H0 HL Hd. destruct (HL e Hd) as (H1 & H2 & H3 & H4). rewrite init_node_Ok by done. bind.
  set (s1 := cleared s e 0 e e). assert (HS1 : same s s1) by (by apply cleared_same).
  destruct (cleared_at s e 0 e e) as (L1 & L2 & L3 & L4).
  assert (F1 : forest s1 (<[e:=[]]> K)).
  { apply forest_add; try done; fold s1 in L1, L2, L3, L4; [|by eexists..]. eapply forest_ext; [done| |done]. intros x Hx.
    apply cleared_keeps. intros ->. rewrite He in Hx. by destruct Hx. }
  assert (Hr1 : root s1 = root s) by done.
  assert (Her : e <> root s).
  { intros ->. destruct (sh_root _ _ _ S (root s)) as [[??] _]; [by split|]. congruence. }
  pose proof (shape_add _ _ _ _ e F S He) as S1.
  destruct (merge_root_Ok s1 (<[e:=[]]> K) e F1) as (s' & K' & n & -> & Hjo & F' & S' & Hj & HD & HS & Hk); [by rewrite Hr1|done|].
  exists s', K', n. split_and!; try done.
  - eapply toll_join; [done|]. exact Hjo.
  - intros x. rewrite (HD x), lookup_insert_is_Some'. naive_solver.
  - rewrite Hr1 in HS. by eapply same_trans.
  - intros x Hx [Hx'|Hx']; (eapply keeps_trans; [by apply cleared_keeps|]); apply Hk; [left|by right].
    by rewrite lookup_insert_ne.
  - intros Hr. destruct (Hk e) as (-> & -> & ->); [by right|]. done.
Qed.

Lemma size_insert (q : gset nat) e : e ∉ q -> size ({[e]} ∪ q) = S (size q).
Proof. intros He. rewrite size_union by set_solver. by rewrite size_singleton. Qed.
Lemma size_remove (q : gset nat) e : e ∈ q -> size q = S (size (q ∖ {[e]})).
Proof.
  intros He. rewrite <- (size_insert _ e) by set_solver. f_equal. apply set_eq. intros x.
  destruct (decide (x = e)); set_solver.
Qed.

Lemma set_root_fields s r : lc (set_root s r) = lc s /\ ns (set_root s r) = ns s.
Proof. done. Qed.

(** Push without an allocator, and the inner push of emplace. *)
Lemma push_Inv s A K e : Inv alloc s A K -> e <> 0 -> is_Some (dat s !! e) -> e ∉ queue A -> (alloc = true -> e ∈ heap s) ->
  exists s' K' n, (s1 ← init_node s e; s2 ⇠ merge_root_c cmp order s1 e; TickModel.plain (Ok (set_sz s2 (sz s2 + 1)))) = Ok (s', n) /\
    toll n (fun m => 2 * (m + 1)) 1 0 K (root s) K' (root s') /\
    joined cmp order (vals A) (top A) e (root s') /\ heap s' = heap s /\
    Inv alloc s' (View ({[e]} ∪ queue A) (root s') (vals A) (idle A ∖ {[e]}) (if root s' =? e then false else worn A)) K'.
Proof.
  intros I H0 Hd He Hh. pose proof I as [F S HQ HT HD HZ HL H00 HR HI HH].
  assert (HKe : K !! e = None) by (apply eq_None_not_Some; by rewrite <- HQ).
  destruct (join_Ok s K e F S HKe H0 HL Hd) as (s2 & K' & n & Heq & Hto & F' & S' & Hj & HK & HS & Hk & Hre).
  destruct (init_node s e) as [s1| |]; try done. revert Heq. bind. intros ->. bind.
  eexists _, K', n. split; [by rewrite Nat.add_0_r|]. split; [exact Hto|]. rewrite <- HD, <- HT. split; [done|]. split; [by destruct HS|].
  assert (Hd2 : dat s2 = dat s) by apply HS. 
  split; cbn.
  - by eapply forest_dat.
  - by rewrite Hd2.
  - intros x. rewrite HK, elem_of_union, elem_of_singleton, HQ. done.
  - done.
  - done.
  - rewrite size_insert by done. destruct HS as [_ _ _ HSz _ _ _ _]. cbn in HSz. lia.
  - intros x. apply (same_live _ _ HS HL).
  - by rewrite Hd2.
  - intros Hr. destruct (Nat.eqb_spec (root s2) e) as [Hx|Hx].
    + destruct (Hre Hx) as (-> & -> & ->) || rewrite Hx. rewrite ?Hx. destruct (Hre Hx) as (-> & -> & ->).
      split; [done|]. exists e, e. done.
    + destruct Hj as [[? _]|(Hx1 & Hx2 & _)]; [done|]. destruct (Hk (root s2)) as (-> & -> & ->); [done|by right|].
      rewrite Hx1. by apply HR.
  - intros x [Hx Hne]%elem_of_difference. rewrite elem_of_singleton in Hne. destruct (HI x Hx) as (H1 & H2 & H3).
    rewrite Hd2. split; [done|]. split; [set_solver|]. destruct (Hk x) as (-> & -> & _); [done| |done].
    left. apply eq_None_not_Some. by rewrite <- HQ.
  - intros Ha x Hx. destruct HS as [_ HSh _ _ _ _ _ _]. cbn in HSh. rewrite HSh. set_solver.
Qed.

Definition leave (A : view V) (e t : nat) (w : bool) : Prop :=
  (e = top A /\ front_of cmp order (vals A) (queue A ∖ {[e]}) t /\ w = false) \/
  (e <> top A /\ t = top A /\ w = worn A).

Lemma leave_leaves A e t w fr cl : leave A e t w -> leaves cmp order A e fr cl (without A e t w fr cl).
Proof. intros [(H1 & H2 & ->)|(H1 & -> & ->)]; by constructor. Qed.

Lemma shape_front s K D (q : gset nat) r : forest s K -> shape D K (single r) -> (forall x, x ∈ q <-> is_Some (K !! x)) ->
  (forall x, is_Some (K !! x) -> is_Some (D !! x)) -> front_of cmp order D q r.
Proof.
  intros F S HQ HD. destruct (decide (r = 0)) as [->|H0].
  - left. split; [|done]. apply set_eq. intros x. rewrite HQ. split; [|by intros ?%elem_of_empty].
    intros Hx. destruct (sh_cov _ _ _ S x Hx) as (r & [Hr _] & _). done.
  - right. split; [apply HQ, (sh_root _ _ _ S); by split|]. intros x v w Hx Hv Hw.
    eapply (root_front s K D); [done|done|done|by apply HQ|done|done].
Qed.

Lemma delete_root_Inv s A K e : Inv alloc s A K -> e ∈ queue A ->
  exists s1 K' w n, delete_root_c cmp order s e = Ok (s1, n) /\ toll n (fun m => 4 * m ^ 3) 0 1 K (root s) K' (root s1) /\ heap s1 = heap s /\
    leave A e (root s1) w /\
    Inv alloc (set_sz s1 (sz s1 - 1)) (without A e (root s1) w false false) K'.
Proof.
  intros I He. pose proof I as [F S HQ HT HD HZ HL H00 HR HI HH].
  assert (HKe : is_Some (K !! e)) by (by apply HQ).
  assert (HDK : forall x, is_Some (K !! x) -> is_Some (dat s !! x)) by (intros x Hx; by apply F).
  destruct (delete_root_Ok s K (dat s) e F S HKe) as (s1 & K' & n & Heq & Hto & F' & S' & HK & HS & Hk & Hr1 & Hr2); [done|by apply HDK|].
  assert (Hd1 : dat s1 = dat s) by apply HS.
  assert (HQ' : forall x, x ∈ queue A ∖ {[e]} <-> is_Some (K' !! x)).
  { intros x. rewrite HK, elem_of_difference, elem_of_singleton, HQ. tauto. }
  exists s1, K', (if decide (e = top A) then false else worn A), n. split; [done|]. split; [done|]. split; [by destruct HS|]. split.
  { destruct (decide (e = top A)) as [Ht|Ht]; [left|right].
    - split_and!; [done| |done]. rewrite <- HD. eapply shape_front; [done|done|done|].
      intros x Hx. apply HDK. by apply HK in Hx as [_ ?].
    - split_and!; [done| |done]. rewrite <- HT. apply Hr2. by rewrite HT. }
  split; cbn.
  - by eapply forest_dat.
  - by rewrite Hd1.
  - done.
  - done.
  - by rewrite Hd1.
  - rewrite (size_remove _ _ He) in HZ. destruct HS as [_ _ _ HSz _ _ _ _]. cbn in HSz. lia.
  - intros x. apply (same_live _ _ HS HL).
  - by rewrite Hd1.
  - intros Hr. destruct (decide (e = top A)) as [Ht|Ht].
    + destruct Hr1 as (-> & -> & ->); [by rewrite HT|done|]. split; [done|]. by exists (root s1), (root s1).
    + destruct Hr2 as (Hx & Hk1 & Hk2 & Hk3); [by rewrite HT|]. rewrite Hx in *. rewrite Hk1, Hk2, Hk3. by apply HR.
  - intros x Hx. destruct (HI x Hx) as (H1 & H2 & H3). rewrite Hd1. split; [done|]. split; [set_solver|].
    destruct (Hk x) as (-> & -> & _); [|done]. apply eq_None_not_Some. by rewrite <- HQ.
  - intros Ha x [Hx _]%elem_of_difference. destruct HS as [_ HSh _ _ _ _ _ _]. cbn in HSh. rewrite HSh. by apply HH.
Qed.

Lemma cleared_Inv s A K e : Inv alloc s A K -> e ∉ queue A -> is_Some (dat s !! e) ->
  clear_node s e = Ok (cleared s e 0 0 0) /\
  Inv alloc (cleared s e 0 0 0) (View (queue A) (top A) (vals A) ({[e]} ∪ idle A) (worn A)) K.
Proof.
  intros I He Hd. pose proof I as [F S HQ HT HD HZ HL H00 HR HI HH].
  destruct (HL e Hd) as (H1 & H2 & H3 & H4). split; [by apply clear_node_Ok|].
  assert (HK : forall x, is_Some (K !! x) -> x <> e) by (intros x Hx ->; apply He; by apply HQ).
  split; try done; cbn.
  - eapply forest_ext; [done| |done]. intros x Hx. apply cleared_keeps. auto.
  - intros x Hx. rewrite !upd_same by done. by apply HL.
  - intros H0. rewrite !lookup_insert_ne; [by apply HR|..]; intros ->; apply He; by apply (Inv_root_queue _ _ _ I).
  - intros x Hx. destruct (decide (x = e)) as [->|Hn]; [by rewrite !lookup_insert; eauto|].
    rewrite !lookup_insert_ne by done. apply HI. set_solver.
Qed.

Lemma free_Inv s A K e (id : gset nat) : Inv alloc s A K -> e ∉ queue A -> e ∈ heap s ->
  (forall x, x ∈ id -> x ∈ idle A /\ x <> e) ->
  exists s', free s e = Ok s' /\ Inv alloc s' (View (queue A) (top A) (delete e (vals A)) id (worn A)) K.
Proof.
  intros I He Hh Hid. pose proof I as [F S HQ HT HD HZ HL H00 HR HI HH].
  unfold free. destruct (decide _) as [_|]; [|done]. eexists. split; [reflexivity|].
  assert (HK : forall x, is_Some (K !! x) -> x <> e) by (intros x Hx ->; apply He; by apply HQ).
  assert (HKk : ~ kid K e).
  { intros (p & ps & Hp & Hin). apply (HK e); [|done]. by eapply F. }
  split; try done; cbn.
  - eapply forest_ext; [done| |].
    + intros x Hx%HK. cbn. unfold keeps. cbn. by rewrite !lookup_delete_ne.
    + intros x Hx%HK. cbn. by rewrite lookup_delete_ne.
  - eapply shape_data; [done|exact HKk| |].
    + intros x Hx. by rewrite lookup_delete_ne.
    + intros ks k Hx. exfalso. apply (HK e); [by eexists|done].
  - by rewrite HD.
  - intros x [v [Hn Hx]%lookup_delete_Some]. rewrite !lookup_delete_ne by done. apply HL. by eexists.
  - rewrite lookup_delete_None. by right.
  - intros H0. rewrite !lookup_delete_ne; [by apply HR|..]; intros ->; apply He; by apply (Inv_root_queue _ _ _ I).
  - intros x Hx. apply Hid in Hx as [Hx Hne]. rewrite !lookup_delete_ne by done. by apply HI.
  - intros Ha x Hx. specialize (HH Ha x Hx). assert (x <> e) by (intros ->; done). set_solver.
Qed.

Lemma Inv_idle_ext s A K (id : gset nat) : Inv alloc s A K -> (forall x, x ∈ id -> x ∈ idle A) ->
  Inv alloc s (View (queue A) (top A) (vals A) id (worn A)) K.
Proof. intros [] Hid. split; try done. cbn. auto. Qed.

(** Pop of a queue that is not empty. *)
Lemma pop_Inv s A K : Inv alloc s A K -> root s <> 0 ->
  exists s' K' t w n, pq_pop_c cmp order alloc s = Ok (s', OK, n) /\ toll n (fun m => 4 * m ^ 3) 0 1 K (root s) K' (root s') /\
    leave A (top A) t w /\
    Inv alloc s' (without A (top A) t w alloc true) K'.
Proof.
  intros I H0. pose proof (proj1 (Inv_root_queue _ _ _ I) H0) as Hq.
  destruct (delete_root_Inv s A K (root s) I Hq) as (s1 & K' & w & n & Heq & Hto & Hh & Hlv & I1).
  rewrite <- (i_top _ _ _ _ I). unfold pq_pop_c. destruct (Nat.eqb_spec (root s) 0); [done|].
  unfold delete_root_c, delete_node_c in Heq. rewrite Nat.eqb_refl in Heq.
  destruct (delete_min_c cmp order s (root s)) as [[[s0 r] n']| |]; try done. revert Heq. bind. intros [= <- <-].
  cbn [root set_root sz] in *.
  destruct (cleared_Inv _ _ _ (root s) I1) as [Hc I2].
  { cbn. set_solver. }
  { rewrite (i_dat _ _ _ _ I1). cbn. rewrite <- (i_dat _ _ _ _ I). apply (i_forest _ _ _ _ I). by apply (i_queue _ _ _ _ I). }
  rewrite Hc. bind.
  assert (Hab : alloc = true \/ alloc = false) by (destruct alloc; auto).
  destruct Hab as [Ha|Ha]; rewrite Ha.
  - destruct (free_Inv _ _ _ (root s) (idle A) I2) as (s' & -> & I3).
    + cbn. set_solver.
    + cbn. cbn in Hh. rewrite Hh. by apply (i_heap _ _ _ _ I).
    + cbn. intros x Hx. split; [set_solver|]. intros ->. by apply (i_idle _ _ _ _ I) in Hx as (_ & ? & _).
    + bind. eexists s', K', r, w, _. split; [reflexivity|]. split; [by rewrite (i_top _ _ _ _ I3)|]. split; [done|]. rewrite Ha in I3. exact I3.
  - bind. eexists _, K', r, w, _. split; [reflexivity|]. split; [done|]. split; [done|]. rewrite Ha in I2. exact I2.
Qed.

Lemma path_next m (ks : list nat) b x : path m ks b -> x ∈ ks -> exists y, m !! x = Some y /\ (y = b \/ y ∈ ks).
Proof.
  induction ks as [|k ks IH]; [by intros _ ?%elem_of_nil|]. intros [Hk Hp] [->|Hx]%elem_of_cons.
  - eexists. split; [done|]. destruct ks as [|z ks]; [by left|right; right; left].
  - destruct (IH Hp Hx) as (y & Hy & [->|Hin]); exists y || exists b; (split; [done|]); [by left|right; by right].
Qed.

Lemma ring_next m ks x : ring m ks -> x ∈ ks -> exists y, m !! x = Some y /\ y ∈ ks.
Proof.
  intros Hr Hx. destruct (path_next _ _ _ _ Hr Hx) as (y & Hy & [->|Hin]); [|by eauto].
  eexists. split; [done|]. destruct ks; [by apply elem_of_nil in Hx|left].
Qed.

Lemma linked_Ok s A K e : Inv alloc s A K -> e ∈ queue A -> unlinked s e = Ok false.
Proof.
  intros I He. pose proof I as [F S HQ HT HD HZ HL H00 HR HI HH]. unfold unlinked.
  assert (Hnz : forall x, is_Some (K !! x) -> x <> 0) by (intros x Hx ->; rewrite (f_zero _ _ F) in Hx; by destruct Hx).
  assert (exists n p, ns s !! e = Some n /\ ps s !! e = Some p /\ n <> 0 /\ p <> 0) as (n & p & -> %rd_Ok & -> %rd_Ok & Hn & Hp).
  { destruct (sh_cov _ _ _ S e) as (r & [Hr ->] & Hd); [by apply HQ|]. apply desc_kid_or in Hd as [<-|(q & ks & Hq & Hin)].
    - destruct (HR Hr) as (_ & n & p & H1 & H2 & H3 & H4 & _). eauto 10.
    - destruct (ring_next _ _ _ (f_ns _ _ F _ _ Hq) Hin) as (n & Hn & Hn').
      destruct (ring_next _ _ e (f_ps _ _ F _ _ Hq)) as (p & Hp & Hp'); [by apply elem_of_rev|].
      rewrite elem_of_rev in Hp'. exists n, p. split_and!; try done; apply Hnz; by eapply F. }
  bind. by rewrite (proj2 (Nat.eqb_neq _ _) Hn), (proj2 (Nat.eqb_neq _ _) Hp).
Qed.

Lemma idle_Ok s A K e : Inv alloc s A K -> e ∈ idle A -> e <> 0 /\ unlinked s e = Ok true.
Proof.
  intros I He. destruct (i_idle _ _ _ _ I e He) as (Hd & _ & Hz). split.
  { intros ->. rewrite (i_zero _ _ _ _ I) in Hd. by destruct Hd. }
  destruct (i_live _ _ _ _ I e Hd) as (_ & [n Hn] & [p Hp] & _). unfold unlinked.
  rewrite (rd_Ok _ _ _ Hn), (rd_Ok _ _ _ Hp). bind. f_equal. apply orb_true_iff.
  destruct Hz as [Hz|Hz]; [left; assert (n = 0) as -> by congruence|right; assert (p = 0) as -> by congruence]; done.
Qed.

Lemma queue_nz s A K e : Inv alloc s A K -> e ∈ queue A -> e <> 0 /\ root s <> 0 /\ is_Some (dat s !! e).
Proof.
  intros I He. pose proof (proj1 (i_queue _ _ _ _ I e) He) as HK. split_and!.
  - intros ->. rewrite (f_zero _ _ (i_forest _ _ _ _ I)) in HK. by destruct HK.
  - intros H0. apply (Inv_empty _ _ _ I) in H0. rewrite H0 in He. by apply elem_of_empty in He.
  - by apply (i_forest _ _ _ _ I).
Qed.

Lemma extract_Inv s A K e : Inv alloc s A K -> e ∈ queue A ->
  exists s' K' t w n, pq_extract_c cmp order s e = Ok (s', e, n) /\ toll n (fun m => 4 * m ^ 3) 0 1 K (root s) K' (root s') /\ leave A e t w /\
    Inv alloc s' (without A e t w false true) K'.
Proof.
  intros I He. destruct (queue_nz _ _ _ _ I He) as (He0 & Hr0 & Hd).
  unfold pq_extract_c. destruct (Nat.eqb_spec e 0); [done|]. destruct (Nat.eqb_spec (root s) 0); [done|]. cbn [orb].
  rewrite (linked_Ok _ _ _ _ I He). bind.
  destruct (delete_root_Inv s A K e I He) as (s1 & K' & w & nc & -> & Hto & Hh & Hlv & I1). bind.
  destruct (cleared_Inv _ _ _ e I1) as [-> I2].
  { cbn. set_solver. }
  { rewrite (i_dat _ _ _ _ I1). cbn. by rewrite <- (i_dat _ _ _ _ I). }
  bind. eexists _, K', (root s1), w, _. split; [by rewrite Nat.add_0_r|]. split; [done|]. split; [done|]. exact I2.
Qed.

Lemma erase_Inv s A K e : Inv alloc s A K -> e ∈ queue A ->
  exists s' K' t w n, pq_erase_c cmp order alloc s e = Ok (s', OK, n) /\ toll n (fun m => 4 * m ^ 3) 0 1 K (root s) K' (root s') /\ leave A e t w /\
    Inv alloc s' (without A e t w alloc false) K'.
Proof.
  intros I He. destruct (queue_nz _ _ _ _ I He) as (He0 & Hr0 & Hd).
  unfold pq_erase_c. destruct (Nat.eqb_spec e 0); [done|]. destruct (Nat.eqb_spec (root s) 0); [done|]. cbn [orb].
  rewrite (linked_Ok _ _ _ _ I He). bind.
  destruct (delete_root_Inv s A K e I He) as (s1 & K' & w & nc & -> & Hto & Hh & Hlv & I1). bind.
  assert (Hab : alloc = true \/ alloc = false) by (destruct alloc; auto).
  destruct Hab as [Ha|Ha]; rewrite Ha.
  - destruct (free_Inv _ _ _ e (idle A) I1) as (s' & -> & I3).
    + cbn. set_solver.
    + cbn. rewrite Hh. by apply (i_heap _ _ _ _ I).
    + cbn. intros x Hx. split; [done|]. intros ->. by apply (i_idle _ _ _ _ I) in Hx as (_ & ? & _).
    + bind. eexists s', K', (root s1), w, _. split; [by rewrite Nat.add_0_r|]. split; [by rewrite (i_top _ _ _ _ I3)|]. split; [done|]. rewrite Ha in I3. exact I3.
  - bind. eexists _, K', (root s1), w, _. split; [by rewrite Nat.add_0_r|]. split; [done|]. split; [done|]. rewrite Ha in I1. exact I1.
Qed.

(** * Changing priorities *)

Definition reval s (e : nat) (v : V) : pmem V :=
  PMem (lc s) (ns s) (ps s) (pa s) (<[e := v]> (dat s)) (heap s) (root s) (sz s).

Lemma reval_forest s K e v : forest s K -> forest (reval s e v) K.
Proof. intros F. eapply forest_dat; try done. intros x Hx. cbn. isSome. Qed.

Lemma reinsert_Inv s A K e v : Inv alloc s A K -> e ∈ queue A ->
  exists s' K' A' n, reinsert_c cmp order (reval s e v) e = Ok (s', n) /\ toll n (fun m => 8 * m ^ 4) 0 0 K (root s) K' (root s') /\ repriced cmp order A e v A' /\ Inv alloc s' A' K'.
Proof.
  intros I He. destruct (queue_nz _ _ _ _ I He) as (He0 & Hr0 & Hde).
  pose proof I as [F S HQ HT HD HZ HL H00 HR HI HH]. set (s0 := reval s e v).
  assert (F0 : forest s0 K) by (by apply reval_forest).
  assert (HKe : is_Some (K !! e)) by (by apply HQ).
  assert (HL0 : forall x, is_Some (dat s0 !! x) ->
    is_Some (lc s0 !! x) /\ is_Some (ns s0 !! x) /\ is_Some (ps s0 !! x) /\ is_Some (pa s0 !! x)).
  { cbn. intros x [<-|Hx]%lookup_insert_is_Some'; by apply HL. }
  destruct (delete_root_Ok s0 K (dat s) e F0 S HKe) as (s1 & K1 & n1 & Heq & Hto1 & F1 & S1 & HK1 & HS1 & Hk1 & Hr1 & Hr2);
    [intros x Hx; cbn; by rewrite lookup_insert_ne|done|].
  unfold reinsert_c. rewrite Heq. bind.
  assert (Hd1 : dat s1 = dat s0) by apply HS1.
  destruct (join_Ok s1 K1 e F1) as (s2 & K2 & n2 & Heq2 & Hto2 & F2 & S2 & Hj & HK2 & HS2 & Hk2 & Hr3).
  { by rewrite Hd1. }
  { apply eq_None_not_Some. intros [? _]%HK1. done. }
  { done. }
  { intros x. apply (same_live _ _ HS1 HL0). }
  { rewrite Hd1. cbn. isSome. }
  rewrite Heq2. bind. rewrite Hd1 in S2, Hj. cbn in S2, Hj, Hr1, Hr2.
  assert (Hd2 : dat s2 = <[e:=v]> (dat s)) by (transitivity (dat s1); [apply HS2|done]).
  assert (HQ' : forall x, x ∈ queue A <-> is_Some (K2 !! x)).
  { intros x. rewrite HK2, HK1, HQ. destruct (decide (x = e)) as [->|]; naive_solver. }
  assert (HD' : forall x, is_Some (K2 !! x) -> is_Some (<[e:=v]> (dat s) !! x)) by (intros x Hx; rewrite <- Hd2; by apply F2).
  exists s2, K2, (View (queue A) (root s2) (<[e:=v]> (vals A)) (idle A)
    (if decide (e = top A) then false else if root s2 =? e then false else worn A)), (n1 + n2).
  split; [done|]. split.
  { apply (toll_less _ (fun m => 8 * m ^ 4) 0 0); [|done|done]. eapply toll_rejoin; [exact Hto1|exact Hto2]. }
  rewrite <- HD. split.
  { destruct (decide (e = top A)) as [Ht|Ht].
    - rewrite HD. apply repriced_front; [done|]. rewrite <- HD. eapply shape_front; [exact F2|exact S2|done|done].
    - assert (root s1 = top A) as Hrt by (rewrite <- HT; apply Hr2; by rewrite HT).
      rewrite HD. apply repriced_rest; [done|by rewrite <- HD, <- Hrt|].
      intros Hx. destruct (Nat.eqb_spec (root s2) e); [|done]. congruence. }
  split; cbn; try done.
  - by rewrite Hd2.
  - destruct HS1 as [_ _ _ HS1 _ _ _ _]. destruct HS2 as [_ _ _ HS2 _ _ _ _]. cbn in HS1, HS2. lia.
  - intros x. apply (same_live _ _ HS2). intros y. apply (same_live _ _ HS1 HL0).
  - rewrite Hd2, lookup_insert_ne by done. done.
  - intros Hx. destruct (Nat.eqb_spec (root s2) e) as [Hre|Hre].
    + rewrite Hre. destruct (Hr3 Hre) as (-> & -> & ->). split; [done|]. exists e, e. by destruct (decide _).
    + destruct Hj as [[? _]|(Hrr & H1 & _)]; [done|]. destruct (Hk2 (root s2)) as (-> & -> & ->); [done|by right|].
      rewrite Hrr. destruct (decide (e = top A)) as [Ht|Ht].
      * destruct Hr1 as (-> & -> & ->); [by rewrite HT|done|]. split; [done|]. by exists (root s1), (root s1).
      * destruct Hr2 as (Hrs & Ha & Hb & Hc); [by rewrite HT|]. rewrite Hrs. rewrite Ha, Hb, Hc. cbn. by apply HR.
  - intros x Hx. destruct (HI x Hx) as (H1 & H2 & H3).
    assert (x <> e) by (intros ->; done).
    rewrite Hd2, lookup_insert_ne by done. split_and!; [done|done|].
    assert (HKx : K !! x = None) by (apply eq_None_not_Some; by rewrite <- HQ).
    destruct (Hk2 x) as (-> & -> & _); [done| |].
    + left. apply eq_None_not_Some. intros [_ [??]]%HK1. congruence.
    + destruct (Hk1 x HKx) as (-> & -> & _). done.
  - intros Ha x Hx. destruct HS2 as [_ HS2 _ _ _ _ _ _]. destruct HS1 as [_ HS1 _ _ _ _ _ _].
    cbn in HS1, HS2. rewrite HS2, HS1. by apply HH.
Qed.

Lemma cut_merge_Inv s A K e v : Inv alloc s A K -> e ∈ queue A -> e <> top A ->
  (forall ks k, K !! e = Some ks -> k ∈ ks -> worse (<[e:=v]> (dat s)) k e) ->
  exists s' K' A' n, cut_merge_c cmp order (reval s e v) e = Ok (s', n) /\ toll n (fun m => 8 * m ^ 4) 0 0 K (root s) K' (root s') /\ repriced cmp order A e v A' /\ Inv alloc s' A' K'.
Proof.
  intros I He Hne Hkids. destruct (queue_nz _ _ _ _ I He) as (He0 & Hr0 & Hde).
  pose proof I as [F S HQ HT HD HZ HL H00 HR HI HH]. set (s0 := reval s e v).
  assert (F0 : forest s0 K) by (by apply reval_forest).
  assert (HKe : is_Some (K !! e)) by (by apply HQ).
  assert (HL0 : forall x, is_Some (dat s0 !! x) ->
    is_Some (lc s0 !! x) /\ is_Some (ns s0 !! x) /\ is_Some (ps s0 !! x) /\ is_Some (pa s0 !! x)).
  { cbn. intros x [<-|Hx]%lookup_insert_is_Some'; by apply HL. }
  destruct (sh_cov _ _ _ S e HKe) as (r0 & [_ ->] & Hd0). destruct (desc_kid_or _ _ _ Hd0) as [?|(q & qs & Hq & Hin)]; [congruence|].
  assert (Hqe : q <> e) by (intros ->; by eapply fin_self; [apply (sh_fin _ _ _ S)|..]).
  destruct (cut_child_Ok s0 K q qs e F0 Hq Hin) as (s1 & ca & cb & Heq & Hqs & F1 & Hls & HS1 & Hpa1 & Hnz & Hk1).
  set (ls := remaining ca cb) in *. unfold cut_merge_c. rewrite Heq. bind.
  pose proof (shape_cut _ _ _ _ _ _ _ _ F S Hq Hin Hls) as S1. set (K1 := <[q:=ls]> K) in *.
  assert (Hd1 : dat s1 = <[e:=v]> (dat s)) by apply HS1. assert (Hr1 : root s1 = root s) by apply HS1.
  assert (S1' : shape (dat s1) K1 (fun x => single (root s1) x \/ x = e)).
  { rewrite Hr1, Hd1. eapply shape_data; [exact S1| | |].
    - apply (sh_root _ _ _ S1). by right.
    - intros x Hx. by rewrite lookup_insert_ne.
    - intros ks k Hx Hk. unfold K1 in Hx. rewrite lookup_insert_ne in Hx by done. by eapply Hkids. }
  destruct (merge_root_Ok s1 K1 e F1 S1') as (s2 & K2 & n & Heq2 & Hjo & F2 & S2 & Hj & HD2 & HS2 & Hk2); [congruence|].
  rewrite Heq2. rewrite Hd1 in S2, Hj. rewrite Hr1 in Hj.
  assert (Hd2 : dat s2 = <[e:=v]> (dat s)) by (transitivity (dat s1); [apply HS2|done]).
  assert (HQ' : forall x, x ∈ queue A <-> is_Some (K2 !! x)).
  { intros x. rewrite (HD2 x). unfold K1. rewrite dom_ins by eauto. apply HQ. }
  assert (HD' : forall x, is_Some (K2 !! x) -> is_Some (<[e:=v]> (dat s) !! x)) by (intros x Hx; rewrite <- Hd2; by apply F2).
  exists s2, K2, (View (queue A) (root s2) (<[e:=v]> (vals A)) (idle A) (if root s2 =? e then true else worn A)), n.
  split; [done|]. split.
  { apply (toll_less _ (fun m => 2 * m)); [|intros m Hm; pose proof (le_pow4 m Hm); lia|done]. rewrite Hr1 in Hjo. subst qs.
    eapply toll_cut; [done|done| |exact Hjo]. destruct (sh_cov _ _ _ S q) as (r1 & [_ ->] & Hx); [eauto|done]. }
  split.
  { apply repriced_rest; [done|by rewrite <- HD, <- HT|]. intros Hx. destruct (Nat.eqb_spec (root s2) e); [|done]. congruence. }
  split; cbn; try done.
  - by rewrite Hd2.
  - by rewrite <- HD.
  - destruct HS1 as [_ _ _ HS1 _ _ _ _]. destruct HS2 as [_ _ _ HS2 _ _ _ _]. cbn in HS1, HS2. lia.
  - intros x. apply (same_live _ _ HS2). intros y. apply (same_live _ _ HS1 HL0).
  - rewrite Hd2, lookup_insert_ne by done. done.
  - intros Hx. destruct (Hk2 (root s2)) as (-> & -> & ->); [by right|].
    destruct (Nat.eqb_spec (root s2) e) as [Hre|Hre].
    + rewrite Hre. split; [done|]. destruct Hnz as (nx & p & H1 & H2 & H3 & H4). exists nx, p. split_and!; done.
    + destruct Hj as [[? _]|(Hrr & H1 & _)]; [done|]. rewrite Hrr.
      destruct (Hk1 (root s)) as (-> & -> & ->); [apply (sh_root _ _ _ S); by split|]. cbn. by apply HR.
  - intros x Hx. destruct (HI x Hx) as (H1 & H2 & H3).
    assert (x <> e) by (intros ->; done).
    rewrite Hd2, lookup_insert_ne by done. split_and!; [done|done|].
    assert (HKx : K !! x = None) by (apply eq_None_not_Some; by rewrite <- HQ).
    destruct (Hk2 x) as (-> & -> & _).
    + left. unfold K1. rewrite lookup_insert_ne; [done|]. intros <-. congruence.
    + destruct (Hk1 x) as (-> & -> & _); [|done]. intros (p & us & Hp & Hi). destruct (f_in _ _ F _ _ _ Hp Hi). congruence.
  - intros Ha x Hx. destruct HS2 as [_ HS2 _ _ _ _ _ _]. destruct HS1 as [_ HS1 _ _ _ _ _ _].
    cbn in HS1, HS2. rewrite HS2, HS1. by apply HH.
Qed.

(** Raising the front of a queue that is not worn. *)
Lemma cut_merge_front s A K e v : Inv alloc s A K -> e ∈ queue A -> e = top A -> worn A = false ->
  (forall ks k, K !! e = Some ks -> k ∈ ks -> worse (<[e:=v]> (dat s)) k e) ->
  exists s' K' A' n, cut_merge_c cmp order (reval s e v) e = Ok (s', n) /\ toll n (fun m => 8 * m ^ 4) 0 0 K (root s) K' (root s') /\ repriced cmp order A e v A' /\ Inv alloc s' A' K'.
Proof.
  intros I He Hne Hw Hkids. destruct (queue_nz _ _ _ _ I He) as (He0 & Hr0 & Hde).
  pose proof I as [F S HQ HT HD HZ HL H00 HR HI HH]. rewrite <- HT in Hne.
  destruct (HR Hr0) as (Hpa & n & p & Hn & Hp & _ & _ & Hx). destruct (Hx Hw) as [-> ->]. rewrite <- Hne in *.
  assert (Heq : cut_merge_c cmp order (reval s e v) e = Ok (reval s e v, 0)).
  { unfold cut_merge_c, cut_child. cbn. rewrite (rd_Ok _ _ _ Hn). bind. rewrite (rd_Ok _ _ _ Hp). bind.
    rewrite wps_Ok by (cbn; eauto). bind. cbn. rewrite (insert_id (ps s)) by done. rewrite (rd_Ok _ _ _ Hp). bind.
    rewrite (rd_Ok _ _ _ Hn). bind. rewrite wns_Ok by (cbn; eauto). bind. cbn. rewrite (insert_id (ns s)) by done.
    rewrite (rd_Ok _ _ _ Hpa). bind. cbn. rewrite wpa_Ok by (cbn; eauto). bind. cbn. rewrite (insert_id (pa s)) by done.
    unfold merge_root_c, merge_c. cbn. rewrite <- Hne. rewrite Nat.eqb_refl, orb_true_r.
    destruct (Nat.eqb_spec e 0); [done|]. bind. by destruct s; cbn in *; subst. }
  assert (S' : shape (<[e:=v]> (dat s)) K (single (root s))).
  { rewrite <- Hne. eapply (shape_data _ _ _ _ e); [exact S| | |].
    - apply (sh_root _ _ _ S). by split.
    - intros x Hx'. by rewrite lookup_insert_ne.
    - done. }
  exists (reval s e v), K, (View (queue A) (root s) (<[e:=v]> (vals A)) (idle A) false), 0. split; [done|]. split.
  { apply (toll_less _ (fun _ => 1)); [cbn; rewrite <- Hne; apply toll_none|intros m Hm; pose proof (le_pow4 m Hm); lia|done]. }
  split.
  { apply repriced_front; [congruence|]. rewrite <- HD. eapply shape_front; [exact F|exact S'|done|].
    intros x Hx'. apply lookup_insert_is_Some'. right. by apply F. }
  split; cbn; try done.
  - by apply reval_forest.
  - by rewrite HD.
  - intros x [<-|Hx']%lookup_insert_is_Some'; by apply HL.
  - rewrite lookup_insert_ne by done. done.
  - intros _. rewrite <- Hne. split; [done|]. exists e, e. done.
  - intros x Hx'. destruct (HI x Hx') as (H1 & H2 & H3). split_and!; [isSome|done|done].
Qed.
Lemma set_value_Ok s e v : is_Some (dat s !! e) -> set_value s e v = Ok (reval s e v).
Proof. unfold set_value. by intros [? ->]. Qed.

Lemma kids_keep s A K e v : Inv alloc s A K -> (forall w, dat s !! e = Some w -> cmp w v <> order) ->
  is_Some (dat s !! e) -> forall ks k, K !! e = Some ks -> k ∈ ks -> worse (<[e:=v]> (dat s)) k e.
Proof.
  intros I Hw [w He] ks k Hks Hk a b Ha Hb. rewrite lookup_insert in Hb. simplify_eq.
  rewrite lookup_insert_ne in Ha.
  - eapply not_order_trans; [|by apply Hw]. by eapply (sh_ord _ _ _ (i_shape _ _ _ _ I)).
  - intros <-. by eapply fin_self; [apply (sh_fin _ _ _ (i_shape _ _ _ _ I))|..].
Qed.

Lemma changing_Ok fixup s A K e v s' n : Inv alloc s A K -> e ∈ queue A ->
  fixup (reval s e v) e = Ok (s', n) -> changing_c fixup s e v = Ok (s', true, n).
Proof.
  intros I He Heq. destruct (queue_nz _ _ _ _ I He) as (He0 & Hr0 & Hd). unfold changing_c.
  destruct (Nat.eqb_spec e 0); [done|]. rewrite (linked_Ok _ _ _ _ I He). bind.
  rewrite set_value_Ok by done. bind. rewrite Heq. bind. by rewrite Nat.add_0_r.
Qed.

Lemma changing_idle fixup s A K e v : Inv alloc s A K -> e ∈ idle A -> changing_c fixup s e v = Ok (s, false, 0).
Proof.
  intros I He. destruct (idle_Ok _ _ _ _ I He) as [H0 Hu]. unfold changing_c.
  destruct (Nat.eqb_spec e 0); [done|]. rewrite Hu. done.
Qed.

Lemma update_Inv s A K e v : Inv alloc s A K -> e ∈ queue A ->
  exists s' K' A' n, pq_update_c cmp order s e v = Ok (s', true, n) /\ toll n (fun m => 16 * m ^ 4) 0 0 K (root s) K' (root s') /\ repriced cmp order A e v A' /\ Inv alloc s' A' K'.
Proof.
  intros I He. destruct (queue_nz _ _ _ _ I He) as (He0 & Hr0 & Hd).
  pose proof I as [F S HQ HT HD HZ HL H00 HR HI HH].
  assert (exists s' K' A' n, update_fixup_c cmp order (reval s e v) e = Ok (s', n) /\ toll n (fun m => 16 * m ^ 4) 0 0 K (root s) K' (root s') /\
      repriced cmp order A e v A' /\ Inv alloc s' A' K')
    as (s' & K' & A' & n & Heq & Hto & HRp & I'); [|exists s', K', A', n; split; [by apply (changing_Ok _ s A K)|done]].
  destruct (sh_cov _ _ _ S e) as (r & [_ ->] & Hdx); [by apply HQ|]. unfold update_fixup_c.
  apply desc_kid_or in Hdx as [<-|(q & ks & Hq & Hin)].
  - destruct (HR Hr0) as (Hpa & _). cbn. rewrite (rd_Ok _ _ _ Hpa). bind. cbn. bind.
    destruct (reinsert_Inv s A K (root s) v I He) as (s' & K' & A' & n & -> & Hto & H1 & H2). bind.
    exists s', K', A', n. split_and!; try done. eapply toll_double; [exact Hto|lia].
  - pose proof (f_pa _ _ F _ _ _ Hq Hin) as Hpa. cbn. rewrite (rd_Ok _ _ _ Hpa). bind.
    assert (Hq0 : q <> 0) by (intros ->; by rewrite (f_zero _ _ F) in Hq).
    assert (Hqe : q <> e) by (intros ->; by eapply fin_self; [apply (sh_fin _ _ _ S)|..]).
    destruct (Nat.eqb_spec q 0); [done|]. unfold beats.
    destruct (f_live _ _ F q) as (_ & _ & _ & [vq Hvq]); [eauto|]. destruct Hd as [w Hw].
    rewrite (value_Ok (reval s e v) e v) by (cbn; by rewrite lookup_insert). bind.
    rewrite (value_Ok (reval s e v) q vq) by (cbn; by rewrite lookup_insert_ne). bind.
    destruct (is_order order (cmp v vq)) eqn:Ho.
    2: { destruct (reinsert_Inv s A K e v I He) as (s' & K' & A' & nc & -> & Hto & H1 & H2). bind.
         exists s', K', A', (1 + nc). split_and!; try done. eapply toll_double; [exact Hto|lia]. }
    apply (is_order_spec) in Ho. destruct (cut_merge_Inv s A K e v I He) as (s' & K' & A' & nc & -> & Hto & H1 & H2); cycle 2.
    { bind. exists s', K', A', (1 + nc). split_and!; try done. eapply toll_double; [exact Hto|lia]. }
    + rewrite <- HT. intros ->. apply (sh_root _ _ _ S (root s)); [by split|]. by exists q, ks.
    + eapply kids_keep; [done| |eauto]. intros w' Hw'. simplify_eq. eapply not_order_trans; [by eapply (sh_ord _ _ _ S _ _ _ Hq Hin)|].
      by apply order_asym.
Qed.

Lemma better_Inv s A K e v : Inv alloc s A K -> e ∈ queue A -> (forall w, vals A !! e = Some w -> cmp w v <> order) ->
  e <> top A \/ worn A = false ->
  exists s' K' A' n, cut_merge_c cmp order (reval s e v) e = Ok (s', n) /\ toll n (fun m => 8 * m ^ 4) 0 0 K (root s) K' (root s') /\ repriced cmp order A e v A' /\ Inv alloc s' A' K'.
Proof.
  intros I He Hw Ht. destruct (queue_nz _ _ _ _ I He) as (He0 & Hr0 & Hd). rewrite <- (i_dat _ _ _ _ I) in Hw.
  pose proof (kids_keep _ _ _ _ _ I Hw Hd). destruct (decide (e = top A)).
  - destruct Ht as [|Ht]; [done|]. by eapply cut_merge_front.
  - by eapply cut_merge_Inv.
Qed.

Lemma increase_Inv s A K e v w : Inv alloc s A K -> e ∈ queue A -> vals A !! e = Some w -> cmp v w <> Lt ->
  e <> top A \/ worn A = false \/ order = Lt ->
  exists s' K' A' n, pq_increase_c cmp order s e v = Ok (s', true, n) /\ toll n (fun m => 16 * m ^ 4) 0 0 K (root s) K' (root s') /\ repriced cmp order A e v A' /\ Inv alloc s' A' K'.
Proof.
  intros I He Hw Hc Ht.
  assert (exists s' K' A' n, increase_fixup_c cmp order (reval s e v) e = Ok (s', n) /\ toll n (fun m => 16 * m ^ 4) 0 0 K (root s) K' (root s') /\
      repriced cmp order A e v A' /\ Inv alloc s' A' K')
    as (s' & K' & A' & n & Heq & Hto & HRp & I'); [|exists s', K', A', n; split; [by apply (changing_Ok _ s A K)|done]].
  assert (Hab : order = Lt \/ order = Gt) by done. destruct Hab as [Ho|Ho].
  - destruct (reinsert_Inv s A K e v I He) as (s' & K' & A' & n & H1 & Hto & H2 & H3). exists s', K', A', n.
    split; [rewrite <- H1; unfold increase_fixup_c; by rewrite Ho|]. split; [|done]. eapply toll_double; [exact Hto|lia].
  - destruct (better_Inv s A K e v I He) as (s' & K' & A' & n & H1 & Hto & H2 & H3).
    + intros w' Hw'. assert (w' = w) as -> by congruence. rewrite (tp_opp _ TP v w), Ho. by destruct (cmp v w).
    + destruct Ht as [?|[?|?]]; [by left|by right|congruence].
    + exists s', K', A', n. split; [rewrite <- H1; unfold increase_fixup_c; by rewrite Ho|]. split; [|done].
      eapply toll_double; [exact Hto|lia].
Qed.

Lemma decrease_Inv s A K e v w : Inv alloc s A K -> e ∈ queue A -> vals A !! e = Some w -> cmp v w <> Gt ->
  e <> top A \/ worn A = false \/ order = Gt ->
  exists s' K' A' n, pq_decrease_c cmp order s e v = Ok (s', true, n) /\ toll n (fun m => 16 * m ^ 4) 0 0 K (root s) K' (root s') /\ repriced cmp order A e v A' /\ Inv alloc s' A' K'.
Proof.
  intros I He Hw Hc Ht.
  assert (exists s' K' A' n, decrease_fixup_c cmp order (reval s e v) e = Ok (s', n) /\ toll n (fun m => 16 * m ^ 4) 0 0 K (root s) K' (root s') /\
      repriced cmp order A e v A' /\ Inv alloc s' A' K')
    as (s' & K' & A' & n & Heq & Hto & HRp & I'); [|exists s', K', A', n; split; [by apply (changing_Ok _ s A K)|done]].
  assert (Hab : order = Gt \/ order = Lt) by tauto. destruct Hab as [Ho|Ho].
  - destruct (reinsert_Inv s A K e v I He) as (s' & K' & A' & n & H1 & Hto & H2 & H3). exists s', K', A', n.
    split; [rewrite <- H1; unfold decrease_fixup_c; by rewrite Ho|]. split; [|done]. eapply toll_double; [exact Hto|lia].
  - destruct (better_Inv s A K e v I He) as (s' & K' & A' & n & H1 & Hto & H2 & H3).
    + intros w' Hw'. assert (w' = w) as -> by congruence. rewrite (tp_opp _ TP v w), Ho. by destruct (cmp v w).
    + destruct Ht as [?|[?|?]]; [by left|by right|congruence].
    + exists s', K', A', n. split; [rewrite <- H1; unfold decrease_fixup_c; by rewrite Ho|]. split; [|done].
      eapply toll_double; [exact Hto|lia].
Qed.

(** * Allocation, clear *)

Lemma put_Inv s A K e l n p a v : Inv alloc s A K -> unused A e ->
  Inv alloc (put s e l n p a v) (View (queue A) (top A) (<[e := v]> (vals A))
    (if (n =? 0) || (p =? 0) then {[e]} ∪ idle A else idle A) (worn A)) K.
Proof.
  intros I [He0 He]. pose proof I as [F S HQ HT HD HZ HL H00 HR HI HH]. rewrite <- HD in He.
  assert (HK : forall x, is_Some (K !! x) -> x <> e).
  { intros x Hx ->. destruct (f_live _ _ F e Hx) as (_ & _ & _ & [??]). congruence. }
  split; cbn; try done.
  - eapply forest_ext; [done| |].
    + intros x Hx%HK. cbn. unfold keeps. cbn. by rewrite !lookup_insert_ne.
    + intros x Hx%HK. cbn. by rewrite lookup_insert_ne.
  - eapply (shape_data _ _ _ _ e); [done| | |].
    + intros (q & ks & Hq & Hin). apply (HK e); [|done]. by eapply F.
    + intros x Hx. by rewrite lookup_insert_ne.
    + intros ks k Hx. exfalso. apply (HK e); [by eexists|done].
  - by rewrite HD.
  - intros x [<-|Hx]%lookup_insert_is_Some'; [by rewrite !lookup_insert; eauto|].
    destruct (HL x Hx) as (?&?&?&?). split_and!; isSome.
  - by rewrite lookup_insert_ne.
  - intros H0. assert (root s <> e) by (apply HK, HQ; by apply (Inv_root_queue _ _ _ I)).
    rewrite !lookup_insert_ne by done. by apply HR.
  - assert (HI' : forall x, x ∈ idle A -> is_Some (<[e:=v]> (dat s) !! x) /\ x ∉ queue A /\
      (<[e:=n]> (ns s) !! x = Some 0 \/ <[e:=p]> (ps s) !! x = Some 0)).
    { intros x Hx. destruct (HI x Hx) as ([w Hw] & H2 & H3). assert (x <> e) by congruence.
      rewrite !lookup_insert_ne by done. eauto. }
    intros x Hx. destruct ((n =? 0) || (p =? 0)) eqn:Hz; [|by apply HI'].
    apply elem_of_union in Hx as [->%elem_of_singleton|Hx]; [|by apply HI'].
    rewrite !lookup_insert. split; [eauto|]. split.
    + rewrite HQ. intros Hx. by apply (HK e).
    + apply orb_true_iff in Hz as [->%Nat.eqb_eq| ->%Nat.eqb_eq]; auto.
Qed.

Lemma own_Inv s A K e : Inv alloc s A K -> Inv alloc (own s e) A K.
Proof.
  intros [F S HQ HT HD HZ HL H00 HR HI HH]. split; try done.
  - by eapply forest_dat.
  - cbn. intros Ha x Hx. apply elem_of_union. right. by apply HH.
Qed.

Lemma emplace_Inv s A K v ans ans2 : Inv alloc s A K -> alloc = true -> off = 0 -> unused A ans -> unused A ans2 -> ans <> ans2 ->
  exists s' K' n, pq_emplace_c cmp order alloc off s v ans ans2 = Ok (s', ans, n) /\
    toll n (fun m => 2 * (m + 1)) 1 0 K (root s) K' (root s') /\
    joined cmp order (<[ans := v]> (vals A)) (top A) ans (root s') /\
    Inv alloc s' (View ({[ans]} ∪ queue A) (root s') (<[ans2 := v]> (<[ans := v]> (vals A))) (idle A)
      (if root s' =? ans then false else worn A)) K'.
Proof.
  intros I Ha Hoff Hu Hu2 Hne. destruct Hu as [Hz Hu]. destruct Hu2 as [Hz2 Hu2].
  pose proof (own_Inv _ _ _ ans (put_Inv s A K ans 0 0 0 0 v I (conj Hz Hu))) as I1.
  set (s1 := own (put s ans 0 0 0 0 v) ans) in *.
  pose proof (own_Inv _ _ _ ans2 (put_Inv _ _ _ ans2 0 ans ans 0 v I1
    (conj Hz2 (eq_trans (lookup_insert_ne _ _ _ _ Hne) Hu2)))) as I2.
  set (s2 := own (put s1 ans2 0 ans ans 0 v) ans2) in *. cbn [queue top vals idle worn] in I2.
  assert (HqA : ans ∉ queue A).
  { intros Hq. destruct (queue_nz _ _ _ _ I Hq) as (_ & _ & [? Hd]). rewrite (i_dat _ _ _ _ I) in Hd. congruence. }
  destruct (push_Inv s2 _ K ans I2 Hz) as (s' & K' & n & Heq & Hto & Hj & Hh & I').
  { cbn. isSome. }
  { done. }
  { cbn. intros _. set_solver. }
  assert (Hta2 : ans2 <> top A).
  { intros H2. destruct (Inv_front _ _ _ I) as [[_ Ht]|[Ht _]]; [congruence|].
    destruct (queue_nz _ _ _ _ I Ht) as (_ & _ & [? Hd]). rewrite (i_dat _ _ _ _ I) in Hd. congruence. }
  cbn [queue top vals idle worn] in Hj, I'. exists s', K', n. split; [|split; [exact Hto|split]].
  - unfold pq_emplace_c, pq_push_c. rewrite Ha, Hoff, Nat.add_0_r. cbn [negb].
    destruct (Nat.eqb_spec ans 0); [done|]. destruct (Nat.eqb_spec ans2 0); [done|]. fold s1.
    rewrite init_node_Ok by (cbn; rewrite lookup_insert; eauto). bind.
    rewrite init_node_Ok in Heq by (cbn; isSome). revert Heq. bind. intros Heq.
    destruct (cleared_at s1 ans 0 ans ans) as (L1 & L2 & L3 & L4). unfold alloc_copy.
    rewrite (rd_Ok _ _ _ L1). bind. rewrite (rd_Ok _ _ _ L2). bind. rewrite (rd_Ok _ _ _ L3). bind. rewrite (rd_Ok _ _ _ L4). bind.
    rewrite (value_Ok _ _ v) by (cbn; by rewrite lookup_insert). bind.
    assert (own (put (cleared s1 ans 0 ans ans) ans2 0 ans ans 0 v) ans2 = cleared s2 ans 0 ans ans) as ->.
    { unfold s2, own, put, cleared. cbn. f_equal; by apply insert_commute. }
    destruct (merge_root_c cmp order (cleared s2 ans 0 ans ans) ans) as [[s3 n3]| |]; try done. revert Heq. bind.
    intros [= -> <-]. by rewrite !Nat.add_0_r.
  - destruct Hj as [(-> & [H|(a & b & Hx & Hy & Hc)])|(-> & H0 & Hc)].
    + left. split; [done|]. by left.
    + left. split; [done|]. right. rewrite lookup_insert_ne in Hx by done. exists a, b. split; [done|]. split; [|done].
      by rewrite lookup_insert_ne in Hy by done.
    + right. split; [done|]. split; [done|]. intros a b Hx Hy. apply Hc; by rewrite lookup_insert_ne.
  - refine (Inv_idle_ext _ _ _ (idle A) I' _). cbn [idle]. intros x Hx.
    assert (Hxa : x <> ans).
    { intros ->. destruct (i_idle _ _ _ _ I ans Hx) as ([? Hd] & _). rewrite (i_dat _ _ _ _ I) in Hd. congruence. }
    destruct (Nat.eqb_spec ans 0); [done|]. cbn. set_solver.
Qed.

Definition drained (A : view V) (ps : list (nat * V)) : view V :=
  View ∅ 0 (if alloc then foldr delete (vals A) (map fst ps) else vals A)
    (if alloc then idle A else queue A ∪ idle A) false.

Lemma drain_Inv n : forall s A K fn, Inv alloc s A K -> size (queue A) = n ->
  exists s' K' ps q, drain cmp order alloc n s = Ok (s', ps) /\
    clear_loop_c cmp order alloc n s fn = Ok (s', if fn then map (fun p => (fst p, Some (snd p))) ps else [], q) /\
    (forall N, n <= N -> pays q (n * (2 + 3 * Nat.log2_up N)) n 0 K (root s) K' (root s')) /\
    map fst ps ≡ₚ elements (queue A) /\ Forall (fun p => vals A !! fst p = Some (snd p)) ps /\
    StronglySorted (fun p q => cmp (snd q) (snd p) <> order) ps /\ Inv alloc s' (drained A ps) K'.
Proof.
  induction n as [|n IH]; intros s A K fn I Hn.
  - assert (Hq : queue A = ∅) by (by apply leibniz_equiv, size_empty_iff).
    assert (Hr : root s = 0) by (by apply (Inv_empty _ _ _ I)).
    pose proof (i_sz _ _ _ _ I) as Hz. rewrite Hn in Hz.
    exists s, K, [], 0. cbn [drain clear_loop_c]. rewrite Hz. split; [done|]. split; [by destruct fn|].
    split; [intros N _; apply pays_none; lia|].
    rewrite Hq, elements_empty. split; [done|]. split; [constructor|]. split; [constructor|].
    destruct I as [F S HQ HT HD HZ HL H00 HR HI HH]. split; cbn; try done.
    + intros x. by rewrite <- HQ, Hq.
    + by destruct alloc.
    + destruct alloc.
      * intros x Hx. destruct (HI x Hx) as (?&?&?). split_and!; [done|set_solver|done].
      * intros x Hx. rewrite Hq in Hx. destruct (HI x) as (?&?&?); [set_solver|]. split_and!; [done|set_solver|done].
  - assert (Hr : root s <> 0) by (intros H0%(Inv_empty _ _ _ I); rewrite H0, size_empty in Hn; done).
    destruct (pop_Inv _ _ _ I Hr) as (s1 & K1 & t & w & q1 & Heqc & Hto & Hlv & I1).
    assert (Heq : pq_pop cmp order alloc s = Ok (s1, OK)) by (by rewrite <- pop_untick, Heqc).
    assert (Htq : top A ∈ queue A) by (rewrite <- (i_top _ _ _ _ I); by apply (Inv_root_queue _ _ _ I)).
    destruct (queue_nz _ _ _ _ I Htq) as (_ & _ & [v0 Hv0]).
    destruct (IH s1 _ K1 fn I1) as (s' & K' & ps & q2 & Hdr & Hcl & Hpay & Hp & Hf & Hs & I').
    { cbn. pose proof (size_remove _ _ Htq). lia. }
    cbn [queue vals without] in Hp, Hf.
    pose proof (i_sz _ _ _ _ I) as Hz. rewrite Hn in Hz. rewrite (i_dat _ _ _ _ I) in Hv0.
    assert (Hf' : Forall (fun p => vals A !! fst p = Some (snd p)) ps).
    { eapply Forall_impl; [exact Hf|]. intros [x v] Hx. cbn in *. destruct alloc; [|done]. by apply lookup_delete_Some in Hx as [_ ?]. }
    exists s', K', ((top A, v0) :: ps), (q1 + q2). split_and!.
    + cbn [drain]. unfold pq_front. rewrite (i_top _ _ _ _ I). rewrite (value_Ok _ _ v0) by (by rewrite (i_dat _ _ _ _ I)). bind.
      rewrite Heq. bind. cbn [oassert]. rewrite bool_decide_true by done. cbn. rewrite Hdr. done.
    + cbn [clear_loop_c]. destruct (Z.eqb_spec (sz s) 0) as [?|_]; [lia|]. rewrite Heqc. bind. rewrite Hcl. bind.
      unfold pq_front. rewrite (i_top _ _ _ _ I), (i_dat _ _ _ _ I), Hv0, Nat.add_0_r. by destruct fn.
    + intros N HN. eapply (pays_trans _ (2 + 3 * Nat.log2_up N) _ n); [|apply (Hpay N); lia|cbn; lia].
      eapply pays_toll; [exact Hto| |lia]. intros m Hm. apply pop_share. lia.
    + cbn [map fst]. rewrite Hp. rewrite <- elements_union_singleton by set_solver.
      f_equiv. intros x. destruct (decide (x = top A)); set_solver.
    + by constructor.
    + constructor; [done|]. apply Forall_forall. intros [x v] Hx. cbn.
      rewrite Forall_forall in Hf'. specialize (Hf' _ Hx). cbn in Hf'.
      destruct (Inv_front _ _ _ I) as [[Hq0 _]|[_ Hfr]]; [rewrite Hq0 in Htq; set_solver|]. eapply Hfr; [|done|done].
      assert (Hin : x ∈ map fst ps) by (apply elem_of_list_In, in_map_iff; exists (x, v); split; [done|by apply elem_of_list_In]).
      rewrite Hp, elem_of_elements in Hin. set_solver.
    + assert (drained A ((top A, v0) :: ps) = drained (without A (top A) t w alloc true) ps) as ->; [|done].
      unfold drained, without. cbn [queue top vals idle worn map fst]. rewrite foldr_delete_cons.
      destruct alloc; [done|]. f_equal. cbn [negb andb]. apply set_eq. intros x. destruct (decide (x = top A)); set_solver.
Qed.

(** * Walks over the whole heap *)

(** [ys] lists the siblings [xs] and everything below them in the order of the
    walks, which start with the youngest child. *)
Inductive walk (K : kids) : list nat -> list nat -> Prop :=
  | walk_nil : walk K [] []
  | walk_leaf x xs ys : K !! x = Some [] -> walk K xs ys -> walk K (x :: xs) (x :: ys)
  | walk_node x xs ks l zs ys : K !! x = Some (ks ++ [l]) -> walk K (l :: ks) zs -> walk K xs ys ->
      walk K (x :: xs) (x :: zs ++ ys).

Lemma walk_app K xs1 ys1 xs2 ys2 : walk K xs1 ys1 -> walk K xs2 ys2 -> walk K (xs1 ++ xs2) (ys1 ++ ys2).
Proof.
  induction 1 as [|x xs ys Hx _ IH|x xs ks l zs ys Hx Hz _ _ IH]; intros H2; [done| |]; cbn.
  - by apply walk_leaf; [|apply IH].
  - rewrite <- (assoc_L (++)). eapply walk_node; [done|done|by apply IH].
Qed.

Lemma walk_list K (xs : list nat) : (forall x, x ∈ xs -> exists ys, walk K [x] ys) -> exists ys, walk K xs ys.
Proof.
  induction xs as [|x xs IH]; intros Hx; [exists []; constructor|].
  destruct (Hx x) as [ys1 H1]; [left|]. destruct IH as [ys2 H2]; [intros y Hy; apply Hx; by right|].
  exists (ys1 ++ ys2). by apply (walk_app K [x]).
Qed.

Lemma walk_exists s K x : forest s K -> fin K x -> is_Some (K !! x) -> exists ys, walk K [x] ys.
Proof.
  intros F Hf. induction Hf as [x Hx|x _ IH]; intros Hs; [rewrite Hx in Hs; by destruct Hs|]. destruct Hs as [ks Hks].
  destruct ks as [|k ks]; [exists [x]; by repeat constructor|].
  destruct (last_cons_inv k ks) as (us & l & Heq & _). rewrite Heq in Hks.
  destruct (walk_list K (l :: us)) as [zs Hzs].
  { intros y Hy. apply (IH _ y Hks); [|eapply F; [done|]]; set_solver. }
  exists (x :: zs ++ []). eapply walk_node; [done|done|constructor].
Qed.

Lemma walk_desc K xs ys y : walk K xs ys -> y ∈ ys <-> exists x, x ∈ xs /\ desc K x y.
Proof.
  induction 1 as [|x xs ys Hx _ IH|x xs ks l zs ys Hx _ IH1 _ IH2].
  - split; [by intros ?%elem_of_nil|]. by intros (? & ?%elem_of_nil & _).
  - rewrite elem_of_cons, IH. split.
    + intros [->|(z & Hz & Hd)]; [exists x|exists z]; (split; [|done || constructor]); [left|by right].
    + intros (z & [->|Hz]%elem_of_cons & Hd); [left|right; by exists z].
      clear -Hd Hx. induction Hd as [|p ks k _ -> Hp Hk]; [done|]. rewrite Hx in Hp. simplify_eq. by apply elem_of_nil in Hk.
  - rewrite elem_of_cons, elem_of_app, IH1, IH2. split.
    + intros [->|[(z & Hz & Hd)|(z & Hz & Hd)]].
      * exists x. split; [left|constructor].
      * exists x. split; [left|]. eapply desc_trans; [|done]. eapply desc_kid; [constructor|done|]. set_solver.
      * exists z. split; [by right|done].
    + intros (z & [->|Hz]%elem_of_cons & Hd); [|right; right; by exists z].
      assert (y = x \/ exists z, z ∈ ks ++ [l] /\ desc K z y) as [->|(z & Hz & Hd')]; [|by left|].
      { clear -Hd Hx. induction Hd as [|p us k Hd IH Hp Hk]; [by left|right].
        destruct IH as [->|(z & Hz & Hd')].
        - rewrite Hx in Hp. simplify_eq. exists k. split; [done|constructor].
        - exists z. split; [done|]. by eapply desc_kid. }
      right. left. exists z. split; [set_solver|done].
Qed.

(** Ancestors of a node lie on one line. *)
Lemma desc_line s K a b y : forest s K -> desc K a y -> desc K b y -> desc K a b \/ desc K b a.
Proof.
  intros F Ha. revert b. induction Ha as [|p ks y Hp IH Hks Hy]; intros b Hb; [by right|].
  destruct Hb as [|q us y Hq Hus Hy'].
  - left. by eapply desc_kid.
  - assert (p = q) as -> by (by eapply kid_unique). by apply IH.
Qed.

Lemma walk_NoDup s K xs ys : forest s K -> (forall x, fin K x) -> walk K xs ys -> NoDup xs ->
  (forall x y, x ∈ xs -> y ∈ xs -> desc K x y -> x = y) -> NoDup ys.
Proof.
  intros F Hf Hw. induction Hw as [|x xs ys Hx Hw IH|x xs ks l zs ys Hx Hw1 IH1 Hw2 IH2]; intros Hnd Hd; [constructor| |].
  - apply NoDup_cons in Hnd as [Hxn Hnd]. constructor.
    + intros Hin. apply (walk_desc _ _ _ _ Hw) in Hin as (z & Hz & Hdz).
      apply Hxn. rewrite <- (Hd z x); [done|by right|left|done].
    + apply IH; [done|]. intros; apply Hd; [by right|by right|done].
  - apply NoDup_cons in Hnd as [Hxn Hnd].
    assert (Hkl : forall z, z ∈ l :: ks -> z ∈ ks ++ [l]) by set_solver.
    assert (Hxz : forall z, z ∈ zs -> desc K x z).
    { intros z Hz. apply (walk_desc _ _ _ _ Hw1) in Hz as (k & Hk & Hdk). eapply desc_trans; [|done].
      eapply desc_kid; [constructor|done|auto]. }
    constructor.
    + intros [Hin|Hin]%elem_of_app.
      * apply (walk_desc _ _ _ _ Hw1) in Hin as (k & Hk & Hdk).
        eapply (fin_irrefl K k (Hf k) x); [done|done|auto].
      * apply (walk_desc _ _ _ _ Hw2) in Hin as (z & Hz & Hdz).
        apply Hxn. rewrite <- (Hd z x); [done|by right|left|done].
    + apply NoDup_app. split_and!.
      * apply IH1.
        -- apply (NoDup_rot ks [l]). by eapply F.
        -- intros a b Ha Hb Hab. destruct (desc_kid_or _ _ _ Hab) as [?|Hk]; [done|].
           destruct Hab as [|p us b Hap Hp Hbp]; [done|].
           assert (p = x) as -> by (eapply kid_unique; eauto).
           exfalso. eapply (fin_irrefl K a (Hf a) x); [exact Hap|exact Hx|auto].
      * intros z Hz1 Hz2. apply (walk_desc _ _ _ _ Hw2) in Hz2 as (w & Hwx & Hdw).
        assert (x <> w) by (intros ->; done).
        destruct (desc_line s K x w z F (Hxz z Hz1) Hdw) as [Hxw|Hwx'].
        -- assert (x = w); [|done]. apply Hd; [left|by right|done].
        -- assert (w = x); [|done]. apply Hd; [by right|left|done].
      * apply IH2; [done|]. intros; apply Hd; [by right|by right|done].
Qed.

Lemma default_last_snoc (ks : list nat) l : default 0 (last (ks ++ [l])) = l.
Proof. by rewrite last_snoc. Qed.

Lemma ring_youngest m (ks : list nat) l : ring m (ks ++ [l]) -> path m (l :: ks) l.
Proof. intros Hr. apply (ring_rotate m ks [l]). done. Qed.

Lemma ring_size_Ok s K xs ys : forest s K -> walk K xs ys -> forall fuel first cur rest,
  xs = cur :: rest -> length ys <= fuel -> path (ns s) xs first -> first ∉ rest ->
  ring_size fuel s first cur = Ok (Z.of_nat (length ys)).
Proof.
  intros F Hw. induction Hw as [|x xs ys Hx Hw IH|x xs ks l zs ys Hx Hw1 IH1 Hw2 IH2];
    intros fuel first cur rest [= -> ->] Hl Hp Hn; destruct fuel as [|fuel]; cbn in Hl; try lia; cbn [ring_size].
  - rewrite (rd_Ok _ _ _ (f_lc _ _ F _ _ Hx)). bind. cbn [last default from_option]. bind. destruct Hp as [Hc Hp].
    rewrite (rd_Ok _ _ _ Hc). cbn [from_option id Nat.eqb]. bind. destruct rest as [|y rest]; cbn [hd].
    + rewrite Nat.eqb_refl. bind. inversion Hw; subst. done.
    + destruct (Nat.eqb_spec y first) as [->|_]; [set_solver|].
      erewrite IH; [|done|lia|done|set_solver]. bind. f_equal. cbn [length]. lia.
  - rewrite (rd_Ok _ _ _ (f_lc _ _ F _ _ Hx)), default_last_snoc. bind.
    assert (Hl0 : l <> 0).
    { intros ->. destruct (f_in _ _ F _ _ 0 Hx) as [? H0]; [set_solver|]. rewrite (f_zero _ _ F) in H0. done. }
    destruct (Nat.eqb_spec l 0); [done|]. rewrite app_length in Hl.
    assert (Hnl : l ∉ ks).
    { pose proof (f_nd _ _ F _ _ Hx) as Hnd. apply NoDup_app in Hnd as (_ & Hnd & _). intros Hin. apply (Hnd _ Hin). left. }
    rewrite (IH1 fuel l l ks); [|done|lia|apply ring_youngest; by eapply F|done]. bind.
    destruct Hp as [Hc Hp]. rewrite (rd_Ok _ _ _ Hc). bind. destruct rest as [|y rest]; cbn [hd].
    + rewrite Nat.eqb_refl. bind. inversion Hw2; subst. rewrite app_nil_r. cbn [length]. f_equal. lia.
    + destruct (Nat.eqb_spec y first) as [->|_]; [set_solver|].
      erewrite IH2; [|done|lia|done|set_solver]. bind. f_equal. cbn [length]. rewrite app_length. lia.
Qed.

(** What has_valid_links checks about the node a ring starts with. *)
Definition joint s (parent child : nat) : Prop :=
  exists cp n p, pa s !! child = Some cp /\ (parent <> 0 -> cp = parent /\ is_Some (lc s !! parent)) /\
    ns s !! child = Some n /\ ps s !! n = Some child /\ ps s !! child = Some p /\ ns s !! p = Some child.

Lemma ring_joint s K x ks l : forest s K -> K !! x = Some (ks ++ [l]) -> joint s x l.
Proof.
  intros F Hx. pose proof (f_ns _ _ F _ _ Hx) as Hns. pose proof (f_ps _ _ F _ _ Hx) as Hps.
  assert (exists h, hd 0 (ks ++ [l]) = h /\ last (rev (ks ++ [l])) = Some h) as (h & Hh & Hh').
  { destruct ks as [|k ks]; [exists l; done|exists k]. split; [done|]. by apply last_rev. }
  exists x, h, (hd l (rev ks)). split_and!.
  - eapply F; [done|set_solver].
  - intros _. split; [done|]. rewrite (f_lc _ _ F _ _ Hx). eauto.
  - unfold ring in Hns. rewrite Hh in Hns. eapply path_last_lookup; [|done]. by rewrite last_snoc.
  - unfold ring in Hps. eapply path_last_lookup in Hps; [|done]. rewrite Hps. rewrite rev_app_distr. done.
  - unfold ring in Hps. rewrite rev_app_distr in Hps. by destruct Hps.
  - destruct (decide (ks = [])) as [->|Hne].
    + cbn. unfold ring in Hns. cbn in Hns. by destruct Hns.
    + destruct ks as [|k ks] using rev_ind; [done|]. rewrite rev_app_distr. cbn.
      unfold ring in Hns. rewrite <- (assoc_L (++)) in Hns. apply path_app in Hns as [_ Hns]. cbn in Hns. by destruct Hns.
Qed.

Lemma valid_order (v w : V) : cmp w v <> order ->
  match cmp v w, wrong_order order with Lt, Lt | Gt, Gt => false | _, _ => true end = true.
Proof.
  intros Hc. rewrite (tp_opp _ TP w v). unfold wrong_order. destruct HO as [-> | ->]; by destruct (cmp w v).
Qed.

Lemma ring_valid_Ok s K xs ys : forest s K -> (forall x ks k, K !! x = Some ks -> k ∈ ks -> worse (dat s) k x) ->
  walk K xs ys -> forall fuel parent child cur rest,
  xs = cur :: rest -> length ys <= fuel -> path (ns s) xs child -> child ∉ rest -> joint s parent child ->
  (parent <> 0 -> is_Some (dat s !! parent) /\ forall x, x ∈ xs -> worse (dat s) x parent) ->
  ring_valid cmp order fuel s parent child cur = Ok true.
Proof.
  intros F Hord Hw. induction Hw as [|x xs ys Hx Hw IH|x xs ks l zs ys Hx Hw1 IH1 Hw2 IH2];
    intros fuel parent child cur rest [= -> ->] Hl Hp Hn HJ Hpar; destruct fuel as [|fuel]; cbn in Hl; try lia; cbn [ring_valid].
  - destruct (Nat.eqb_spec cur 0) as [->|Hc0]; [by rewrite (f_zero _ _ F) in Hx|].
    pose proof HJ as (cp & n & p & Hcp & Hpp & Hn1 & Hn2 & Hp1 & Hp2).
    rewrite (rd_Ok _ _ _ Hcp). bind.
    assert (negb (parent =? 0) && negb (cp =? parent) = false) as ->.
    { destruct (Nat.eqb_spec parent 0) as [|H0]; [done|]. destruct (Hpp H0) as [-> _]. by rewrite Nat.eqb_refl. }
    assert ((if parent =? 0 then Ok true else a ← rd (lc s) parent; b ← rd (lc s) cp; Ok (a =? b)) = Ok true) as ->.
    { destruct (Nat.eqb_spec parent 0) as [|H0]; [done|]. destruct (Hpp H0) as [-> [q Hq]].
      rewrite (rd_Ok _ _ _ Hq). bind. by rewrite Nat.eqb_refl. }
    bind. cbn [negb]. rewrite (rd_Ok _ _ _ Hn1). bind. rewrite (rd_Ok _ _ _ Hn2). bind. rewrite Nat.eqb_refl.
    rewrite (rd_Ok _ _ _ Hp1). bind. rewrite (rd_Ok _ _ _ Hp2). bind. rewrite Nat.eqb_refl. bind. cbn [negb].
    destruct (f_live _ _ F cur) as (_ & _ & _ & [v Hv]); [eauto|].
    assert ((if parent =? 0 then Ok true else a ← value s parent; b ← value s cur;
       Ok match cmp a b, wrong_order order with Lt, Lt | Gt, Gt => false | _, _ => true end) = Ok true) as ->.
    { destruct (Nat.eqb_spec parent 0) as [|H0]; [done|]. destruct (Hpar H0) as [[w Hw'] Hwo].
      rewrite (value_Ok _ _ _ Hw'). bind. rewrite (value_Ok _ _ _ Hv). bind. f_equal. apply valid_order.
      eapply (Hwo cur); [left|done|done]. }
    bind. cbn [negb].
    rewrite (rd_Ok _ _ _ (f_lc _ _ F _ _ Hx)). bind. cbn [last from_option id Nat.eqb]. bind. cbn [negb]. destruct Hp as [Hc Hp].
    rewrite (rd_Ok _ _ _ Hc). bind. destruct rest as [|y rest]; cbn [hd].
    + by rewrite Nat.eqb_refl.
    + destruct (Nat.eqb_spec y child) as [->|_]; [set_solver|].
      eapply IH; [done|lia|done|set_solver|done|]. intros H0. destruct (Hpar H0) as [? Hwo]. split; [done|].
      intros z Hz. apply Hwo. by right.
  - destruct (Nat.eqb_spec cur 0) as [->|Hc0]; [by rewrite (f_zero _ _ F) in Hx|].
    pose proof HJ as (cp & n & p & Hcp & Hpp & Hn1 & Hn2 & Hp1 & Hp2).
    rewrite (rd_Ok _ _ _ Hcp). bind.
    assert (negb (parent =? 0) && negb (cp =? parent) = false) as ->.
    { destruct (Nat.eqb_spec parent 0) as [|H0]; [done|]. destruct (Hpp H0) as [-> _]. by rewrite Nat.eqb_refl. }
    assert ((if parent =? 0 then Ok true else a ← rd (lc s) parent; b ← rd (lc s) cp; Ok (a =? b)) = Ok true) as ->.
    { destruct (Nat.eqb_spec parent 0) as [|H0]; [done|]. destruct (Hpp H0) as [-> [q Hq]].
      rewrite (rd_Ok _ _ _ Hq). bind. by rewrite Nat.eqb_refl. }
    bind. cbn [negb]. rewrite (rd_Ok _ _ _ Hn1). bind. rewrite (rd_Ok _ _ _ Hn2). bind. rewrite Nat.eqb_refl.
    rewrite (rd_Ok _ _ _ Hp1). bind. rewrite (rd_Ok _ _ _ Hp2). bind. rewrite Nat.eqb_refl. bind. cbn [negb].
    destruct (f_live _ _ F cur) as (_ & _ & _ & [v Hv]); [eauto|].
    assert ((if parent =? 0 then Ok true else a ← value s parent; b ← value s cur;
       Ok match cmp a b, wrong_order order with Lt, Lt | Gt, Gt => false | _, _ => true end) = Ok true) as ->.
    { destruct (Nat.eqb_spec parent 0) as [|H0]; [done|]. destruct (Hpar H0) as [[w Hw'] Hwo].
      rewrite (value_Ok _ _ _ Hw'). bind. rewrite (value_Ok _ _ _ Hv). bind. f_equal. apply valid_order.
      eapply (Hwo cur); [left|done|done]. }
    bind. cbn [negb]. rewrite app_length in Hl.
    rewrite (rd_Ok _ _ _ (f_lc _ _ F _ _ Hx)), default_last_snoc. bind.
    assert (Hl0 : l <> 0).
    { intros ->. destruct (f_in _ _ F _ _ 0 Hx) as [? H0]; [set_solver|]. rewrite (f_zero _ _ F) in H0. done. }
    destruct (Nat.eqb_spec l 0); [done|].
    assert (Hnl : l ∉ ks).
    { pose proof (f_nd _ _ F _ _ Hx) as Hnd. apply NoDup_app in Hnd as (_ & Hnd & _). intros Hin. apply (Hnd _ Hin). left. }
    rewrite (IH1 fuel cur l l ks); [|done|lia|apply ring_youngest; by eapply F|done|by eapply ring_joint|].
    2:{ intros _. split; [eauto|]. intros z Hz. eapply Hord; [done|set_solver]. }
    bind. cbn [negb]. destruct Hp as [Hc Hp].
    rewrite (rd_Ok _ _ _ Hc). bind. destruct rest as [|y rest]; cbn [hd].
    + by rewrite Nat.eqb_refl.
    + destruct (Nat.eqb_spec y child) as [->|_]; [set_solver|].
      eapply IH2; [done|lia|done|set_solver|done|]. intros H0. destruct (Hpar H0) as [? Hwo]. split; [done|].
      intros z Hz. apply Hwo. by right.
Qed.

Lemma validate_Inv s A K : Inv alloc s A K -> worn A = false -> pq_validate cmp order s = Ok true.
Proof.
  intros I Hw. pose proof I as [F S HQ HT HD HZ HL H00 HR HI HH]. unfold pq_validate.
  destruct (Nat.eqb_spec (root s) 0) as [Hr|Hr].
  - bind. cbn. rewrite Hr. cbn. bind. cbn. pose proof (proj1 (Inv_empty _ _ _ I) Hr) as He.
    rewrite He, size_empty in HZ. by rewrite HZ.
  - destruct (HR Hr) as (Hpa & n & p & Hn & Hp & _ & _ & Hx). destruct (Hx Hw) as [-> ->].
    rewrite (rd_Ok _ _ _ Hpa). bind. cbn [negb Nat.eqb].
    destruct (sh_root _ _ _ S (root s)) as [HK _]; [by split|].
    destruct (walk_exists s K (root s) F) as [ys Hwk]; [apply S|done|].
    assert (Hnd : NoDup ys).
    { eapply walk_NoDup; [done|apply S|done|apply NoDup_singleton|]. intros x y. set_solver. }
    assert (Hys : list_to_set ys = queue A).
    { apply set_eq. intros x. rewrite elem_of_list_to_set, (walk_desc _ _ _ _ Hwk), HQ. split.
      - intros (z & ->%elem_of_list_singleton & [|q ks y Hd Hq Hy]); [done|]. by eapply F.
      - intros Hk. destruct (sh_cov _ _ _ S x Hk) as (r & [_ ->] & Hd). exists (root s). split; [left|done]. }
    assert (Hlen : length ys = size (queue A)) by (by rewrite <- Hys, size_list_to_set).
    assert (Hle : length ys <= size (ns s)).
    { rewrite <- size_dom, Hlen. apply subseteq_size. intros x Hxq. apply elem_of_dom, F. by apply HQ. }
    unfold has_valid_links, traversal_size. destruct (Nat.eqb_spec (root s) 0); [done|].
    assert (Hpath : path (ns s) [root s] (root s)) by done.
    rewrite (ring_valid_Ok s K [root s] ys F (sh_ord _ _ _ S) Hwk _ _ _ _ []); [|done|lia|done|set_solver| |done].
    + bind. cbn [negb]. rewrite (ring_size_Ok s K [root s] ys F Hwk _ _ _ []); [|done|lia|done|set_solver].
      bind. f_equal. apply Z.eqb_eq. lia.
    + exists 0, (root s), (root s). done.
Qed.

(** * The nodes found by following pointers *)

Lemma reach_path s xs : forall c b, path (ns s) (c :: xs) b -> (forall x, x ∈ c :: xs -> x <> root s) ->
  reach s c -> forall x, x ∈ c :: xs -> reach s x.
Proof.
  induction xs as [|y xs IH]; intros c b [Hc Hp] Hr Hre x Hx.
  - by apply elem_of_list_singleton in Hx as ->.
  - apply elem_of_cons in Hx as [->|Hx]; [done|]. eapply IH; [exact Hp| | |done].
    + intros z Hz. apply Hr. by right.
    + eapply reach_sibling; [done|apply Hr; left|done].
Qed.

Lemma reach_Inv s A K x : Inv alloc s A K -> x ∈ queue A <-> reach s x.
Proof.
  intros I. pose proof I as [F S HQ HT HD HZ HL H00 HR HI HH]. rewrite HQ. split.
  - intros Hx. destruct (sh_cov _ _ _ S x Hx) as (r & [Hr ->] & Hd).
    destruct (sh_root _ _ _ S (root s)) as [_ Hnk]; [by split|].
    clear Hx. induction Hd as [|q ks x Hd IH Hq Hin]; [by constructor|].
    destruct ks as [|k ks]; [by apply elem_of_nil in Hin|].
    destruct (last_cons_inv k ks) as (us & l & Heq & _). rewrite Heq in Hq, Hin.
    pose proof (f_lc _ _ F _ _ Hq) as Hlc. rewrite default_last_snoc in Hlc.
    assert (Hl0 : l <> 0).
    { intros ->. destruct (f_in _ _ F _ _ 0 Hq) as [? H0]; [set_solver|]. rewrite (f_zero _ _ F) in H0. done. }
    eapply (reach_path s us l l); [apply ring_youngest; by eapply F| |by eapply reach_child|set_solver].
    intros z Hz ->. apply Hnk. exists q, (us ++ [l]). split; [done|set_solver].
  - induction 1 as [Hr|p c _ IH Hc H0|c d _ IH Hc Hd].
    + apply (sh_root _ _ _ S). by split.
    + destruct IH as [ks Hks]. rewrite (f_lc _ _ F _ _ Hks) in Hc. destruct (last ks) as [l|] eqn:Hl; cbn in Hc; simplify_eq.
      eapply F; [done|]. by eapply last_Some_elem_of.
    + destruct (sh_cov _ _ _ S c IH) as (r & [_ ->] & Hdr). apply desc_kid_or in Hdr as [?|(q & ks & Hq & Hin)]; [congruence|].
      destruct (ring_next _ _ _ (f_ns _ _ F _ _ Hq) Hin) as (y & Hy & Hin'). simplify_eq. by eapply F.
Qed.

Lemma Inv_shows s A K : Inv alloc s A K -> shows cmp order s A.
Proof.
  intros I. split_and!.
  - apply I.
  - apply I.
  - intros x. by eapply reach_Inv.
  - apply I.
  - by eapply validate_Inv.
Qed.

(** * Programs *)

Lemma init_Inv : Inv alloc pq_init start ∅.
Proof.
  split; cbn; try done.
  - split; intros; rewrite ?lookup_empty in *; try done. by destruct H.
  - split; intros; rewrite ?lookup_empty in *; try done.
    + by destruct H.
    + by destruct H.
    + by apply fin_none.
  - intros x. rewrite lookup_empty. split; [by intros ?%elem_of_empty|by intros [??]].
  - intros x [? H]. by rewrite lookup_empty in H.
Qed.

Lemma repriced_queue A e v A' : repriced cmp order A e v A' -> queue A' = queue A.
Proof. by destruct 1. Qed.

Lemma step_Ok_c s A K o : Inv alloc s A K -> may cmp order alloc off A o ->
  exists s' r A' K' n, step_c cmp order alloc off s o = Ok (s', r, n) /\
    pays n (share o (size (queue A))) (size (queue A)) (size (queue A')) K (root s) K' (root s') /\
    effect cmp order alloc A o r A' /\ Inv alloc s' A' K'.
Proof.
  intros I Hm. destruct Hm as [e v l n p a Hu| |e ans v Ha He0 Hv He|v ans ans2 Ha Ho Hu Hu2 Hne|v ans ans2 Hr| |e He|e He|e v He
    |e v w He Hw Hc Ht|e v w He Hw Hc Ht|e v o He Ho|fn| | |Hw]; cbn [step_c].
  - eexists _, _, _, K, 0. split; [reflexivity|]. split; [|split; [constructor|by apply put_Inv]]. by apply pays_none.
  - eexists _, _, A, K, 0. split; [reflexivity|]. split; [by apply pays_none|].
    unfold pq_front. rewrite (i_top _ _ _ _ I). split; [constructor|done].
  - destruct (push_Inv s A K e I He0) as (s' & K' & n & Heq & Hto & Hj & _ & I').
    { rewrite (i_dat _ _ _ _ I). eauto. }
    { done. }
    { congruence. }
    eexists s', (RPtr e), _, K', n. split; [|split; [|split; [by apply effect_push|exact I']]].
    + unfold pq_push_c. destruct (Nat.eqb_spec e 0); [done|]. rewrite Ha.
      destruct (init_node s e) as [s1| |]; try done. revert Heq. bind.
      destruct (merge_root_c cmp order s1 e) as [[s2 n2]| |]; try done. bind. intros [= -> <-]. by rewrite !Nat.add_0_r.
    + cbn [queue]. rewrite size_union, size_singleton by set_solver. eapply pays_toll; [exact Hto| |lia].
      intros m Hm. by apply push_share.
  - destruct (emplace_Inv s A K v ans ans2 I Ha Ho Hu Hu2 Hne) as (s' & K' & n & -> & Hto & Hj & I'). bind.
    assert (Hq : ans ∉ queue A).
    { intros Hq. destruct (queue_nz _ _ _ _ I Hq) as (_ & _ & [? Hd]). rewrite (i_dat _ _ _ _ I) in Hd. destruct Hu. congruence. }
    eexists _, _, _, K', n. split; [by rewrite Nat.add_0_r|]. split; [|split; [|exact I']].
    + cbn [queue]. rewrite size_union, size_singleton by set_solver. eapply pays_toll; [exact Hto| |lia].
      intros m Hm. by apply push_share.
    + apply effect_emplace; [done|apply Hu|done].
  - assert (pq_emplace_c cmp order alloc off s v ans ans2 = Ok (s, 0, 0)) as ->.
    { unfold pq_emplace_c. destruct Hr as [-> | ->]; [done|]. by destruct alloc. }
    bind. eexists _, _, A, K, 0. split; [reflexivity|]. split; [by apply pays_none|]. split; [by constructor|done].
  - destruct (decide (root s = 0)) as [Hr|Hr].
    + unfold pq_pop_c. rewrite Hr. cbn [Nat.eqb]. bind. eexists _, _, A, K, 0. split; [reflexivity|].
      split; [rewrite Hr; by apply pays_none|]. split; [|done].
      apply effect_pop_empty. by apply (Inv_empty _ _ _ I).
    + destruct (pop_Inv _ _ _ I Hr) as (s' & K' & t & w & n & -> & Hto & Hlv & I'). bind.
      assert (Htq : top A ∈ queue A) by (rewrite <- (i_top _ _ _ _ I); by apply (Inv_root_queue _ _ _ I)).
      eexists _, _, _, K', n. split; [by rewrite Nat.add_0_r|]. split; [|split; [|exact I']].
      * cbn [queue without]. eapply pays_toll; [exact Hto| |pose proof (size_remove _ _ Htq); lia].
        intros m Hm. by apply pop_share.
      * apply effect_pop; [done|]. by apply leave_leaves.
  - destruct He as [He|He].
    + destruct (extract_Inv _ _ _ _ I He) as (s' & K' & t & w & n & -> & Hto & Hlv & I'). bind.
      eexists _, _, _, K', n. split; [by rewrite Nat.add_0_r|]. split; [|split; [|exact I']].
      * cbn [queue without]. eapply pays_toll; [exact Hto| |pose proof (size_remove _ _ He); lia].
        intros m Hm. by apply pop_share.
      * apply effect_extract; [done|]. by apply leave_leaves.
    + destruct (idle_Ok _ _ _ _ I He) as [H0 Hu]. exists s, (RPtr 0), A, K, 0.
      split; [|split; [by apply pays_none|split; [by constructor|done]]].
      unfold pq_extract_c. destruct (_ || _); [done|]. by rewrite Hu.
  - destruct He as [He|He].
    + destruct (erase_Inv _ _ _ _ I He) as (s' & K' & t & w & n & -> & Hto & Hlv & I'). bind.
      eexists _, _, _, K', n. split; [by rewrite Nat.add_0_r|]. split; [|split; [|exact I']].
      * cbn [queue without]. eapply pays_toll; [exact Hto| |pose proof (size_remove _ _ He); lia].
        intros m Hm. by apply pop_share.
      * apply effect_erase; [done|]. by apply leave_leaves.
    + destruct (idle_Ok _ _ _ _ I He) as [H0 Hu]. exists s, (RResult INPUT_ERR), A, K, 0.
      split; [|split; [by apply pays_none|split; [by constructor|done]]].
      unfold pq_erase_c. destruct (_ || _); [done|]. by rewrite Hu.
  - destruct He as [He|He].
    + destruct (update_Inv s A K e v I He) as (s' & K' & A' & n & -> & Hto & HRp & I'). bind.
      eexists _, _, A', K', n. split; [by rewrite Nat.add_0_r|]. split; [|split; [|done]].
      * rewrite (repriced_queue _ _ _ _ HRp). eapply pays_toll; [exact Hto| |lia]. intros m Hm. by apply change_share.
      * eapply effect_update; eauto.
    + unfold pq_update_c. rewrite (changing_idle _ _ _ _ _ _ I He). bind.
      eexists _, _, A, K, 0. split; [reflexivity|]. split; [by apply pays_none|]. split; [|done]. eapply effect_update_idle; eauto.
  - destruct (increase_Inv s A K e v w I He Hw Hc Ht) as (s' & K' & A' & n & -> & Hto & HRp & I'). bind.
    eexists _, _, A', K', n. split; [by rewrite Nat.add_0_r|]. split; [|split; [|done]].
    + rewrite (repriced_queue _ _ _ _ HRp). eapply pays_toll; [exact Hto| |lia]. intros m Hm. by apply change_share.
    + eapply effect_update; eauto.
  - destruct (decrease_Inv s A K e v w I He Hw Hc Ht) as (s' & K' & A' & n & -> & Hto & HRp & I'). bind.
    eexists _, _, A', K', n. split; [by rewrite Nat.add_0_r|]. split; [|split; [|done]].
    + rewrite (repriced_queue _ _ _ _ HRp). eapply pays_toll; [exact Hto| |lia]. intros m Hm. by apply change_share.
    + eapply effect_update; eauto.
  - exists s, (RBool false), A, K, 0. split; [|split; [by apply pays_none|split; [eapply effect_update_idle; eauto|done]]].
    destruct Ho as [-> | ->]; cbn [step_c]; unfold pq_increase_c, pq_decrease_c; by rewrite (changing_idle _ _ _ _ _ _ I He).
  - destruct (drain_Inv _ s A K fn I eq_refl) as (s' & K' & ps & n & _ & Hcl & Hpay & Hp & Hf & Hs & I').
    unfold pq_clear_c. rewrite (i_sz _ _ _ _ I), Nat2Z.id, Hcl. bind.
    eexists _, _, _, K', n. split; [by rewrite !Nat.add_0_r|]. split; [|split; [by apply effect_clear|exact I']].
    by apply Hpay.
  - eexists _, _, A, K, 0. split; [reflexivity|]. split; [by apply pays_none|]. split; [|done].
    unfold pq_size. rewrite (i_sz _ _ _ _ I). constructor.
  - eexists _, _, A, K, 0. split; [reflexivity|]. split; [by apply pays_none|]. split; [|done].
    unfold pq_is_empty. rewrite (i_sz _ _ _ _ I).
    assert ((Z.of_nat (size (queue A)) =? 0)%Z = (size (queue A) =? 0)) as ->; [|constructor].
    destruct (Z.eqb_spec (Z.of_nat (size (queue A))) 0), (Nat.eqb_spec (size (queue A)) 0); lia.
  - rewrite (validate_Inv _ _ _ I Hw). bind. eexists _, _, A, K, 0. split; [reflexivity|]. split; [by apply pays_none|].
    split; [constructor|done].
Qed.

Lemma play_Ok_c c : forall s A K, Inv alloc s A K -> good cmp order alloc off A c ->
  exists s' rs A' K' n l, play_c cmp order alloc off s c = Ok (s', rs, n) /\
    logged cmp order alloc A c rs A' l /\
    pays n (bill l) (size (queue A)) (size (queue A')) K (root s) K' (root s') /\ Inv alloc s' A' K'.
Proof.
  induction c as [|o k IH]; intros s A K I Hg; cbn [play_c].
  - exists s, [], A, K, 0, []. split; [done|]. split; [constructor|]. split; [by apply pays_none|done].
  - destruct Hg as [Hm Hk]. destruct (step_Ok_c s A K o I Hm) as (s1 & r & A1 & K1 & n1 & -> & Hp1 & He & I1). bind.
    destruct (IH r s1 A1 K1 I1 (Hk _ _ He)) as (s2 & rs & A2 & K2 & n2 & l & -> & Ht & Hp2 & I2). bind.
    exists s2, (r :: rs), A2, K2, (n1 + n2), ((o, size (queue A)) :: l).
    split; [by rewrite Nat.add_0_r|]. split; [by econstructor|]. split; [|done].
    by eapply pays_trans.
Qed.

Lemma logged_trace A c rs A' l : logged cmp order alloc A c rs A' l -> trace cmp order alloc A c rs A'.
Proof. induction 1; by econstructor. Qed.

Lemma play_Ok c s A K : Inv alloc s A K -> good cmp order alloc off A c ->
  exists s' rs A' K', play cmp order alloc off s c = Ok (s', rs) /\ trace cmp order alloc A c rs A' /\ Inv alloc s' A' K'.
Proof.
  intros I Hg. destruct (play_Ok_c c s A K I Hg) as (s' & rs & A' & K' & n & q & Hp & Hb & _ & I').
  exists s', rs, A', K'. split; [by rewrite <- play_untick, Hp|]. split; [by eapply logged_trace|done].
Qed.

Lemma plain_worn A c rs A' : trace cmp order alloc A c rs A' -> plain c -> worn A = false -> worn A' = false.
Proof.
  induction 1 as [|A o k r A1 rs A2 He _ IH]; [done|]. intros [Ho Hk] Hw. apply IH; [done|].
  destruct He; cbn; try done.
  - by destruct (t =? e).
  - by destruct (t =? ans).
  - by destruct H0.
  - by destruct H0.
  - by destruct H0.
  - destruct H1 as [->|[->| ->]]; done.
Qed.

Lemma history c : good cmp order alloc off start c ->
  exists s rs A, play cmp order alloc off pq_init c = Ok (s, rs) /\ trace cmp order alloc start c rs A /\ shows cmp order s A.
Proof.
  intros Hg. destruct (play_Ok c pq_init start ∅ init_Inv Hg) as (s & rs & A & K & Hp & Ht & I).
  exists s, rs, A. split; [done|]. split; [done|]. by eapply Inv_shows.
Qed.

Lemma history_front c : good cmp order alloc off start c ->
  exists s rs A, play cmp order alloc off pq_init c = Ok (s, rs) /\ trace cmp order alloc start c rs A /\ shows cmp order s A /\
    front_of cmp order (vals A) (queue A) (pq_front s) /\
    (exists s' l, drain cmp order alloc (size (queue A)) s = Ok (s', l) /\ pq_size s' = 0%Z /\ pq_front s' = 0 /\
      map fst l ≡ₚ elements (queue A) /\ Forall (fun p => vals A !! fst p = Some (snd p)) l /\
      StronglySorted (fun p q => cmp (snd q) (snd p) <> order) l) /\
    (plain c -> pq_validate cmp order s = Ok true).
Proof.
  intros Hg. destruct (play_Ok c pq_init start ∅ init_Inv Hg) as (s & rs & A & K & Hp & Ht & I).
  exists s, rs, A. split_and!; [done|done|by eapply Inv_shows| | |].
  - unfold pq_front. rewrite (i_top _ _ _ _ I). by eapply Inv_front.
  - destruct (drain_Inv _ s A K true I eq_refl) as (s' & K' & ps & q & Hd & _ & _ & Hpm & Hf & Hs & I').
    exists s', ps. split_and!; try done; [apply I'|apply I'].
  - intros Hpl. eapply validate_Inv; [done|]. by eapply plain_worn.
Qed.

Lemma after_clear c : good cmp order alloc off start c -> forall fn,
  exists s rs A s' ps, play cmp order alloc off pq_init c = Ok (s, rs) /\ trace cmp order alloc start c rs A /\
    pq_clear cmp order alloc s fn = Ok (s', OK, if fn then map (fun p => (fst p, Some (snd p))) ps else []) /\
    map fst ps ≡ₚ elements (queue A) /\ Forall (fun p => vals A !! fst p = Some (snd p)) ps /\
    shows cmp order s' (View ∅ 0 (if alloc then foldr delete (vals A) (map fst ps) else vals A)
           (if alloc then idle A else queue A ∪ idle A) false).
Proof.
  intros Hg fn. destruct (play_Ok c pq_init start ∅ init_Inv Hg) as (s & rs & A & K & Hp & Ht & I).
  destruct (drain_Inv _ s A K fn I eq_refl) as (s' & K' & ps & q & _ & Hc & _ & Hpm & Hf & Hs & I').
  exists s, rs, A, s', ps. split_and!; try done.
  - rewrite <- clear_untick. unfold pq_clear_c. by rewrite (i_sz _ _ _ _ I), Nat2Z.id, Hc.
  - by apply (Inv_shows _ _ _ I').
Qed.

End calls.
End order.
End forest.
