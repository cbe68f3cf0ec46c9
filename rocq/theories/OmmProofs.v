(** The multimap's tree and rings of duplicates: every change of links keeps them
    in shape. The tree is followed on a plain tree, the shadow, in which the tree
    nodes with duplicates have their parents back. *)
From Coq Require Import Sorted.
From stdpp Require Import base numbers option gmap fin_maps list.
From Verif Require Import Common LinkHeap PathLemmas OrderSpec TreeModel TreeProofs SplayModel SplayProofs
  OmModel OmmModel.

Local Ltac bind := cbn [mbind outcome_bind obind].

Notation rep := (rep nil).
Notation ptr := (ptr nil).

(** ** Circles *)

Definition circle (m : fld) (l : list nat) : Prop := path m l (hd 0 l).

Lemma circle_next m l1 x l2 : circle m (l1 ++ x :: l2) -> m !! x = Some (hd x (l2 ++ l1)).
Proof.
  unfold circle. intros [_ [H _]]%path_app. rewrite H. f_equal. rewrite hd_app.
  destruct l2; [cbn|done]. by destruct l1.
Qed.

Lemma circle_del m l1 x l2 p :
  NoDup (l1 ++ x :: l2) -> circle m (l1 ++ x :: l2) -> last (l2 ++ l1) = Some p ->
  circle (<[p := hd x (l2 ++ l1)]> m) (l1 ++ l2).
Proof.
  unfold circle. intros Hnd Hp Hl. apply path_app in Hp as [H1 H2].
  apply NoDup_app in Hnd as (Hnd1 & Hdis & [Hx Hnd2]%NoDup_cons). cbn [path] in H2. destruct H2 as [_ H2].
  assert (l1 = [] \/ l1 <> []) as [-> |Hne1] by (destruct l1; auto); cbn [app hd] in *.
  - rewrite app_nil_r in *. destruct l2 as [|y l2]; [done|]. by apply (path_last m _ x).
  - destruct l1 as [|y l1]; [done|]. cbn [hd app] in *. rewrite last_app_cons in Hl.
    rewrite app_comm_cons. apply path_app. split.
    + assert (hd y l2 = hd x (l2 ++ y :: l1)) as -> by (by destruct l2). by apply (path_last m _ x).
    + apply path_upd; [|done]. intros Hin. apply (Hdis p).
      * apply last_Some in Hl as [zs ->]. rewrite elem_of_app. right. left.
      * by right.
Qed.

Lemma circle_app m l e p :
  NoDup l -> e ∉ l -> circle m l -> last l = Some p ->
  circle (<[e := hd 0 l]> (<[p := e]> m)) (l ++ [e]).
Proof.
  unfold circle. intros Hnd He Hp Hl. destruct l as [|d r]; [done|]. cbn [hd app] in *.
  rewrite app_comm_cons. apply path_app. split.
  - apply path_upd; [done|]. by apply (path_last m _ d).
  - cbn. by rewrite lookup_insert.
Qed.

Lemma circle_cons m l e p :
  NoDup l -> e ∉ l -> circle m l -> last l = Some p ->
  circle (<[e := hd 0 l]> (<[p := e]> m)) (e :: l).
Proof.
  unfold circle. intros Hnd He Hp Hl. destruct l as [|d r]; [done|]. cbn [hd] in *.
  change (path (<[e:=d]> (<[p:=e]> m)) ([e] ++ d :: r) e). apply path_app. split.
  - cbn. by rewrite lookup_insert.
  - apply path_upd; [done|]. by apply (path_last m _ d).
Qed.

Lemma circle_ext m m' l : (forall x, x ∈ l -> m' !! x = m !! x) -> circle m l -> circle m' l.
Proof. apply path_ext. Qed.

Lemma hd_rev_last {A} (l : list A) p x : last l = Some p -> hd x (rev l) = p.
Proof. intros [zs ->]%last_Some. by rewrite rev_app_distr. Qed.
Lemma last_rev_hd {A} (l : list A) d r : l = d :: r -> last (rev l) = Some d.
Proof. intros ->. cbn. apply last_snoc. Qed.
Lemma elem_of_rev {A} (l : list A) x : x ∈ rev l <-> x ∈ l.
Proof. rewrite !elem_of_list_In. symmetry. apply in_rev. Qed.

(** The duplicates of [n], oldest first, linked in a circle. *)
Definition linked (h : links) (l : list nat) : Prop := circle (rt h) l /\ circle (lf h) (rev l).
Definition ring (h : links) (n : nat) (ds : list nat) : Prop :=
  match ds with
  | [] => True
  | d :: r => pa h !! n = Some d /\ linked h ds /\ Forall (fun x => pa h !! x = Some 0) r
  end.

Lemma linked_next h l1 x l2 : linked h (l1 ++ x :: l2) -> rt h !! x = Some (hd x (l2 ++ l1)).
Proof. intros [H _]. by apply circle_next. Qed.
Lemma linked_prev h l1 x l2 : linked h (l1 ++ x :: l2) -> lf h !! x = Some (hd x (rev (l2 ++ l1))).
Proof.
  intros [_ H]. rewrite rev_app_distr in H. cbn in H. rewrite <- app_assoc in H. cbn in H.
  rewrite rev_app_distr. by apply circle_next.
Qed.

Lemma linked_ext h h' l : (forall x, x ∈ l -> lf h' !! x = lf h !! x /\ rt h' !! x = rt h !! x) ->
  linked h l -> linked h' l.
Proof.
  intros He [H1 H2]. split; [eapply circle_ext; [|exact H1]|eapply circle_ext; [|exact H2]].
  - intros x Hx. by apply He.
  - intros x Hx. rewrite elem_of_rev in Hx. by apply He.
Qed.

(** Unlinking [x], whose neighbours are [p] and [n]. *)
Lemma linked_del h l1 x l2 p n :
  NoDup (l1 ++ x :: l2) -> linked h (l1 ++ x :: l2) -> lf h !! x = Some p -> rt h !! x = Some n -> n <> x ->
  linked (set_br (set_br h true p n) false n p) (l1 ++ l2).
Proof.
  intros Hnd Hl Hp Hn Hne. pose proof (linked_next _ _ _ _ Hl) as Hn'. pose proof (linked_prev _ _ _ _ Hl) as Hp'.
  assert (n = hd x (l2 ++ l1)) as En by congruence. assert (p = hd x (rev (l2 ++ l1))) as Ep by congruence.
  destruct (l2 ++ l1) as [|y l] eqn:El; [done|]. cbn [hd] in En. subst y.
  destruct (last_cons_inv n l) as (zs & z & Hz & Hlast). rewrite (hd_rev_last _ _ x Hlast) in Ep. subst z.
  destruct Hl as [H1 H2]. split; cbn.
  - pose proof (circle_del (rt h) l1 x l2 p Hnd H1) as H. rewrite El in H. by apply H.
  - rewrite rev_app_distr in *. cbn in H2. rewrite <- app_assoc in H2. cbn in H2.
    pose proof (circle_del (lf h) (rev l2) x (rev l1) n) as H.
    rewrite <- rev_app_distr, El in H. rewrite (hd_rev_last _ _ x Hlast) in H. apply H; [|done|].
    + apply NoDup_ListNoDup. replace (rev l2 ++ x :: rev l1) with (rev (l1 ++ x :: l2)).
      * by apply NoDup_rev, NoDup_ListNoDup.
      * rewrite rev_app_distr. cbn. by rewrite <- app_assoc.
    + by apply (last_rev_hd _ n l).
Qed.

(** Linking [e] between the last and the first. *)
Lemma linked_app h d r e p :
  NoDup (d :: r) -> e ∉ d :: r -> linked h (d :: r) -> lf h !! d = Some p ->
  linked (set_br (set_br (set_br (set_br h true p e) false d e) true e d) false e p) ((d :: r) ++ [e]).
Proof.
  intros Hnd He Hl Hp. pose proof (linked_prev h [] d r Hl) as Hp'. rewrite app_nil_r in Hp'.
  destruct Hl as [H1 H2].
  assert (last (d :: r) = Some p) as Hlast.
  { assert (p = hd d (rev r)) as -> by congruence. destruct r as [|y r]; [done|].
    destruct (last_cons_inv y r) as (zs & z & Hz & Hlast). rewrite (hd_rev_last _ _ d Hlast).
    by rewrite last_cons_cons. }
  split; cbn [lf rt set_br br].
  - by apply (circle_app (rt h) (d :: r) e p).
  - rewrite rev_app_distr. cbn [rev app].
    replace p with (hd 0 (rev r ++ [d])) at 1 by (apply (hd_rev_last (d :: r)), Hlast).
    apply circle_cons; [|by rewrite (elem_of_rev (d :: r))|done|apply last_snoc].
    apply NoDup_ListNoDup. change (rev r ++ [d]) with (rev (d :: r)). by apply NoDup_rev, NoDup_ListNoDup.
Qed.

(** The node that keeps the parent of tree node [n]. *)
Notation keeper D n := (hd n (D n)).

Definition apart (N : list nat) (D : nat -> list nat) : Prop :=
  NoDup N /\ nil ∉ N /\ 0 ∉ N /\ (forall n, NoDup (D n)) /\
  (forall n x, x ∈ D n -> x ∉ N /\ x <> nil /\ x <> 0) /\
  (forall n m x, x ∈ D n -> x ∈ D m -> n = m).

Definition shadow (D : nat -> list nat) (N : list nat) (g h : links) : Prop :=
  lf h = lf g /\ rt h = rt g /\
  (forall z, is_Some (pa h !! z) <-> is_Some (pa g !! z)) /\
  (forall n, n ∈ nil :: N -> pa g !! n = pa h !! keeper D n) /\
  (forall n, n ∈ N -> ring h n (D n)) /\ D nil = [] /\ apart N D.

(** Links stay within [N], and no node of [N] is in a circle of two. *)
Definition tidy (N : list nat) (g : links) : Prop :=
  live g nil /\
  (forall n, n ∈ N -> (exists p, pa g !! n = Some p /\ p ∈ nil :: N) /\
     forall d, exists c, br g d !! n = Some c /\ c ∈ nil :: N) /\
  (forall p c, p ∈ N -> lf g !! p = Some c -> c ∈ N -> rt g !! c <> Some p).

Definition dup (D : nat -> list nat) (n : nat) : bool := match D n with [] => false | _ => true end.

Lemma dup_false D n : dup D n = false -> D n = [].
Proof. unfold dup. by destruct (D n). Qed.

Lemma keeper_inj N D n m : apart N D -> D nil = [] -> n ∈ nil :: N -> m ∈ nil :: N ->
  keeper D n = keeper D m -> n = m.
Proof.
  intros (_ & _ & _ & _ & Hd & Hi) Hn0 Hn Hm. destruct (D n) as [|a r] eqn:En, (D m) as [|b r'] eqn:Em; cbn; intros He.
  - done.
  - subst b. destruct (Hd m n) as (Hz & Hz' & _); [rewrite Em; left|].
    by apply elem_of_cons in Hn as [?|?].
  - subst a. destruct (Hd n m) as (Hz & Hz' & _); [rewrite En; left|].
    by apply elem_of_cons in Hm as [?|?].
  - subst b. apply (Hi n m a); [rewrite En|rewrite Em]; left.
Qed.

Lemma tidy_live N g z : tidy N g -> z ∈ nil :: N -> live g z.
Proof.
  intros (Hl & Hc & _) [-> |Hz]%elem_of_cons; [done|]. destruct (Hc z Hz) as [(p & Hp & _) Hb].
  destruct (Hb false) as (l & Hlf & _). destruct (Hb true) as (r & Hrt & _). cbn in *. split_and!; eauto.
Qed.

Lemma shadow_br D N g h d : shadow D N g h -> br h d = br g d.
Proof. intros (Hl & Hr & _). by destruct d. Qed.

Lemma shadow_live D N g h z : shadow D N g h -> live g z <-> live h z.
Proof. intros (Hl & Hr & Hp & _). unfold live. rewrite Hl, Hr, Hp. done. Qed.

Lemma ring_last h n d r : ring h n (d :: r) -> exists z, z ∈ d :: r /\ lf h !! d = Some z /\ rt h !! z = Some d.
Proof.
  intros (_ & Hl & _). pose proof (linked_prev h [] d r Hl) as Hp. rewrite app_nil_r in Hp.
  destruct Hl as [Hr _].
  destruct r as [|y r]; [exists d; split; [left|]; split; [done|]; apply (circle_next (rt h) [] d []); done|].
  destruct (last_cons_inv y r) as (zs & z & Hz & Hlast). rewrite (hd_rev_last _ _ d Hlast) in Hp.
  exists z. split_and!; [|done|].
  - right. rewrite Hz, elem_of_app. right. left.
  - rewrite Hz in Hr. pose proof (circle_next (rt h) (d :: zs) z [] Hr) as H. done.
Qed.

Lemma has_dups_Ok D N g h n :
  shadow D N g h -> tidy N g -> n ∈ nil :: N -> has_dups h n = Ok (dup D n).
Proof.
  intros (Hl & Hr & _ & Hp & Hring & Hn0 & Hap) Ht Hn. unfold has_dups.
  destruct (Nat.eqb_spec n nil) as [-> |Hne].
  { unfold dup. by rewrite Hn0. }
  apply elem_of_cons in Hn as [Hn|Hn]; [done|].
  unfold dup. specialize (Hp n (elem_of_list_further _ _ _ Hn)). specialize (Hring n Hn).
  destruct Hap as (_ & Hnn & _ & _ & Hd & _). specialize (Hd n).
  destruct (D n) as [|d r] eqn:ED.
  - cbn in Hp. destruct Ht as (_ & Hc & HNC). destruct (Hc n Hn) as [(p & Hpa & Hpin) _].
    rewrite (rd_Ok _ _ p) by congruence. bind. destruct (Nat.eqb_spec p nil) as [|Hpn]; [done|].
    apply elem_of_cons in Hpin as [?|Hpin]; [done|].
    destruct (Hc p Hpin) as [_ Hbr]. destruct (Hbr false) as (c & Hcl & Hcin). cbn in Hcl.
    rewrite (rd_Ok _ _ c) by congruence. bind. destruct (Nat.eqb_spec c nil) as [|Hcn]; [done|].
    apply elem_of_cons in Hcin as [?|Hcin]; [done|].
    destruct (Hc c Hcin) as [_ Hbr']. destruct (Hbr' true) as (q & Hq & _). cbn in Hq.
    rewrite (rd_Ok _ _ q) by congruence. bind. destruct (Nat.eqb_spec q p) as [-> |]; [|done].
    exfalso. by apply (HNC p c).
  - destruct (ring_last h n d r Hring) as (z & Hz & Hlz & Hrz).
    destruct Hring as (Hpn & _). rewrite (rd_Ok _ _ _ Hpn). bind.
    destruct (Nat.eqb_spec d nil) as [-> |]. { destruct (Hd nil); [left|]. tauto. }
    rewrite (rd_Ok _ _ _ Hlz). bind.
    destruct (Nat.eqb_spec z nil) as [-> |]. { by destruct (Hd nil Hz) as (_ & ? & _). }
    rewrite (rd_Ok _ _ _ Hrz). bind. by rewrite Nat.eqb_refl.
Qed.

Lemma parent_r_Ok D N g h n :
  shadow D N g h -> tidy N g -> n ∈ N -> parent_r h n = rd (pa g) n.
Proof.
  intros Hs Ht Hn. unfold parent_r. assert (n ∈ nil :: N) as Hn' by (by right).
  rewrite (has_dups_Ok D N g h) by done. bind.
  destruct Hs as (_ & _ & _ & Hp & Hring & _). specialize (Hp n Hn'). specialize (Hring n Hn).
  unfold dup. destruct (D n) as [|d r]; cbn [hd] in Hp; [unfold rd; by rewrite Hp|].
  destruct Hring as (Hd & _). rewrite (rd_Ok _ _ _ Hd). bind. unfold rd. by rewrite Hp.
Qed.

Lemma ring_ext h h' n ds :
  (forall x, x ∈ ds -> lf h' !! x = lf h !! x /\ rt h' !! x = rt h !! x) ->
  (forall x, x ∈ tail ds -> pa h' !! x = pa h !! x) -> (ds <> [] -> pa h' !! n = pa h !! n) ->
  ring h n ds -> ring h' n ds.
Proof.
  intros H1 H2 H3. destruct ds as [|d r]; [done|]. cbn [ring tail] in *. intros (Hp & Hl & H0).
  rewrite H3 by done. split_and!; [done| |].
  - by apply (linked_ext h).
  - rewrite Forall_forall in *. intros x Hx. rewrite H2; auto.
Qed.

Lemma shadow_set_br D N g h d p q :
  p ∈ nil :: N -> is_Some (br g d !! p) -> shadow D N g h -> shadow D N (set_br g d p q) (set_br h d p q).
Proof.
  intros Hp Hsome (Hl & Hr & Hdom & Hpa & Hring & Hn0 & Hap). unfold shadow. rewrite !pa_set_br.
  split_and!; try done.
  - destruct d; cbn; congruence.
  - destruct d; cbn; congruence.
  - intros n Hn. apply (ring_ext h).
    + intros x Hx. destruct Hap as (_ & _ & _ & _ & Hd & _). destruct (Hd n x Hx) as (HxN & Hxn & _).
      assert (p <> x) by (intros ->; by apply elem_of_cons in Hp as [?|?]).
      destruct d; cbn; by rewrite ?lookup_insert_ne.
    + intros x _. by rewrite pa_set_br.
    + intros _. by rewrite pa_set_br.
    + auto.
Qed.

Lemma shadow_set_pa D N g h q p :
  q ∈ nil :: N -> tidy N g -> shadow D N g h -> shadow D N (set_pa g q p) (set_pa h (keeper D q) p).
Proof.
  intros Hq Htidy (Hl & Hr & Hdom & Hpa & Hring & Hn0 & Hap). unfold shadow.
  assert (is_Some (pa g !! q)) as Hq' by (apply live_pa, (tidy_live N); done).
  assert (is_Some (pa h !! keeper D q)) as Hq2 by (by rewrite <- Hpa).
  split_and!; try done.
  - intros z. cbn. destruct (decide (z = q)) as [-> |Hz].
    + rewrite lookup_insert. destruct (decide (keeper D q = q)) as [Heq|Hne].
      * rewrite Heq, lookup_insert. done.
      * rewrite lookup_insert_ne by done. split; [by eauto|]. intros _. by apply Hdom.
    + rewrite (lookup_insert_ne _ q) by done. destruct (decide (keeper D q = z)) as [<- |Hne].
      * rewrite lookup_insert. split; [|by eauto]. intros _. by apply Hdom.
      * rewrite lookup_insert_ne by done. apply Hdom.
  - intros n Hn. cbn. destruct (decide (n = q)) as [-> |Hne]; [by rewrite !lookup_insert|].
    rewrite lookup_insert_ne by done. rewrite lookup_insert_ne; [auto|].
    intros He. apply Hne. symmetry. by apply (keeper_inj N D).
  - intros n Hn. apply (ring_ext h); [done| | |auto].
    + intros x Hx. cbn. rewrite lookup_insert_ne; [done|]. intros <-.
      destruct Hap as (_ & _ & _ & Hnd & Hd & Hi).
      assert (keeper D q ∈ D n) as Hin by (destruct (D n); [by apply elem_of_nil in Hx|by right]).
      destruct (D q) as [|d r] eqn:ED; cbn in *.
      * destruct (Hd n q Hin) as (? & ? & _). by apply elem_of_cons in Hq as [?|?].
      * assert (n = q) as -> by (apply (Hi n q d); [done|rewrite ED; left]).
        specialize (Hnd q). rewrite ED in Hnd, Hx. by apply NoDup_cons in Hnd as [? _].
    + intros Hne. cbn. rewrite lookup_insert_ne; [done|]. intros He.
      destruct (D q) as [|d r] eqn:ED; cbn in *; [subst; by rewrite ED in Hne|].
      subst d. destruct Hap as (_ & _ & _ & _ & Hd & _). destruct (Hd q n) as (? & _); [rewrite ED; left|done].
Qed.

Lemma tidy_set_br N g d p q :
  tidy N g -> nil ∉ N -> p ∈ nil :: N -> q ∈ nil :: N -> safe nil g p d q -> tidy N (set_br g d p q).
Proof.
  intros (Hl & Hc & HNC) HnN Hp Hq Hs. split_and!.
  - by apply live_set_br.
  - intros n Hn. rewrite pa_set_br. destruct (Hc n Hn) as [H1 H2]. split; [done|].
    intros d'. destruct (decide (d = d' /\ p = n)) as [[-> ->]|Hne].
    + rewrite br_set_br_eq. by exists q.
    + rewrite br_set_br_ne; [auto|]. destruct (decide (d = d')); [right|left]; [|done]. intros ->. by apply Hne.
  - intros p' c Hp' Hlf HcN Hrt. destruct d; cbn in Hlf, Hrt.
    + destruct (decide (p = c)) as [-> |Hne].
      * rewrite lookup_insert in Hrt. injection Hrt as ->. destruct Hs as [-> |[-> |Hs]]; try done.
      * rewrite lookup_insert_ne in Hrt by done. by apply (HNC p' c).
    + destruct (decide (p = p')) as [-> |Hne].
      * rewrite lookup_insert in Hlf. injection Hlf as ->. destruct Hs as [-> |[-> |Hs]]; try done.
      * rewrite lookup_insert_ne in Hlf by done. by apply (HNC p' c).
Qed.

Lemma tidy_set_pa N g q p : tidy N g -> p ∈ nil :: N -> tidy N (set_pa g q p).
Proof.
  intros (Hl & Hc & HNC) Hp. split_and!; [by apply live_set_pa| |done].
  intros n Hn. destruct (Hc n Hn) as [(p' & H1 & H1') H2]. split; [|done].
  cbn. destruct (decide (q = n)) as [-> |Hne]; [rewrite lookup_insert|rewrite lookup_insert_ne by done]; eauto.
Qed.

(** The nodes of the tree and of the rings. *)
Definition span (D : nat -> list nat) (N : list nat) (z : nat) : Prop :=
  z = nil \/ exists n, n ∈ N /\ z ∈ n :: D n.
Definition same (h h' : links) (z : nat) : Prop :=
  lf h' !! z = lf h !! z /\ rt h' !! z = rt h !! z /\ pa h' !! z = pa h !! z.
(** Nothing else changes. *)
Record within (D : nat -> list nat) (N : list nat) (h h' : links) : Prop := {
  within_same : forall z, ~ span D N z -> same h h' z;
  within_live : forall z, live h z -> live h' z }.

Lemma same_trans h h1 h2 z : same h h1 z -> same h1 h2 z -> same h h2 z.
Proof. intros (H1 & H2 & H3) (H4 & H5 & H6). split_and!; congruence. Qed.
Lemma same_set_br h d p q z : p <> z -> same h (set_br h d p q) z.
Proof. intros Hz. destruct d; split_and!; cbn; by rewrite ?lookup_insert_ne. Qed.
Lemma same_set_pa h p q z : p <> z -> same h (set_pa h p q) z.
Proof. intros Hz. split_and!; cbn; by rewrite ?lookup_insert_ne. Qed.
Lemma same_br h h' d z : same h h' z -> br h' d !! z = br h d !! z.
Proof. intros (H1 & H2 & _). by destruct d. Qed.
Lemma same_live h h' z : same h h' z -> live h z -> live h' z.
Proof. unfold live. by intros (-> & -> & ->). Qed.

Lemma within_refl D N h : within D N h h.
Proof. by split. Qed.
Lemma within_trans D N h h1 h2 : within D N h h1 -> within D N h1 h2 -> within D N h h2.
Proof. intros [H1 L1] [H2 L2]. split; [|auto]. intros z Hz. eapply same_trans; [by apply H1|by apply H2]. Qed.
Lemma within_set_br D N h d p q : span D N p -> within D N h (set_br h d p q).
Proof. intros Hp. split; intros z Hz; [apply same_set_br; by intros -> |by apply live_set_br]. Qed.
Lemma within_set_pa D N h p q : span D N p -> within D N h (set_pa h p q).
Proof. intros Hp. split; intros z Hz; [apply same_set_pa; by intros -> |by apply live_set_pa]. Qed.
Lemma span_in D N z : z ∈ nil :: N -> span D N z.
Proof. intros [-> |Hz]%elem_of_cons; [by left|right]. exists z. split; [done|left]. Qed.
Lemma span_keeper D N z : D nil = [] -> z ∈ nil :: N -> span D N (keeper D z).
Proof.
  intros Hn [-> |Hz]%elem_of_cons; [left; by rewrite Hn|right]. exists z. split; [done|].
  destruct (D z); cbn; [left|right; left].
Qed.

(** ** link_trees follows link_trees on the shadow *)

Definition follows (D : nat -> list nat) (N : list nat) (h0 g h : links) : Prop :=
  shadow D N g h /\ tidy N g /\ within D N h0 h.

Lemma follows_cut D N h0 g h d p q g1 :
  follows D N h0 g h -> p ∈ nil :: N -> q ∈ nil :: N -> safe nil g p d q -> wbr g d p q = Ok g1 ->
  exists h1, wbr h d p q = Ok h1 /\ follows D N h0 g1 h1.
Proof.
  intros (Hs & Ht & Hw) Hp Hq Hsafe Hg1.
  assert (is_Some (br g d !! p)) as Hbr by (apply live_br, (tidy_live N); done).
  rewrite wbr_Ok in Hg1 by done. injection Hg1 as <-.
  exists (set_br h d p q). split; [apply wbr_Ok; by rewrite (shadow_br D N g h)|]. split_and!.
  - by apply shadow_set_br.
  - apply tidy_set_br; try done. destruct Hs as (_ & _ & _ & _ & _ & _ & _ & ? & _). done.
  - eapply within_trans; [exact Hw|]. apply within_set_br. by apply span_in.
Qed.

Lemma mlink_follows D N h0 g h p d q g1 :
  follows D N h0 g h -> link_chk nil N g p d q = Ok g1 ->
  exists h1, mlink h p d q = Ok h1 /\ follows D N h0 g1 h1.
Proof.
  intros Hf (Hp & Hq & Hsafe & Hg1)%link_chk_inv. unfold link_trees in Hg1.
  destruct (wbr g d p q) as [g'| |] eqn:Eg; try done.
  destruct (follows_cut D N h0 g h d p q g' Hf Hp Hq Hsafe Eg) as (h' & Hh' & Hs & Ht & Hw).
  unfold mlink. rewrite Hh'. bind. rewrite (has_dups_Ok D N g' h') by done. bind.
  cbn [mbind outcome_bind obind] in Hg1.
  assert (is_Some (pa g' !! q)) as Hq' by (apply live_pa, (tidy_live N); done).
  rewrite wpa_Ok in Hg1 by done. injection Hg1 as <-.
  assert (is_Some (pa h' !! keeper D q)) as Hq2 by (destruct Hs as (_ & _ & _ & Hpa & _); by rewrite <- Hpa).
  exists (set_pa h' (keeper D q) p). split.
  - pose proof Hs as (_ & _ & _ & _ & Hring & Hn0 & _).
    unfold dup. destruct (D q) as [|e r] eqn:ED; cbn in *; [by apply wpa_Ok|].
    apply elem_of_cons in Hq as [-> |Hq]; [congruence|]. specialize (Hring q Hq). rewrite ED in Hring.
    destruct Hring as (Hpq & _). rewrite (rd_Ok _ _ _ Hpq). bind. by apply wpa_Ok.
  - split_and!; [by apply shadow_set_pa|by apply tidy_set_pa|].
    eapply within_trans; [exact Hw|]. apply within_set_pa.
    apply span_keeper; [|done]. by destruct Hs as (_ & _ & _ & _ & _ & ? & _).
Qed.

Lemma start_follows D N h0 g h g1 :
  follows D N h0 g h -> set_links g nil nil = Ok g1 ->
  exists h1, set_links h nil nil = Ok h1 /\ follows D N h0 g1 h1.
Proof.
  intros Hf. unfold set_links.
  assert (nil ∈ nil :: N) as Hin by left.
  destruct (wbr g false nil nil) as [ga| |] eqn:Ea; try done. bind.
  destruct (follows_cut D N h0 g h false nil nil ga Hf Hin Hin) as (ha & -> & Hfa); [by left|done|]. bind.
  destruct (wbr ga true nil nil) as [gb| |] eqn:Eb; try done. bind.
  destruct (follows_cut D N h0 ga ha true nil nil gb Hfa Hin Hin) as (hb & -> & Hs & Ht & Hw); [by left|done|]. bind.
  intros Hg1. rewrite wpa_Ok in Hg1 by (apply live_pa, (tidy_live N); done). injection Hg1 as <-.
  assert (D nil = []) as Hn0 by (by destruct Hs as (_ & _ & _ & _ & _ & ? & _)).
  assert (keeper D nil = nil) as Hk by (by rewrite Hn0).
  exists (set_pa hb nil nil). split.
  - apply wpa_Ok. destruct Hs as (_ & _ & _ & Hpa & _). rewrite <- Hk, <- Hpa by done.
    apply live_pa, (tidy_live N); done.
  - split_and!.
    + pose proof (shadow_set_pa D N gb hb nil nil Hin Ht Hs) as H. by rewrite Hk in H.
    + by apply tidy_set_pa.
    + eapply within_trans; [exact Hw|]. apply within_set_pa. by left.
Qed.

Lemma splay_follows D N h0 g h probe probe' r g1 x :
  (forall z c, probe z = Ok c -> probe' z = Ok c) ->
  follows D N h0 g h -> splay_by nil (link_chk nil N) probe g r = Ok (g1, x) ->
  exists h1, splay_by nil mlink probe' h r = Ok (h1, x) /\ follows D N h0 g1 h1.
Proof.
  intros Hprobe. apply (splay_by_sim nil (follows D N h0)).
  - intros g' h' (Hs & _). destruct Hs as (Hl & Hr & _). done.
  - intros g' h' p d q g2. apply mlink_follows.
  - done.
  - intros g' h' g2. apply start_follows.
Qed.

(** ** The tree with its rings *)

Definition flat (D : nat -> list nat) (N : list nat) (h : links) : links :=
  Links (lf h) (rt h) (foldr (fun n m => partial_alter (fun _ => pa h !! keeper D n) n m) (pa h) N).

Lemma flat_in D N h n : n ∈ N -> pa (flat D N h) !! n = pa h !! keeper D n.
Proof.
  cbn. induction N as [|m N IH]; [by intros ?%elem_of_nil|]. intros Hn. cbn.
  destruct (decide (m = n)) as [-> |Hne]; [by rewrite lookup_partial_alter|].
  rewrite lookup_partial_alter_ne by done. apply IH. by apply elem_of_cons in Hn as [?|?].
Qed.
Lemma flat_out D N h n : n ∉ N -> pa (flat D N h) !! n = pa h !! n.
Proof.
  cbn. induction N as [|m N IH]; [done|]. intros [Hm Hn]%not_elem_of_cons. cbn.
  rewrite lookup_partial_alter_ne by done. by apply IH.
Qed.
Lemma flat_br D N h d : br (flat D N h) d = br h d.
Proof. by destruct d. Qed.

Record wf (h : links) (t : tree) (D : nat -> list nat) : Prop := {
  wf_rep : rep (flat D (nodes t) h) nil t;
  wf_nil : live h nil;
  wf_ring : forall n, n ∈ nodes t -> ring h n (D n);
  wf_out : forall n, n ∉ nodes t -> D n = [];
  wf_apart : apart (nodes t) D }.

Lemma wf_D_nil h t D : wf h t D -> D nil = [].
Proof. intros H. apply (wf_out _ _ _ H). by destruct (wf_apart _ _ _ H) as (_ & ? & _). Qed.

Lemma wf_node h t D n : wf h t D -> n ∈ nodes t -> live (flat D (nodes t) h) n /\ live h n.
Proof.
  intros H Hn. pose proof (rep_live nil _ _ _ n (wf_rep _ _ _ H) Hn) as Hl. split; [done|].
  destruct Hl as (H1 & H2 & H3). split_and!; try done. rewrite flat_in in H3 by done.
  pose proof (wf_ring _ _ _ H n Hn) as Hr. destruct (D n) as [|d r]; [done|]. destruct Hr as (-> & _). eauto.
Qed.

Lemma wf_live h t D z : wf h t D -> span D (nodes t) z -> live h z.
Proof.
  intros H [-> |(n & Hn & Hz)]; [apply (wf_nil _ _ _ H)|].
  apply elem_of_cons in Hz as [-> |Hz]; [by apply (wf_node h t D)|].
  pose proof (wf_ring _ _ _ H n Hn) as Hr. destruct (wf_node h t D n H Hn) as [(_ & _ & Hpa) _].
  rewrite flat_in in Hpa by done.
  destruct (D n) as [|d r] eqn:ED; [by apply elem_of_nil in Hz|].
  destruct Hr as (_ & Hl & H0). pose proof Hz as Hz'. apply elem_of_list_split in Hz as (l1 & l2 & El).
  rewrite El in Hl. split_and!.
  - rewrite (linked_prev _ _ _ _ Hl). eauto.
  - rewrite (linked_next _ _ _ _ Hl). eauto.
  - apply elem_of_cons in Hz' as [-> |Hz']; [done|]. rewrite Forall_forall in H0. rewrite H0 by done. eauto.
Qed.

Lemma rep_closed g p t n : rep g p t -> n ∈ nodes t ->
  (exists q, pa g !! n = Some q /\ q ∈ p :: nodes t) /\
  forall d, exists c, br g d !! n = Some c /\ c ∈ nil :: nodes t.
Proof.
  revert p. induction t as [|l IHl x r IHr]; intros p Hr Hn; [by apply elem_of_nil in Hn|].
  destruct Hr as (Hlf & Hrt & Hpa & Hx & Hrl & Hrr). cbn [nodes] in *.
  assert (forall u, ptr u ∈ nil :: nodes u) as Hptr.
  { intros u. assert (u = E \/ u <> E) as [-> |Hne] by (destruct u; auto); [left|right; by apply ptr_in]. }
  assert (forall z, z ∈ nil :: nodes l \/ z ∈ nil :: nodes r -> z ∈ nil :: nodes l ++ x :: nodes r) as Hin.
  { intros z. rewrite !elem_of_cons, elem_of_app, elem_of_cons. tauto. }
  assert (forall z, z ∈ x :: nodes l \/ z ∈ x :: nodes r -> z ∈ p :: nodes l ++ x :: nodes r) as Hin'.
  { intros z. rewrite !elem_of_cons, elem_of_app, elem_of_cons. tauto. }
  apply elem_of_app in Hn as [Hn|[-> |Hn]%elem_of_cons].
  - destruct (IHl x Hrl Hn) as [(q & Hq & Hqi) Hc]. split; [eauto 6|]. intros d. destruct (Hc d) as (c & ? & ?). eauto 6.
  - split; [exists p; split; [done|left]|]. intros d. exists (ptr (if d then r else l)). split; [by destruct d|].
    apply Hin. destruct d; auto.
  - destruct (IHr x Hrr Hn) as [(q & Hq & Hqi) Hc]. split; [eauto 6|]. intros d. destruct (Hc d) as (c & ? & ?). eauto 6.
Qed.

Lemma rep_no_circle g p t x c : rep g p t -> NoDup (nodes t) -> x ∈ nodes t -> lf g !! x = Some c -> c ∈ nodes t ->
  rt g !! c <> Some x.
Proof.
  intros Hr Hnd Hx Hl Hc. assert (nil ∉ nodes t) as Hnil by (by apply (rep_nil nil g p)).
  destruct (find_sub nil g p true t x Hr Hx) as (u & v & q & a & b & Hrs & Ho). cbn [ord] in Ho.
  assert (NoDup (nodes (mk true a x b))) as Hnd'.
  { rewrite Ho in Hnd. apply NoDup_app in Hnd as (_ & _ & Hnd). by apply NoDup_app in Hnd as (? & _). }
  apply mk_NoDup in Hnd' as (Hxa & _). destruct Hrs as (Hla & _ & _ & Hxn & Hra & _).
  assert (c = ptr a) as -> by congruence.
  destruct a as [|a1 y a2]; [done|]. cbn [ptr] in *. destruct Hra as (_ & Hry & _).
  rewrite Hry. intros [= Hy]. apply Hxa. cbn [nodes]. rewrite elem_of_app, elem_of_cons. right. right.
  rewrite <- Hy. apply ptr_in. intros ->. cbn in Hy. congruence.
Qed.

Lemma rep_tidy g t : rep g nil t -> live g nil -> NoDup (nodes t) -> tidy (nodes t) g.
Proof.
  intros Hr Hl Hnd. split_and!; [done|..].
  - intros n Hn. by apply (rep_closed g nil).
  - intros p c Hp Hc Hin. by apply (rep_no_circle g nil t).
Qed.

(** Elements about to be linked. *)
Definition fresh (h : links) (t : tree) (D : nat -> list nat) (e : nat) : Prop :=
  ~ span D (nodes t) e /\ e <> 0 /\
  lf h !! e = Some nil /\ rt h !! e = Some nil /\ pa h !! e = Some nil.

Lemma fresh_not h t D e : fresh h t D e -> e <> nil /\ e <> 0 /\ e ∉ nodes t /\ (forall n, n ∈ nodes t -> e ∉ D n).
Proof.
  intros (Hs & H0 & _). split_and!; [|done|..].
  - intros ->. apply Hs. by left.
  - intros Hn. apply Hs. right. exists e. split; [done|left].
  - intros n Hn He. apply Hs. right. exists n. split; [done|by right].
Qed.

Lemma wf_follows h t D es :
  wf h t D -> NoDup es -> (forall e, e ∈ es -> fresh h t D e) ->
  follows D (es ++ nodes t) h (flat D (nodes t) h) h.
Proof.
  intros H Hes Hfr. pose proof H as [Hrep Hlive Hring Hout Hap]. pose proof (wf_D_nil _ _ _ H) as Hn0.
  pose proof Hap as (Hnd & HnN & H0N & HD & Hd & Hi).
  set (g := flat D (nodes t) h).
  assert (live g nil) as Hlg.
  { destruct Hlive as (H1 & H2 & H3). unfold g. split_and!; try done. by rewrite flat_out. }
  assert (tidy (nodes t) g) as Htidy by (by apply rep_tidy).
  assert (forall e, e ∈ es -> e <> nil /\ e <> 0 /\ e ∉ nodes t /\ (forall n, e ∉ D n)) as Hes'.
  { intros e He. destruct (fresh_not h t D e (Hfr e He)) as (? & ? & ? & HeD). split_and!; try done.
    intros n Hn. destruct (decide (n ∈ nodes t)) as [Hin|Hnin]; [by apply (HeD n)|].
    rewrite (Hout n Hnin) in Hn. by apply elem_of_nil in Hn. }
  assert (forall e, e ∈ es -> lf g !! e = Some nil /\ rt g !! e = Some nil /\ pa g !! e = Some nil) as Hfld.
  { intros e He. destruct (Hfr e He) as (_ & _ & ? & ? & ?). destruct (Hes' e He) as (_ & _ & ? & _).
    unfold g. rewrite flat_out by done. done. }
  split_and!.
  - unfold shadow. split_and!; try done.
    + intros z. destruct (decide (z ∈ nodes t)) as [Hz|Hz].
      * destruct (wf_node h t D z H Hz) as [(_ & _ & ?) (_ & _ & ?)]. done.
      * unfold g. by rewrite flat_out.
    + intros n Hn. destruct (decide (n ∈ nodes t)) as [Hz|Hz]; [by apply flat_in|].
      unfold g. rewrite flat_out by done. by rewrite Hout.
    + intros n Hn. destruct (decide (n ∈ nodes t)) as [Hz|Hz]; [auto|]. by rewrite Hout.
    + split_and!; try done.
      * apply NoDup_app. split_and!; [done| |done]. intros e He. by apply Hes'.
      * intros [He|He]%elem_of_app; [|done]. by apply Hes' in He as (? & _).
      * intros [He|He]%elem_of_app; [|done]. by apply Hes' in He as (_ & ? & _).
      * intros n x Hx. destruct (Hd n x Hx) as (? & ? & ?). split_and!; try done.
        intros [He|He]%elem_of_app; [|done]. by apply (Hes' x He) in Hx.
  - destruct Htidy as (Hln & Hc & HNC). split_and!; [done|..].
    + intros n [Hn|Hn]%elem_of_app.
      * destruct (Hfld n Hn) as (E1 & E2 & E3). split; [exists nil; split; [done|left]|].
        intros d. exists nil. split; [by destruct d|left].
      * destruct (Hc n Hn) as [(p & Hp & Hpi) Hb].
        assert (forall z, z ∈ nil :: nodes t -> z ∈ nil :: es ++ nodes t) as Hm.
        { intros z. rewrite !elem_of_cons, elem_of_app. tauto. }
        split; [eauto|]. intros d. destruct (Hb d) as (c & ? & ?). eauto.
    + intros p c Hp Hpc HcN Hr.
      assert (p ∈ nodes t) as Hpt.
      { apply elem_of_app in Hp as [Hp|Hp]; [|done]. destruct (Hfld p Hp) as (E1 & _).
        assert (c = nil) as -> by congruence. apply elem_of_app in HcN as [He|He]; [|done].
        by apply Hes' in He as (? & _). }
      apply elem_of_app in HcN as [He|He]; [|by apply (HNC p c)].
      destruct (Hfld c He) as (_ & E2 & _). assert (p = nil) by congruence. by subst.
  - apply within_refl.
Qed.

Lemma follows_wf h0 g h t D N :
  follows D N h0 g h -> rep g nil t -> NoDup (nodes t) -> (forall z, z ∈ nodes t -> z ∈ N) ->
  (forall n, n ∉ nodes t -> D n = []) -> wf h t D.
Proof.
  intros (Hs & Ht & _) Hr Hnd HN Hout. pose proof Hs as (Hl & Hrt & Hdom & Hpa & Hring & Hn0 & Hap).
  destruct Hap as (HndN & HnN & H0N & HD & Hd & Hi). split.
  - apply (rep_ext nil g); [|done]. intros z Hz. rewrite flat_in by done. cbn. rewrite Hl, Hrt.
    split_and!; [done..|]. rewrite Hpa; [done|]. right. auto.
  - apply (shadow_live D N g h); [done|]. apply Ht.
  - auto.
  - done.
  - split_and!; auto. intros n x Hx. destruct (Hd n x Hx) as (? & ? & ?). auto.
Qed.

Lemma follows_within D N h0 g h : follows D N h0 g h -> within D N h0 h.
Proof. by intros (_ & _ & ?). Qed.

Section order.
Context {K V : Type} (cmp : K -> K -> comparison) (Hcmp : total_preorder cmp) (dat : gmap nat (K * V)).
Notation sorted := (sorted cmp dat).

Lemma wf_splay h t D k :
  wf h t D -> t <> E -> sorted (nodes t) ->
  exists h' a x b kv, splay_by nil mlink (cmpk cmp dat k) h (ptr t) = Ok (h', x) /\ wf h' (T a x b) D /\
    nodes (T a x b) = nodes t /\ within D (nodes t) h h' /\ dat !! x = Some kv /\
    (forall z, z ∈ nodes a -> side cmp dat true k z) /\ (forall z, z ∈ nodes b -> side cmp dat false k z).
Proof.
  intros H Ht Hsort.
  pose proof (wf_follows h t D [] H) as Hf. cbn [app] in Hf.
  specialize (Hf (NoDup_nil_2)). feed specialize Hf; [by intros e He%elem_of_nil|].
  assert (live (flat D (nodes t) h) nil) as Hlive by (destruct Hf as (_ & (? & _) & _); done).
  destruct (splay_chk_Ok nil cmp Hcmp dat _ nil t k (wf_rep _ _ _ H) Ht Hsort Hlive)
    as (g' & a & x & b & kv & Hrun & Hr & Hnn & _ & _ & Hx & Ha & Hb).
  destruct (splay_follows D (nodes t) h _ h _ (cmpk cmp dat k) (ptr t) g' x (fun z c E => E) Hf Hrun)
    as (h' & Hrun' & Hf').
  exists h', a, x, b, kv. split; [done|]. split_and!; try done.
  - apply (follows_wf h g' h' (T a x b) D (nodes t)); [done|done| | |].
    + rewrite Hnn. by destruct (wf_apart _ _ _ H) as (? & _).
    + intros z. by rewrite Hnn.
    + rewrite Hnn. apply (wf_out _ _ _ H).
  - by apply (follows_within D _ _ g').
Qed.
End order.

(** Splaying with a comparison that always says the same: look for a key beyond all. *)
Inductive ext (K : Type) : Type := Bot | Fin (k : K) | Top.
Arguments Bot {K}. Arguments Fin {K}. Arguments Top {K}.
Definition cmp_ext {K} (cmp : K -> K -> comparison) (a b : ext K) : comparison :=
  match a, b with
  | Fin a, Fin b => cmp a b
  | Bot, Bot | Top, Top => Eq
  | Bot, _ | _, Top => Lt
  | _, Bot | Top, _ => Gt
  end.

Lemma cmp_ext_preorder {K} (cmp : K -> K -> comparison) : total_preorder cmp -> total_preorder (cmp_ext cmp).
Proof.
  intros [Ho Ht]. split.
  - intros [|a|] [|b|]; cbn; done.
  - intros [|a|] [|b|] [|c|]; cbn; try done. apply Ht.
Qed.

Section order2.
Context {K V : Type} (cmp : K -> K -> comparison) (Hcmp : total_preorder cmp) (dat : gmap nat (K * V)).

Definition dat_ext : gmap nat (ext K * V) := (fun kv : K * V => (Fin (fst kv), snd kv)) <$> dat.

Lemma sorted_ext l : sorted cmp dat l -> sorted (cmp_ext cmp) dat_ext l.
Proof.
  intros [H1 H2]. split.
  - clear H2. induction H1 as [|x l Hs IH Hx]; constructor; [done|].
    eapply Forall_impl; [exact Hx|]. intros y (a & b & Ha & Hb & Hab).
    exists (Fin (fst a), snd a), (Fin (fst b), snd b). unfold dat_ext. rewrite !lookup_fmap, Ha, Hb. done.
  - eapply Forall_impl; [exact H2|]. intros x [kv Hx]. unfold dat_ext. rewrite lookup_fmap, Hx. eauto.
Qed.

Lemma wf_splay_end h t D d :
  wf h t D -> t <> E -> sorted cmp dat (nodes t) ->
  exists h' a x, splay_by nil mlink (force d) h (ptr t) = Ok (h', x) /\ wf h' (mk d a x E) D /\
    nodes (mk d a x E) = nodes t /\ within D (nodes t) h h'.
Proof.
  intros H Ht Hsort.
  pose proof (wf_follows h t D [] H) as Hf. cbn [app] in Hf.
  specialize (Hf (NoDup_nil_2)). feed specialize Hf; [by intros e He%elem_of_nil|].
  assert (live (flat D (nodes t) h) nil) as Hlive by (destruct Hf as (_ & (? & _) & _); done).
  set (k := if d then Top else Bot : ext K).
  destruct (splay_chk_Ok nil (cmp_ext cmp) (cmp_ext_preorder cmp Hcmp) dat_ext _ nil t k (wf_rep _ _ _ H) Ht
    (sorted_ext _ Hsort) Hlive) as (g' & a & x & b & kv & Hrun & Hr & Hnn & _ & _ & Hx & Ha & Hb).
  assert (forall z c, cmpk (cmp_ext cmp) dat_ext k z = Ok c -> force d z = Ok c) as Hprobe.
  { intros z c. unfold cmpk, value, dat_ext. rewrite lookup_fmap.
    destruct (dat !! z) as [kz|]; cbn; [|done]. intros [= <-]. by destruct d. }
  destruct (splay_follows D (nodes t) h _ h _ (force d) (ptr t) g' x Hprobe Hf Hrun) as (h' & Hrun' & Hf').
  assert ((if d then b else a) = E) as Hend.
  { destruct d; [destruct b as [|l w r]|destruct a as [|l w r]]; try done; exfalso.
    - destruct (Hb w) as (kw & Hw & Hcw); [apply (ptr_in nil (T l w r)); done|].
      unfold dat_ext in Hw. rewrite lookup_fmap in Hw. destruct (dat !! w); [|done]. by injection Hw as <-.
    - destruct (Ha w) as (kw & Hw & Hcw); [apply (ptr_in nil (T l w r)); done|].
      unfold dat_ext in Hw. rewrite lookup_fmap in Hw. destruct (dat !! w); [|done]. by injection Hw as <-. }
  exists h', (if d then a else b), x.
  assert (mk d (if d then a else b) x E = T a x b) as -> by (destruct d; cbn in *; by subst).
  split; [done|]. split_and!; try done.
  - apply (follows_wf h g' h' (T a x b) D (nodes t)); [done|done| | |].
    + rewrite Hnn. by destruct (wf_apart _ _ _ H) as (? & _).
    + intros z. by rewrite Hnn.
    + rewrite Hnn. apply (wf_out _ _ _ H).
  - by apply (follows_within D _ _ g').
Qed.
End order2.
