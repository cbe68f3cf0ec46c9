(** Elements grouped by key, each group in order of arrival. *)
From Coq Require Import Sorted.
From stdpp Require Import base numbers option gmap fin_maps list sorting.
From Verif Require Import Common LinkHeap PathLemmas OrderSpec TreeModel TreeProofs OmmOps OmmSpec OmModel
  OmmProofs OmmRings.
From Verif Require MapProofs.

(** ** Lists *)

Lemma filter_sublist {A} (f : A -> bool) l : List.filter f l `sublist_of` l.
Proof. induction l as [|x l IH]; cbn; [done|]. destruct (f x); by constructor. Qed.

Lemma sublist_pair {A} (x y : A) l : [x; y] `sublist_of` l <-> exists l1 l2 l3, l = l1 ++ x :: l2 ++ y :: l3.
Proof.
  rewrite sublist_cons_l. split.
  - intros (l1 & k & -> & Hk). apply sublist_cons_l in Hk as (l2 & l3 & -> & _). by exists l1, l2, l3.
  - intros (l1 & l2 & l3 & ->). exists l1, (l2 ++ y :: l3). split; [done|].
    apply sublist_cons_l. exists l2, l3. split; [done|]. apply sublist_nil_l.
Qed.

Lemma sublist_pair_asym {A} (x y : A) l : NoDup l -> [x; y] `sublist_of` l -> [y; x] `sublist_of` l -> False.
Proof.
  intros Hnd (l1 & l2 & l3 & ->)%sublist_pair (m1 & m2 & m3 & He)%sublist_pair.
  assert (x <> y) as Hxy.
  { intros ->. apply NoDup_app in Hnd as (_ & _ & [Hn _]%NoDup_cons). apply Hn.
    rewrite elem_of_app. right. left. }
  revert m1 He. induction l1 as [|z l1 IH]; intros m1 He; cbn in *.
  - destruct m1 as [|w m1]; cbn in He; injection He as E1 E2; [done|]. subst w.
    apply NoDup_cons in Hnd as [Hn _]. apply Hn. rewrite E2, elem_of_app. right. right.
    rewrite elem_of_app. right. left.
  - apply NoDup_cons in Hnd as [Hn Hnd]. destruct m1 as [|w m1]; cbn in He; injection He as E1 E2.
    + subst z. apply Hn. rewrite elem_of_app. right. right. rewrite elem_of_app. right. left.
    + by apply (IH Hnd m1).
Qed.

Lemma filter_In {A} (f : A -> bool) l x : x ∈ List.filter f l <-> x ∈ l /\ f x = true.
Proof. rewrite !elem_of_list_In. apply List.filter_In. Qed.

Lemma filter_NoDup {A} (f : A -> bool) l : NoDup l -> NoDup (List.filter f l).
Proof. rewrite !NoDup_ListNoDup. apply List.NoDup_filter. Qed.

Lemma filter_remove (f : nat -> bool) l1 x l2 m1 m2 :
  NoDup (l1 ++ x :: l2) -> List.filter f (l1 ++ x :: l2) = m1 ++ x :: m2 ->
  List.filter f (l1 ++ l2) = m1 ++ m2.
Proof.
  intros Hnd He.
  assert (f x = true) as Hf.
  { apply (filter_In f (l1 ++ x :: l2)). rewrite He, elem_of_app. right. left. }
  rewrite List.filter_app in *. cbn in He. rewrite Hf in He.
  destruct (split_unique (List.filter f l1) (List.filter f l2) m1 m2 x) as [-> ->]; try done.
  pose proof (filter_NoDup f _ Hnd) as Hnf. rewrite List.filter_app in Hnf. cbn in Hnf. by rewrite Hf in Hnf.
Qed.

Lemma filter_ext_in {A} (f g : A -> bool) l : (forall x, x ∈ l -> f x = g x) -> List.filter f l = List.filter g l.
Proof. intros H. apply List.filter_ext_in. intros x Hx. apply H. by apply elem_of_list_In. Qed.

Section groups.
Context {K V : Type} (cmp : K -> K -> comparison) (Hcmp : total_preorder cmp).
Implicit Types (dat : gmap nat (K * V)) (A : view K V) (q N : list nat) (D : nat -> list nat).

Definition eqk dat (k : K) (x : nat) : bool :=
  match dat !! x with Some kv => is_eq (cmp k (fst kv)) | None => false end.

Lemma eqk_true dat k x : eqk dat k x = true <-> exists kv, dat !! x = Some kv /\ cmp k (fst kv) = Eq.
Proof.
  unfold eqk. destruct (dat !! x) as [kv|]; [|split; [done|by intros (? & ? & _)]]. split.
  - intros H. exists kv. split; [done|]. by destruct (cmp k (fst kv)).
  - by intros (? & [= <-] & ->).
Qed.

Lemma cmp_sym a b : cmp a b = Eq -> cmp b a = Eq.
Proof. intros H. by rewrite (tp_opp _ Hcmp), H. Qed.
Lemma cmp_eq_r a b c : cmp a b = Eq -> cmp c a = cmp c b.
Proof. intros H. rewrite (tp_opp _ Hcmp a c), (tp_opp _ Hcmp b c). by rewrite (cmp_eq_l cmp Hcmp a b c H). Qed.
Lemma cmp_eq_trans a b c : cmp a b = Eq -> cmp b c = Eq -> cmp a c = Eq.
Proof. intros H <-. by apply (cmp_eq_l cmp Hcmp). Qed.

Record groups dat N D q : Prop := {
  gr_sorted : sorted cmp dat N;
  gr_NoDup : NoDup q;
  gr_cover : forall x, x ∈ q -> exists n, n ∈ N /\ x ∈ n :: D n;
  gr_fifo : forall n kv, n ∈ N -> dat !! n = Some kv -> List.filter (eqk dat (fst kv)) q = n :: D n }.

Lemma gr_NoDup_N dat N D q : groups dat N D q -> NoDup N.
Proof. intros H. by apply (sorted_NoDup cmp Hcmp dat), (gr_sorted _ _ _ _ H). Qed.

Lemma gr_in dat N D q n x : groups dat N D q -> n ∈ N -> x ∈ n :: D n ->
  x ∈ q /\ exists kn kx, dat !! n = Some kn /\ dat !! x = Some kx /\ cmp (fst kn) (fst kx) = Eq.
Proof.
  intros H Hn Hx. destruct (MapProofs.sorted_dat cmp _ _ _ (gr_sorted _ _ _ _ H) Hn) as [kn Hkn].
  rewrite <- (gr_fifo _ _ _ _ H n kn Hn Hkn) in Hx. apply filter_In in Hx as [Hx (kx & Hkx & He)%eqk_true].
  split; [done|]. by exists kn, kx.
Qed.
Lemma gr_node dat N D q n : groups dat N D q -> n ∈ N -> n ∈ q.
Proof. intros H Hn. apply (gr_in dat N D q n n H Hn). left. Qed.
Lemma gr_dat dat N D q x : groups dat N D q -> x ∈ q -> exists kv, dat !! x = Some kv.
Proof.
  intros H Hx. destruct (gr_cover _ _ _ _ H x Hx) as (n & Hn & Hin).
  destruct (gr_in _ _ _ _ _ _ H Hn Hin) as (_ & kn & kx & _ & ? & _). by exists kx.
Qed.

Lemma sorted_key_inj dat N n m kn km :
  sorted cmp dat N -> n ∈ N -> m ∈ N -> dat !! n = Some kn -> dat !! m = Some km -> cmp (fst kn) (fst km) = Eq -> n = m.
Proof.
  intros [Hs _] Hn Hm Hkn Hkm He. induction Hs as [|x l Hs IH Hx]; [by apply elem_of_nil in Hn|].
  rewrite Forall_forall in Hx.
  apply elem_of_cons in Hn as [-> |Hn], Hm as [-> |Hm]; [done|..|auto].
  - destruct (Hx m Hm) as (a & b & Ha & Hb & Hlt). simplify_eq. congruence.
  - destruct (Hx n Hn) as (a & b & Ha & Hb & Hlt). simplify_eq. apply cmp_sym in He. congruence.
Qed.

(** An element belongs to the node with its key. *)
Lemma gr_owner dat N D q n x kn kx : groups dat N D q -> n ∈ N -> x ∈ q ->
  dat !! n = Some kn -> dat !! x = Some kx -> cmp (fst kn) (fst kx) = Eq -> x ∈ n :: D n.
Proof.
  intros H Hn Hx Hkn Hkx He. rewrite <- (gr_fifo _ _ _ _ H n kn Hn Hkn). apply filter_In. split; [done|].
  apply eqk_true. by exists kx.
Qed.

Lemma gr_other dat N D q n m x kn : groups dat N D q -> n ∈ N -> m ∈ N -> n <> m -> x ∈ m :: D m ->
  dat !! n = Some kn -> eqk dat (fst kn) x = false.
Proof.
  intros H Hn Hm Hne Hx Hkn. destruct (eqk dat (fst kn) x) eqn:E; [|done]. exfalso.
  apply eqk_true in E as (kx & Hkx & He). destruct (gr_in _ _ _ _ _ _ H Hm Hx) as (_ & km & kx' & Hkm & Hkx' & He').
  simplify_eq. apply Hne. apply (sorted_key_inj dat N n m kn km); [apply H|done..|].
  apply (cmp_eq_trans _ (fst kx)); [done|]. by apply cmp_sym.
Qed.

Lemma gr_change dat dat' N D q :
  groups dat N D q ->
  (forall z, z ∈ q -> exists a b, dat !! z = Some a /\ dat' !! z = Some b /\ cmp (fst a) (fst b) = Eq) ->
  groups dat' N D q.
Proof.
  intros H Hch. split.
  - apply (MapProofs.sorted_key cmp Hcmp dat); [apply H|]. intros z Hz. apply Hch. by apply (gr_node dat N D).
  - apply H.
  - apply H.
  - intros n kv' Hn Hkv'. destruct (Hch n) as (a & b & Ha & Hb & He); [by apply (gr_node dat N D)|].
    simplify_eq. rewrite <- (gr_fifo _ _ _ _ H n a Hn Ha). apply filter_ext_in. intros x Hx.
    destruct (Hch x Hx) as (c & d & Hc & Hd & Hcd). unfold eqk. rewrite Hc, Hd. f_equal.
    rewrite <- (cmp_eq_r _ _ _ Hcd). symmetry. by apply (cmp_eq_l cmp Hcmp).
Qed.

Lemma gr_same dat dat' N D q :
  groups dat N D q -> (forall z, z ∈ q -> dat' !! z = dat !! z) -> groups dat' N D q.
Proof.
  intros H Hs. apply (gr_change dat); [done|]. intros z Hz. destruct (gr_dat _ _ _ _ _ H Hz) as [kv Hkv].
  exists kv, kv. rewrite Hs by done. split_and!; try done. by apply cmp_refl.
Qed.

(** ** Arrivals *)

Lemma gr_push_old dat N D q y e ky ke :
  groups dat N D q -> y ∈ N -> dat !! y = Some ky -> dat !! e = Some ke -> cmp (fst ke) (fst ky) = Eq -> e ∉ q ->
  groups dat N (put D y (D y ++ [e])) (q ++ [e]).
Proof.
  intros H Hy Hky Hke He Heq. split.
  - apply H.
  - apply NoDup_app. split_and!; [apply H| |apply NoDup_singleton]. by intros z Hz ->%elem_of_list_singleton.
  - intros x [Hx|Hx]%elem_of_app.
    + destruct (gr_cover _ _ _ _ H x Hx) as (n & Hn & Hin). exists n. split; [done|].
      unfold put. destruct (decide (n = y)) as [-> |]; [|done]. rewrite elem_of_cons, elem_of_app.
      apply elem_of_cons in Hin. tauto.
    + apply elem_of_list_singleton in Hx as ->. exists y. split; [done|]. rewrite put_eq, elem_of_cons, elem_of_app.
      right. right. left.
  - intros n kn Hn Hkn. rewrite List.filter_app, (gr_fifo _ _ _ _ H n kn Hn Hkn). cbn.
    destruct (decide (n = y)) as [-> |Hne].
    + rewrite put_eq. simplify_eq. assert (eqk dat (fst ky) e = true) as ->; [|done].
      apply eqk_true. exists ke. split; [done|]. by apply cmp_sym.
    + rewrite put_ne by done. assert (eqk dat (fst kn) e = false) as ->; [|by rewrite app_nil_r].
      destruct (eqk dat (fst kn) e) eqn:E; [|done]. exfalso. apply eqk_true in E as (k & Hk & E). simplify_eq.
      apply Hne. apply (sorted_key_inj dat N n y kn ky); [apply H|done..|]. by apply (cmp_eq_trans _ (fst ke)).
Qed.

Lemma gr_push_new dat N N' D q e ke :
  groups dat N D q -> sorted cmp dat N' -> N' ≡ₚ e :: N -> D e = [] -> dat !! e = Some ke ->
  (forall n kn, n ∈ N -> dat !! n = Some kn -> cmp (fst ke) (fst kn) <> Eq) -> e ∉ q ->
  groups dat N' D (q ++ [e]).
Proof.
  intros H Hs Hp HDe Hke Hne Heq. split.
  - done.
  - apply NoDup_app. split_and!; [apply H| |apply NoDup_singleton]. by intros z Hz ->%elem_of_list_singleton.
  - intros x [Hx|Hx]%elem_of_app.
    + destruct (gr_cover _ _ _ _ H x Hx) as (n & Hn & Hin). exists n. split; [|done]. rewrite Hp. by right.
    + apply elem_of_list_singleton in Hx as ->. exists e. rewrite Hp. split; left.
  - intros n kn Hn Hkn. rewrite List.filter_app. cbn. rewrite Hp in Hn. apply elem_of_cons in Hn as [-> |Hn].
    + simplify_eq. assert (eqk dat (fst ke) e = true) as ->.
      { apply eqk_true. exists ke. split; [done|]. by apply cmp_refl. }
      rewrite HDe. assert (List.filter (eqk dat (fst ke)) q = []) as ->; [|done].
      apply elem_of_nil_inv. intros x [Hx (kx & Hkx & E)%eqk_true]%filter_In.
      destruct (gr_cover _ _ _ _ H x Hx) as (m & Hm & Hin).
      destruct (gr_in _ _ _ _ _ _ H Hm Hin) as (_ & km & kx' & Hkm & Hkx' & E'). simplify_eq.
      apply (Hne m km Hm Hkm). apply (cmp_eq_trans _ (fst kx)); [done|]. by apply cmp_sym.
    + rewrite (gr_fifo _ _ _ _ H n kn Hn Hkn). assert (eqk dat (fst kn) e = false) as ->; [|by rewrite app_nil_r].
      destruct (eqk dat (fst kn) e) eqn:E; [|done]. exfalso. apply eqk_true in E as (k & Hk & E). simplify_eq.
      apply (Hne n kn Hn Hkn). by apply cmp_sym.
Qed.

(** ** Departures *)

Lemma gr_leave_other dat N D l1 x l2 y n kn :
  groups dat N D (l1 ++ x :: l2) -> y ∈ N -> x ∈ y :: D y -> n ∈ N -> n <> y -> dat !! n = Some kn ->
  List.filter (eqk dat (fst kn)) (l1 ++ l2) = n :: D n.
Proof.
  intros H Hy Hx Hn Hne Hkn. rewrite <- (gr_fifo _ _ _ _ H n kn Hn Hkn), !List.filter_app. cbn.
  by rewrite (gr_other _ _ _ _ n y x kn H).
Qed.

Lemma gr_leave_own dat N D l1 x l2 y ky m1 m2 :
  groups dat N D (l1 ++ x :: l2) -> y ∈ N -> dat !! y = Some ky -> y :: D y = m1 ++ x :: m2 ->
  List.filter (eqk dat (fst ky)) (l1 ++ l2) = m1 ++ m2.
Proof.
  intros H Hy Hky He. apply (filter_remove _ l1 x l2); [apply H|]. rewrite <- He. by apply (gr_fifo _ _ _ _ H).
Qed.

Lemma gr_leave_NoDup dat N D l1 x l2 : groups dat N D (l1 ++ x :: l2) -> NoDup (l1 ++ l2) /\ x ∉ l1 ++ l2.
Proof.
  intros H. pose proof (gr_NoDup _ _ _ _ H) as Hnd. rewrite <- Permutation_middle in Hnd.
  by apply NoDup_cons in Hnd as [? ?].
Qed.
Lemma in_middle {X : Type} (l1 l2 : list X) x z : z ∈ l1 ++ l2 -> z ∈ l1 ++ x :: l2.
Proof. rewrite !elem_of_app, elem_of_cons. tauto. Qed.

Lemma gr_pop_single dat N N' D l1 x l2 :
  groups dat N D (l1 ++ x :: l2) -> x ∈ N -> D x = [] -> sorted cmp dat N' -> (forall n, n ∈ N' <-> n ∈ N /\ n <> x) ->
  groups dat N' D (l1 ++ l2).
Proof.
  intros H Hx HDx Hs HN. destruct (gr_leave_NoDup _ _ _ _ _ _ H) as [Hnd Hnx]. split; [done|done|..].
  - intros z Hz. destruct (gr_cover _ _ _ _ H z) as (n & Hn & Hin); [by apply in_middle|].
    exists n. split; [|done]. apply HN. split; [done|]. intros ->. rewrite HDx in Hin.
    apply elem_of_list_singleton in Hin as ->. done.
  - intros n kn [Hn Hne]%HN Hkn. apply (gr_leave_other dat N D l1 x l2 x); try done. left.
Qed.

Lemma sorted_replace dat a y b d ky kd :
  sorted cmp dat (a ++ y :: b) -> dat !! y = Some ky -> dat !! d = Some kd -> cmp (fst ky) (fst kd) = Eq ->
  sorted cmp dat (a ++ d :: b).
Proof.
  intros Hs Hy Hd He. apply sorted_app in Hs as (Ha & Hb & Hab).
  change (y :: b) with ([y] ++ b) in *. change (d :: b) with ([d] ++ b).
  apply sorted_app in Hb as (_ & Hb & Hyb).
  assert (forall z, klt cmp dat z y -> klt cmp dat z d) as Hz1.
  { intros z (u & v & Hu & Hv & Hlt). simplify_eq. exists u, kd. split_and!; try done.
    by rewrite <- (cmp_eq_r _ _ _ He). }
  assert (forall z, klt cmp dat y z -> klt cmp dat d z) as Hz2.
  { intros z (u & v & Hu & Hv & Hlt). simplify_eq. exists kd, v. split_and!; try done.
    by rewrite <- (cmp_eq_l cmp Hcmp _ _ _ He). }
  apply sorted_app. split_and!; [done| |].
  - apply sorted_app. split_and!; [|done|].
    + split; [repeat constructor|]. constructor; [by exists kd|constructor].
    + intros u v ->%elem_of_list_singleton Hv. apply Hz2, Hyb; [left|done].
  - intros u v Hu [->%elem_of_list_singleton|Hv]%elem_of_app.
    + apply Hz1, Hab; [done|left].
    + apply Hab; [done|by right].
Qed.

Lemma gr_pop_front dat a y b D l1 l2 d r :
  groups dat (a ++ y :: b) D (l1 ++ y :: l2) -> D y = d :: r -> d ∉ a ++ y :: b ->
  groups dat (a ++ d :: b) (put (put D y []) d r) (l1 ++ l2).
Proof.
  intros H ED Hd. destruct (gr_leave_NoDup _ _ _ _ _ _ H) as [Hnd Hny].
  assert (y ∈ a ++ y :: b) as Hy by (rewrite elem_of_app; right; left).
  destruct (gr_in _ _ _ _ y d H Hy) as (Hdq & ky & kd & Hky & Hkd & He); [rewrite ED; right; left|].
  assert (d <> y) as Hdy by (by intros ->).
  assert (forall n, n ∈ a ++ d :: b -> n = d \/ (n ∈ a ++ y :: b /\ n <> y /\ n <> d)) as HN.
  { intros n. rewrite elem_of_app, elem_of_cons. pose proof (gr_NoDup_N _ _ _ _ H) as HndN.
    rewrite <- Permutation_middle in HndN. apply NoDup_cons in HndN as [Hyab _]. rewrite elem_of_app in Hyab.
    rewrite elem_of_app, elem_of_cons in Hd |- *.
    intros [Hn|[-> |Hn]]; [right|by left|right]; (split_and!; [tauto|intros ->; tauto|intros ->; tauto]). }
  split.
  - apply (sorted_replace dat a y b d ky kd); [apply H|done..].
  - done.
  - intros z Hz. destruct (gr_cover _ _ _ _ H z) as (n & Hn & Hin); [by apply in_middle|].
    destruct (decide (n = y)) as [-> |Hne].
    + exists d. split; [rewrite elem_of_app; right; left|]. rewrite put_eq. rewrite ED in Hin.
      apply elem_of_cons in Hin as [-> |Hin]; [done|]. done.
    + exists n. rewrite put_ne by (by intros ->). rewrite put_ne by done. split; [|done].
      rewrite elem_of_app, elem_of_cons in Hn |- *. tauto.
  - intros n kn Hn Hkn. apply HN in Hn as [-> |(Hn & Hne & Hnd')].
    + rewrite put_eq. simplify_eq. change (d :: r) with ([] ++ d :: r). rewrite <- ED.
      rewrite <- (gr_leave_own dat _ D l1 y l2 y ky [] (D y) H Hy Hky); [|done].
      apply filter_ext_in. intros x Hx. unfold eqk. destruct (dat !! x); [|done].
      f_equal. apply (cmp_eq_l cmp Hcmp). by apply cmp_sym.
    + rewrite put_ne by done. rewrite put_ne by done. apply (gr_leave_other dat (a ++ y :: b) D l1 y l2 y); try done. left.
Qed.

Lemma gr_pop_dup dat N D l1 x l2 y m1 m2 :
  groups dat N D (l1 ++ x :: l2) -> y ∈ N -> D y = m1 ++ x :: m2 -> groups dat N (put D y (m1 ++ m2)) (l1 ++ l2).
Proof.
  intros H Hy ED. destruct (gr_leave_NoDup _ _ _ _ _ _ H) as [Hnd Hnx].
  assert (x ∈ y :: D y) as Hx by (rewrite ED; right; rewrite elem_of_app; right; left).
  split; [apply H|done|..].
  - intros z Hz. destruct (gr_cover _ _ _ _ H z) as (n & Hn & Hin); [by apply in_middle|].
    exists n. split; [done|]. unfold put. destruct (decide (n = y)) as [-> |]; [|done]. rewrite ED in Hin.
    assert (z <> x) by (by intros ->). rewrite elem_of_cons, elem_of_app in Hin |- *. rewrite elem_of_cons in Hin. tauto.
  - intros n kn Hn Hkn. destruct (decide (n = y)) as [-> |Hne].
    + rewrite put_eq. apply (gr_leave_own dat N D l1 x l2 y kn (y :: m1) m2); try done. by rewrite ED.
    + rewrite put_ne by done. by apply (gr_leave_other dat N D l1 x l2 y).
Qed.

(** ** Searching *)

Lemma keyed_dat A o k x : keyed cmp A o k x <-> exists kv, vals A !! x = Some kv /\ cmp k (fst kv) = o.
Proof. done. Qed.

Lemma gr_present A N D k l1 x l2 : groups (vals A) N D (queue A) -> present cmp A k l1 x l2 -> x ∈ N.
Proof.
  intros H (Hq & (kx & Hkx & He) & Hl1). rewrite Hq in H.
  destruct (gr_cover _ _ _ _ H x) as (n & Hn & Hin); [rewrite elem_of_app; right; left|].
  destruct (gr_in _ _ _ _ _ _ H Hn Hin) as (_ & kn & kx' & Hkn & Hkx' & He'). simplify_eq.
  pose proof (gr_fifo _ _ _ _ H n kn Hn Hkn) as Hf. rewrite List.filter_app in Hf. cbn in Hf.
  assert (List.filter (eqk (vals A) (fst kn)) l1 = []) as Hnil.
  { apply elem_of_nil_inv. intros z [Hz (kz & Hkz & E)%eqk_true]%filter_In. rewrite Forall_forall in Hl1.
    apply (Hl1 z Hz). exists kz. split; [done|]. apply (cmp_eq_trans _ (fst kx)); [done|].
    apply (cmp_eq_trans _ (fst kn)); [by apply cmp_sym|done]. }
  assert (eqk (vals A) (fst kn) x = true) as Hx by (apply eqk_true; by exists kx).
  rewrite Hnil, Hx in Hf. injection Hf as -> _. done.
Qed.

Lemma gr_node_present A N D n k kn : groups (vals A) N D (queue A) -> n ∈ N -> vals A !! n = Some kn ->
  cmp k (fst kn) = Eq -> exists l1 l2, present cmp A k l1 n l2.
Proof.
  intros H Hn Hkn He. pose proof (gr_node _ _ _ _ _ H Hn) as Hq. apply elem_of_list_split in Hq as (l1 & l2 & Hq).
  exists l1, l2. split_and!; [done|by exists kn|]. apply Forall_forall. intros z Hz (kz & Hkz & E).
  assert (List.filter (eqk (vals A) (fst kn)) l1 = []) as Hnil.
  { pose proof (gr_fifo _ _ _ _ H n kn Hn Hkn) as Hf. pose proof (gr_NoDup _ _ _ _ H) as Hnd.
    rewrite Hq in Hf, Hnd. assert (List.filter (eqk (vals A) (fst kn)) (l1 ++ n :: l2) = [] ++ n :: D n) as Hf' by done.
    rewrite List.filter_app in Hf'. cbn in Hf'.
    assert (eqk (vals A) (fst kn) n = true) as Hnn by (apply eqk_true; exists kn; split; [done|by apply cmp_refl]).
    rewrite Hnn in Hf'. pose proof (filter_NoDup (eqk (vals A) (fst kn)) _ Hnd) as Hnf.
    rewrite List.filter_app in Hnf. cbn in Hnf. rewrite Hnn in Hnf.
    by destruct (split_unique _ _ [] (D n) _ Hnf Hf'). }
  assert (z ∈ List.filter (eqk (vals A) (fst kn)) l1) as Hin.
  { apply filter_In. split; [done|]. apply eqk_true. exists kz. split; [done|].
    apply (cmp_eq_trans _ k); [by apply cmp_sym|done]. }
  rewrite Hnil in Hin. by apply elem_of_nil in Hin.
Qed.

Lemma gr_absent A N D k n kn : groups (vals A) N D (queue A) -> absent cmp A k -> n ∈ N -> vals A !! n = Some kn ->
  cmp k (fst kn) <> Eq.
Proof.
  intros H Ha Hn Hkn He. unfold absent in Ha. rewrite Forall_forall in Ha. apply (Ha n); [|by exists kn].
  by apply (gr_node (vals A) N D).
Qed.

Lemma gr_absent_intro A N D k : groups (vals A) N D (queue A) ->
  (forall n kn, n ∈ N -> vals A !! n = Some kn -> cmp k (fst kn) <> Eq) -> absent cmp A k.
Proof.
  intros H Hne. apply Forall_forall. intros x Hx (kx & Hkx & He).
  destruct (gr_cover _ _ _ _ H x Hx) as (n & Hn & Hin).
  destruct (gr_in _ _ _ _ _ _ H Hn Hin) as (_ & kn & kx' & Hkn & Hkx' & He'). simplify_eq.
  apply (Hne n kn Hn Hkn). apply (cmp_eq_trans _ (fst kx)); [done|]. by apply cmp_sym.
Qed.

Lemma gr_extreme A N D d l1 x l2 n l : groups (vals A) N D (queue A) -> extreme cmp A d l1 x l2 ->
  ord d N = l ++ [n] -> x = n.
Proof.
  intros H (Hq & kx & Hkx & Hl1 & Hl2) Ho.
  assert (n ∈ N) as Hn by (apply (elem_of_ord d); rewrite Ho, elem_of_app; right; left).
  assert (x ∈ queue A) as Hxq by (rewrite Hq, elem_of_app; right; left).
  destruct (gr_cover _ _ _ _ H x Hxq) as (m & Hm & Hin).
  destruct (gr_in _ _ _ _ _ _ H Hm Hin) as (_ & km & kx' & Hkm & Hkx' & He). simplify_eq.
  destruct (MapProofs.sorted_dat cmp _ _ _ (gr_sorted _ _ _ _ H) Hn) as [kn Hkn].
  assert (n = m) as ->.
  { destruct (decide (n = m)) as [|Hne]; [done|exfalso].
    pose proof (gr_sorted _ _ _ _ H) as [Hs _]. apply (sorted_ord cmp _ d) in Hs. rewrite Ho in Hs.
    apply StronglySorted_app in Hs as (_ & _ & Hs).
    assert (m ∈ l) as Hml.
    { apply (elem_of_ord d) in Hm. rewrite Ho, elem_of_app, elem_of_list_singleton in Hm. by destruct Hm as [?|?]. }
    specialize (Hs m n Hml (elem_of_list_here _ _)).
    pose proof (gr_node _ _ _ _ _ H Hn) as Hnq. rewrite Hq in Hnq.
    assert (keyed cmp A (if d then Gt else Lt) (fst kx) n \/ keyed cmp A Eq (fst kx) n) as Hk.
    { rewrite Forall_forall in Hl1, Hl2. apply elem_of_app in Hnq as [Hnq|[-> |Hnq]%elem_of_cons]; [left; auto| |auto].
      right. exists kx. split; [done|by apply cmp_refl]. }
    destruct d; destruct Hs as (u & v & Hu & Hv & Hlt); simplify_eq.
    - rewrite (cmp_eq_l cmp Hcmp _ _ _ He) in Hlt.
      destruct Hk as [(? & ? & ?)|(? & ? & ?)]; simplify_eq; congruence.
    - rewrite (cmp_eq_r _ _ _ He) in Hlt. apply (cmp_flip cmp Hcmp) in Hlt. cbn in Hlt.
      destruct Hk as [(? & ? & ?)|(? & ? & ?)]; simplify_eq; congruence. }
  simplify_eq. pose proof (gr_fifo _ _ _ _ H m km Hm Hkm) as Hf. rewrite Hq, List.filter_app in Hf. cbn in Hf.
  assert (List.filter (eqk (vals A) (fst km)) l1 = []) as Hnil.
  { apply elem_of_nil_inv. intros z [Hz (kz & Hkz & E)%eqk_true]%filter_In. rewrite Forall_forall in Hl1.
    destruct (Hl1 z Hz) as (kz' & Hkz' & E'). simplify_eq.
    rewrite (cmp_eq_l cmp Hcmp _ _ _ He) in E. destruct d; congruence. }
  assert (eqk (vals A) (fst km) x = true) as Hx by (apply eqk_true; by exists kx).
  rewrite Hnil, Hx in Hf. by injection Hf as -> _.
Qed.

(** ** Listings *)

Definition rows D (l : list nat) : list nat := flat_map (fun n => n :: D n) l.

Lemma rows_app D l l' : rows D (l ++ l') = rows D l ++ rows D l'.
Proof. unfold rows. by rewrite flat_map_app. Qed.
Lemma elem_of_rows D l x : x ∈ rows D l <-> exists n, n ∈ l /\ x ∈ n :: D n.
Proof.
  unfold rows. rewrite elem_of_list_In, in_flat_map. split; intros (n & Hn & Hx); exists n.
  - by rewrite !elem_of_list_In.
  - by rewrite <- !elem_of_list_In.
Qed.

Definition before A (d : bool) (x y : nat) : Prop :=
  exists a b, vals A !! x = Some a /\ vals A !! y = Some b /\
    (cmp (fst a) (fst b) = (if d then Lt else Gt) \/
     cmp (fst a) (fst b) = Eq /\ [x; y] `sublist_of` queue A).

Lemma before_asym A d x y : NoDup (queue A) -> before A d x y -> before A d y x -> False.
Proof.
  intros Hnd (a & b & Ha & Hb & Hab) (b' & a' & Hb' & Ha' & Hba). simplify_eq.
  rewrite (tp_opp _ Hcmp (fst a) (fst b)) in Hba. destruct Hab as [Hab|[Hab Hs]]; rewrite Hab in Hba.
  - destruct d, Hba as [?|[? _]]; done.
  - destruct d, Hba as [?|[_ Hs']]; try done; by apply (sublist_pair_asym x y (queue A)).
Qed.

Lemma listing_unique A d l l' : NoDup (queue A) -> listing cmp A d l -> listing cmp A d l' -> l = l'.
Proof.
  intros Hnd [Hp Hs] [Hp' Hs']. change (StronglySorted (before A d) l) in Hs. change (StronglySorted (before A d) l') in Hs'.
  assert (AntiSymm (=) (before A d)) as Hanti.
  { intros x y Hxy Hyx. exfalso. by apply (before_asym A d x y). }
  apply (StronglySorted_unique (before A d)); [done..|]. by rewrite Hp, Hp'.
Qed.

Lemma listing_rows A N D d : groups (vals A) N D (queue A) -> listing cmp A d (rows D (ord d N)).
Proof.
  intros H. pose proof (gr_NoDup_N _ _ _ _ H) as HndN.
  assert (StronglySorted (before A d) (rows D (ord d N))) as Hs.
  { pose proof (gr_sorted _ _ _ _ H) as [Hs _]. apply (sorted_ord cmp _ d) in Hs.
    assert (forall n, n ∈ ord d N -> n ∈ N) as Hin by (intros n; apply elem_of_ord).
    induction Hs as [|n l Hs IH Hn]; [constructor|].
    assert (n ∈ N) as HnN by (apply Hin; left).
    change (rows D (n :: l)) with ((n :: D n) ++ rows D l).
    apply StronglySorted_app. split_and!.
    - destruct (MapProofs.sorted_dat cmp _ _ _ (gr_sorted _ _ _ _ H) HnN) as [kn Hkn].
      pose proof (gr_fifo _ _ _ _ H n kn HnN Hkn) as Hf.
      assert (forall m, m `sublist_of` n :: D n -> StronglySorted (before A d) m) as Hsub; [|by apply Hsub].
      rewrite <- Hf. induction m as [|x m IHm]; intros Hm; [constructor|].
      constructor.
      { apply IHm. transitivity (x :: m); [|done]. by constructor. }
      apply Forall_forall. intros y Hy.
      assert (forall z, z ∈ x :: m -> exists kz, vals A !! z = Some kz /\ cmp (fst kn) (fst kz) = Eq) as Hz.
      { intros z Hz. apply eqk_true, (filter_In _ (queue A)). eapply elem_of_submseteq; [exact Hz|by apply sublist_submseteq]. }
      destruct (Hz x) as (kx & Hkx & Ex); [left|]. destruct (Hz y) as (ky & Hky & Ey); [by right|].
      exists kx, ky. split_and!; [done..|]. right. split.
      + apply (cmp_eq_trans _ (fst kn)); [by apply cmp_sym|done].
      + transitivity (x :: m).
        * constructor. apply elem_of_list_split in Hy as (u & v & ->). apply sublist_cons_l. exists u, v.
          split; [done|]. apply sublist_nil_l.
        * transitivity (List.filter (eqk (vals A) (fst kn)) (queue A)); [done|]. apply filter_sublist.
    - apply IH. intros m Hm. apply Hin. by right.
    - intros x y Hx (m & Hm & Hy)%elem_of_rows.
      destruct (gr_in _ _ _ _ _ _ H HnN Hx) as (_ & kn & kx & Hkn & Hkx & Ex).
      destruct (gr_in _ _ _ _ m y H) as (_ & km & ky & Hkm & Hky & Ey); [apply Hin; by right|done|].
      rewrite Forall_forall in Hn. specialize (Hn m Hm).
      exists kx, ky. split_and!; [done..|]. left.
      rewrite <- (cmp_eq_l cmp Hcmp _ _ _ Ex), <- (cmp_eq_r _ _ _ Ey).
      destruct d; destruct Hn as (u & v & Hu & Hv & Hlt); simplify_eq; [done|].
      by apply (cmp_flip cmp Hcmp) in Hlt. }
  split; [|exact Hs]. apply NoDup_Permutation.
  - clear -Hcmp Hs H. induction Hs as [|x l Hs IH Hx]; constructor; [|done]. intros Hin. rewrite Forall_forall in Hx.
    apply (before_asym A d x x); [apply H|by apply Hx..].
  - apply H.
  - intros x. rewrite elem_of_rows. split.
    + intros (n & Hn%elem_of_ord & Hx). by apply (gr_in _ _ _ _ _ _ H Hn Hx).
    + intros Hx. destruct (gr_cover _ _ _ _ H x Hx) as (n & Hn & Hin). exists n. by rewrite elem_of_ord.
Qed.

Lemma listing_is A N D d l : groups (vals A) N D (queue A) -> listing cmp A d l -> l = rows D (ord d N).
Proof. intros H Hl. apply (listing_unique A d); [apply H|done|]. by apply listing_rows. Qed.
End groups.
