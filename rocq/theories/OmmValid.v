(** What validate of the multimap is worth in arbitrary memory, as far as the rings
    of duplicates, which it does not check, are in order. *)
From Coq Require Import Sorted.
From stdpp Require Import base numbers option gmap fin_maps list.
From Verif Require Import Common LinkHeap PathLemmas OrderSpec TreeModel TreeProofs SplayModel MapOps OmModel OmmOps OmmModel
  OmmSpec OmmProofs OmmRings OmmGroups OmmWalk OmmCalls OmmHistories ValidSpec.
From Verif Require MapProofs OmProofs TreeValid.

Local Ltac bind := cbn [mbind outcome_bind obind].

Section valid.
Context {K V : Type} (cmp : K -> K -> comparison) (Hcmp : total_preorder cmp).
Implicit Types (s : om K V) (D : nat -> list nat).

(** [D n] are the younger elements with the key of [n]. They form a ring: [n] leads
    to the first by its parent field, they are linked in both directions, and all
    but the first have no parent. No other element looks as if it had duplicates. *)
Record in_rings s D : Prop := {
  ir_key : forall n x, x ∈ D n -> exists kn kx, dat s !! n = Some kn /\ dat s !! x = Some kx /\ cmp (fst kn) (fst kx) = Eq;
  ir_NoDup : forall n, NoDup (D n);
  ir_apart : forall n m x, x ∈ D n -> x ∈ D m -> n = m;
  ir_ring : forall n, ring (lk s) n (D n);
  ir_none : forall n, is_Some (dat s !! n) -> D n = [] -> (forall m, n ∉ D m) -> has_dups (lk s) n = Ok false }.

(** Memory that holds a multimap whose rings are [D], the rest in whatever state. *)
Definition omm_memory s D : Prop :=
  live (lk s) nil /\ (target nil (dat s) (root s) \/ root s = 0) /\ in_rings s D /\
  forall x, is_Some (dat s !! x) -> x <> nil /\ x <> 0 /\
    exists l r p, lf (lk s) !! x = Some l /\ rt (lk s) !! x = Some r /\ pa (lk s) !! x = Some p /\
      (target nil (dat s) l \/ l = 0) /\ (target nil (dat s) r \/ r = 0) /\
      (target nil (dat s) p \/ p = 0 /\ exists n, x ∈ tail (D n)).

(** The branches with no regard to the parents. *)
Definition branches s : links :=
  Links (lf (lk s)) (rt (lk s)) (<[nil := nil]> ((fun _ => nil) <$> dat s)).

Lemma branches_readable s D : omm_memory s D -> readable nil (fun p => p =? 0) (dat s) (branches s).
Proof.
  intros (_ & _ & _ & H). split; [by exists nil; apply lookup_insert|]. intros x Hx.
  destruct (H x Hx) as (Hn & H0 & l & r & p & Hl & Hr & Hp & Hl' & Hr' & _). split; [done|].
  split; [by apply Nat.eqb_neq|]. exists l, r, nil. cbn. split_and!; try done.
  - rewrite lookup_insert_ne by done. rewrite lookup_fmap. destruct Hx as [? ->]. done.
  - destruct Hl' as [?| ->]; [by left|by right].
  - destruct Hr' as [?| ->]; [by left|by right].
  - by left.
Qed.

(** No member of a ring is in the tree. *)
Lemma ring_not_node s D t : in_rings s D -> dat s !! nil = None -> TreeValid.shape nil (lk s) t -> sorted cmp (dat s) (nodes t) ->
  forall n x, x ∈ D n -> x ∉ nodes t.
Proof.
  intros Hin Hnil Hsh [Hs _] n x Hx Hxt.
  assert (exists y, y ∈ D n /\ rt (lk s) !! x = Some y) as (y & Hy & Hrt).
  { pose proof (ir_ring _ _ Hin n) as Hr. destruct (D n) as [|d r] eqn:ED; [by apply elem_of_nil in Hx|].
    destruct Hr as (_ & Hl & _). apply elem_of_list_split in Hx as (l1 & l2 & Hl12). rewrite Hl12 in Hl |- *.
    exists (hd x (l2 ++ l1)). split; [|by apply linked_next].
    destruct l2 as [|y l2]; [destruct l1 as [|y l1]|]; cbn; rewrite ?elem_of_app, ?elem_of_cons; tauto. }
  destruct (ir_key _ _ Hin n x Hx) as (kn & kx & Hkn & Hkx & Hex).
  destruct (ir_key _ _ Hin n y Hy) as (kn' & ky & Hkn' & Hky & Hey). assert (kn' = kn) as -> by congruence.
  assert (y = nil \/ klt cmp (dat s) x y) as [Hyn|(a & b & Ha & Hb & Hab)].
  { clear -Hsh Hs Hxt Hrt. induction t as [|l IHl z r IHr]; [by apply elem_of_nil in Hxt|].
    destruct Hsh as (_ & Hz & Hzn & Hl & Hr). cbn [nodes] in *.
    apply StronglySorted_app in Hs as (Hsl & Hsr & _). apply StronglySorted_inv in Hsr as [Hsr Hzr].
    apply elem_of_app in Hxt as [?|[-> |?]%elem_of_cons]; [by apply IHl| |by apply IHr].
    rewrite Hrt in Hz. injection Hz as ->. assert (r = E \/ r <> E) as [-> |Hne] by (destruct r; auto); [by left|].
    right. rewrite Forall_forall in Hzr. apply Hzr. by apply ptr_in. }
  - subst y. congruence.
  - assert (a = kx) as -> by congruence. assert (b = ky) as -> by congruence.
    rewrite <- (cmp_eq_l cmp Hcmp _ _ (fst ky) Hex) in Hab. congruence.
Qed.

(** The rings that belong to the tree. *)
Definition of_tree D (t : tree) (n : nat) : list nat := if decide (n ∈ nodes t) then D n else [].
Lemma of_tree_in D t n : n ∈ nodes t -> of_tree D t n = D n.
Proof. intros Hn. unfold of_tree. by rewrite decide_True. Qed.
Lemma of_tree_sub D t n x : x ∈ of_tree D t n -> n ∈ nodes t /\ x ∈ D n.
Proof. unfold of_tree. destruct (decide (n ∈ nodes t)); [done|by intros ?%elem_of_nil]. Qed.

Lemma has_dups_in s D n : omm_memory s D -> is_Some (dat s !! n) -> (forall m, n ∉ D m) ->
  has_dups (lk s) n = Ok (dup D n) /\ exists p, parent_r (lk s) n = Ok p /\ pa (lk s) !! keeper D n = Some p /\ target nil (dat s) p.
Proof.
  intros (_ & _ & Hin & Hm) Hn Hout. unfold parent_r.
  assert (forall x, is_Some (dat s !! x) -> (forall m, x ∉ tail (D m)) ->
    exists p, pa (lk s) !! x = Some p /\ target nil (dat s) p) as Hpa.
  { intros x Hx Hno. destruct (Hm x Hx) as (_ & _ & l & r & p & _ & _ & Hp & _ & _ & [?|(_ & m & ?)]); [eauto|]. by destruct (Hno m). }
  pose proof (ir_ring _ _ Hin n) as Hr. unfold dup, keeper. destruct (D n) as [|d r] eqn:ED.
  - rewrite (ir_none _ _ Hin n Hn ED Hout). split; [done|]. bind.
    destruct (Hpa n Hn) as (p & Hp & Ht). { intros m Hx. apply (Hout m). destruct (D m); [done|by right]. }
    exists p. unfold rd. rewrite Hp. done.
  - destruct Hr as (Hp & Hl & Hz).
    assert (d ∈ D n) as Hd by (rewrite ED; left).
    assert (forall x, x ∈ D n -> is_Some (dat s !! x)) as Hkn. { intros x Hx. destruct (ir_key _ _ Hin n x Hx) as (? & ? & _ & ? & _). eauto. }
    assert (has_dups (lk s) n = Ok true) as ->.
    { unfold has_dups. destruct (Hm n Hn) as (Hnn & _ & _). rewrite (proj2 (Nat.eqb_neq n nil)) by done.
      unfold rd. rewrite Hp. bind. destruct (Hm d (Hkn d Hd)) as (Hdn & _ & _). rewrite (proj2 (Nat.eqb_neq d nil)) by done.
      pose proof (linked_prev (lk s) [] d r Hl) as Hprev. rewrite Hprev. bind. cbn [app] in *. rewrite app_nil_r in *.
      set (z := hd d (rev r)) in *. assert (z ∈ D n /\ rt (lk s) !! z = Some d) as [Hz1 Hz2].
      { destruct r as [|r0 r _] using rev_ind.
        - cbn in z. subst z. split; [done|]. apply (linked_next (lk s) [] d [] Hl).
        - subst z. rewrite rev_app_distr. cbn [rev app hd]. split.
          + rewrite ED, elem_of_cons, elem_of_app. right. right. left.
          + change (d :: r ++ [r0]) with ((d :: r) ++ [r0]) in Hl. by rewrite (linked_next (lk s) _ _ _ Hl). }
      destruct (Hm z (Hkn z Hz1)) as (Hzn & _ & _). rewrite (proj2 (Nat.eqb_neq z nil)) by done.
      rewrite Hz2. bind. by rewrite Nat.eqb_refl. }
    split; [done|]. bind.
    destruct (Hpa d (Hkn d Hd)) as (p & Hdp & Ht).
    { intros m Hx. assert (d ∈ D m) as Hdm by (destruct (D m); [done|by right]). pose proof (ir_apart _ _ Hin n m d Hd Hdm) as <-.
      rewrite ED in Hx. cbn in Hx. pose proof (ir_NoDup _ _ Hin n) as Hnd. rewrite ED in Hnd. by apply NoDup_cons in Hnd as [? _]. }
    exists p. rewrite (rd_Ok _ _ _ Hp). bind. rewrite (rd_Ok _ _ _ Hdp). done.
Qed.

Lemma mstoring_parent_total s D t (Hm : omm_memory s D) p u f :
  TreeValid.shape nil (lk s) u -> (forall z, z ∈ nodes u -> z ∈ nodes t /\ is_Some (dat s !! z) /\ forall m, z ∉ D m) ->
  length (nodes u) < f ->
  exists b, mstoring_parent f (lk s) p (ptr u) = Ok b /\ (b = true -> rep (flat (of_tree D t) (nodes t) (lk s)) p u).
Proof.
  revert p f. induction u as [|l IHl x r IHr]; intros p f Hsh Hk Hf; destruct f as [|f]; try (cbn in Hf; lia).
  { exists true. done. }
  destruct Hsh as (Hlf & Hrt & Hx & Hl & Hr). cbn [nodes mstoring_parent] in *. rewrite app_length in Hf. cbn [length] in Hf.
  cbn [TreeProofs.ptr]. rewrite (proj2 (Nat.eqb_neq x nil)) by done.
  destruct (Hk x) as (Hxt & Hxd & Hxo); [rewrite elem_of_app; right; left|].
  destruct (has_dups_in s D x Hm Hxd Hxo) as (-> & p' & -> & Hp' & Ht). bind.
  destruct (Nat.eqb_spec p' p) as [-> |Hne]; cbn [negb].
  - unfold rd. rewrite Hlf. bind. destruct (IHl x f Hl) as (b1 & -> & Hb1); [|lia|].
    { intros z Hz. apply Hk. rewrite elem_of_app. by left. }
    bind. destruct b1; cbn [negb]; [|by exists false]. rewrite Hrt. bind.
    destruct (IHr x f Hr) as (b2 & -> & Hb2); [|lia|].
    { intros z Hz. apply Hk. rewrite elem_of_app. right. by right. }
    exists b2. split; [done|]. intros Hb. split_and!; try done; [|by apply Hb1|by apply Hb2].
    rewrite flat_in by done. unfold keeper in *. by rewrite of_tree_in.
  - destruct (dup D x); [by exists false|].
    assert (is_Some (pa (lk s) !! p')) as [q Hq].
    { destruct Hm as ((_ & _ & ?) & _ & _ & Hm). destruct Ht as [-> |Ht]; [done|].
      destruct (Hm p' Ht) as (_ & _ & ? & ? & ? & _ & _ & ? & _). eauto. }
    unfold rd. rewrite Hq. by exists false.
Qed.

Lemma filter_rows D (dat : gmap nat (K * V)) N k :
  (forall n, n ∈ N -> forall x, x ∈ D n -> eqk cmp dat k x = eqk cmp dat k n) ->
  List.filter (eqk cmp dat k) (rows D N) = rows D (List.filter (eqk cmp dat k) N).
Proof.
  intros H. induction N as [|n N IH]; [done|].
  change (rows D (n :: N)) with ((n :: D n) ++ rows D N). rewrite List.filter_app, IH by (intros m Hm; apply H; by right).
  cbn [List.filter]. assert (forall x, x ∈ D n -> eqk cmp dat k x = eqk cmp dat k n) as Hn by (intros x; apply H; left).
  destruct (eqk cmp dat k n) eqn:E.
  - change (rows D (n :: List.filter (eqk cmp dat k) N)) with ((n :: D n) ++ rows D (List.filter (eqk cmp dat k) N)).
    f_equal. f_equal. clear -Hn. induction (D n) as [|x l IH]; [done|]. cbn. rewrite Hn by left. f_equal. apply IH. intros y Hy. apply Hn. by right.
  - assert (List.filter (eqk cmp dat k) (D n) = []) as ->; [|done].
    clear -Hn. induction (D n) as [|x l IH]; [done|]. cbn. rewrite Hn by left. apply IH. intros y Hy. apply Hn. by right.
Qed.

Lemma rows_NoDup D N : NoDup N -> (forall n, NoDup (D n)) -> (forall n m x, x ∈ D n -> x ∈ D m -> n = m) ->
  (forall n x, x ∈ D n -> x ∉ N) -> NoDup (rows D N).
Proof.
  intros HN HD Hi Ho. induction N as [|n N IH]; [constructor|]. apply NoDup_cons in HN as [Hn HN].
  change (rows D (n :: N)) with ((n :: D n) ++ rows D N). apply NoDup_app. split_and!.
  - apply NoDup_cons. split; [|done]. intros Hx. apply (Ho n n Hx). left.
  - intros x Hx (m & Hm & Hx')%elem_of_rows. apply elem_of_cons in Hx as [-> |Hx].
    + apply elem_of_cons in Hx' as [-> |Hx']; [done|]. apply (Ho m n Hx'). left.
    + apply elem_of_cons in Hx' as [-> |Hx']; [apply (Ho n m Hx); by right|]. pose proof (Hi n m x Hx Hx') as ->. done.
  - apply IH; [done|]. intros m x Hx Hin. apply (Ho m x Hx). by right.
Qed.

Lemma tree_groups s D t : omm_memory s D -> sorted cmp (dat s) (nodes t) -> (forall n x, x ∈ D n -> x ∉ nodes t) ->
  groups cmp (dat s) (nodes t) (of_tree D t) (rows (of_tree D t) (nodes t)).
Proof.
  intros (_ & _ & Hin & _) Hs Hout. assert (NoDup (nodes t)) as Hnd by (by apply (sorted_NoDup cmp Hcmp (dat s))). split.
  - done.
  - apply rows_NoDup; [done|..].
    + intros n. unfold of_tree. destruct (decide _); [apply (ir_NoDup _ _ Hin)|constructor].
    + intros n m x [_ Hx]%of_tree_sub [_ Hx']%of_tree_sub. by apply (ir_apart _ _ Hin n m x).
    + intros n x [_ Hx]%of_tree_sub. by apply (Hout n).
  - intros x Hx. by apply elem_of_rows.
  - intros n kv Hn Hkv. rewrite filter_rows.
    + assert (List.filter (eqk cmp (dat s) (fst kv)) (nodes t) = [n]) as ->; [|unfold rows; cbn; by rewrite app_nil_r].
      destruct Hs as [Hs _]. apply elem_of_list_split in Hn as (l1 & l2 & Hl). rewrite Hl in Hs |- *. 
      apply StronglySorted_app in Hs as (_ & Hs & Hcr). apply StronglySorted_inv in Hs as [_ Hs]. rewrite Forall_forall in Hs.
      rewrite List.filter_app. cbn [List.filter].
      assert (forall l, (forall x, x ∈ l -> klt cmp (dat s) x n \/ klt cmp (dat s) n x) -> List.filter (eqk cmp (dat s) (fst kv)) l = []) as Hno.
      { intros l Hx. induction l as [|x l IH]; [done|]. cbn. rewrite IH by (intros y Hy; apply Hx; by right).
        assert (eqk cmp (dat s) (fst kv) x = false) as ->; [|done]. unfold eqk.
        destruct (Hx x) as [(a & b & Ha & Hb & Hab)|(a & b & Ha & Hb & Hab)]; [left|..].
        - rewrite Ha. assert (b = kv) as -> by congruence. apply (cmp_flip cmp Hcmp) in Hab. by rewrite Hab.
        - rewrite Hb. assert (a = kv) as -> by congruence. by rewrite Hab. }
      rewrite (Hno l1), (Hno l2).
      * assert (eqk cmp (dat s) (fst kv) n = true) as ->; [|done]. apply eqk_true. exists kv. split; [done|apply (cmp_refl cmp Hcmp)].
      * intros x Hx. right. by apply Hs.
      * intros x Hx. left. apply Hcr; [done|left].
    + intros m Hm x [_ Hx]%of_tree_sub. destruct (ir_key _ _ Hin m x Hx) as (km & kx & Hkm & Hkx & He).
      unfold eqk. rewrite Hkm, Hkx. by rewrite (cmp_eq_r cmp Hcmp _ _ (fst kv) He).
Qed.

Lemma validate_tree s D : omm_memory s D ->
  exists b, omm_validate cmp s = Ok b /\
    (b = true -> exists t, wf (lk s) t (of_tree D t) /\ root s = ptr t /\
      groups cmp (dat s) (nodes t) (of_tree D t) (rows (of_tree D t) (nodes t)) /\
      sz s = Z.of_nat (length (rows (of_tree D t) (nodes t)))).
Proof.
  intros Hm. pose proof Hm as (Hlive & Hroot & Hin & Hall). pose proof (branches_readable s D Hm) as Hmem.
  assert (dat s !! nil = None) as Hdn.
  { destruct (dat s !! nil) as [kv|] eqn:E; [|done]. destruct (Hall nil) as (? & _); [by eexists|done]. }
  unfold omm_validate. rewrite (subtrees_valid_br cmp (dat s) _ (lk s) (branches s)) by done.
  destruct (TreeValid.subtrees_valid_total nil cmp Hcmp (fun p => p =? 0) (dat s) (branches s) Hmem (S (S (size (lf (lk s))))) nil (root s) nil)
    as (b1 & -> & Hb1).
  { by left. } { by left. } { destruct Hroot as [?| ->]; [by left|by right]. }
  { pose proof (TreeValid.room_size nil cmp _ (dat s) (branches s) Hmem nil nil). cbn in *. lia. }
  bind. destruct b1; cbn [negb]; [|by exists false].
  destruct Hb1 as (t & Hsh & Hpt & Hs & Hk); [done|]. rewrite <- Hpt.
  assert (length (nodes t) <= size (lf (lk s))) as Hlen.
  { change (lf (lk s)) with (lf (branches s)). apply (TreeValid.sorted_size nil cmp Hcmp _ (dat s) (branches s) Hmem); [done|]. intros z Hz. by apply Hk. }
  assert (TreeValid.shape nil (lk s) t) as Hsh'.
  { clear -Hsh. induction t as [|l IHl x r IHr]; [done|]. destruct Hsh as (? & ? & ? & ? & ?). split_and!; auto. }
  assert (sorted cmp (dat s) (nodes t)) as Hso. { split; [done|]. apply Forall_forall. intros z Hz. by apply Hk. }
  pose proof (ring_not_node s D t Hin Hdn Hsh' Hso) as Hout.
  destruct (mstoring_parent_total s D t Hm nil t (S (S (size (lf (lk s)))))) as (b2 & -> & Hb2).
  { done. } { intros z Hz. split_and!; [done|by apply Hk|]. intros m Hx. by apply (Hout m z). } { lia. }
  bind. destruct b2; cbn [negb]; [|by exists false]. specialize (Hb2 eq_refl).
  assert (wf (lk s) t (of_tree D t)) as Hwf.
  { split; [done|done|..].
    - intros n Hn. rewrite of_tree_in by done. apply (ir_ring _ _ Hin).
    - intros n Hn. unfold of_tree. by rewrite decide_False.
    - assert (forall x, is_Some (dat s !! x) -> x <> nil /\ x <> 0) as Hne by (intros x Hx; destruct (Hall x Hx) as (? & ? & _); done).
      split_and!.
      + by apply (sorted_NoDup cmp Hcmp (dat s)).
      + intros Hx. destruct (Hne nil); [by apply Hk|done].
      + intros Hx. destruct (Hne 0); [by apply Hk|done].
      + intros n. unfold of_tree. destruct (decide _); [apply (ir_NoDup _ _ Hin)|constructor].
      + intros n x [_ Hx]%of_tree_sub. split; [by apply (Hout n)|]. apply Hne.
        destruct (ir_key _ _ Hin n x Hx) as (? & ? & _ & ? & _). eauto.
      + intros n m x [_ Hx]%of_tree_sub [_ Hx']%of_tree_sub. by apply (ir_apart _ _ Hin n m x). }
  rewrite (mrecursive_size_Ok (lk s) t (of_tree D t) Hwf t nil) by (done || lia). bind.
  eexists. split; [done|]. intros Hz%Z.eqb_eq. exists t. split_and!; [done..| |done]. by apply tree_groups.
Qed.

Lemma validate_decides s D : omm_memory s D -> exists b, omm_validate cmp s = Ok b.
Proof. intros Hm. destruct (validate_tree s D Hm) as (b & ? & _). by exists b. Qed.

Lemma validate_repr s D (alloc : bool) : omm_memory s D -> omm_validate cmp s = Ok true ->
  (alloc = true -> forall x, is_Some (dat s !! x) -> x ∈ heap s) ->
  exists A, repr cmp alloc s A /\ vals A = dat s /\ mem A = heap s.
Proof.
  intros Hm Hv Hheap. destruct (validate_tree s D Hm) as (b & Hv' & Hb).
  assert (b = true) as -> by congruence. destruct (Hb eq_refl) as (t & Hwf & Hroot & Hg & Hsz).
  pose proof Hm as (_ & _ & Hin & Hall).
  exists (View (rows (of_tree D t) (nodes t)) (dat s) (heap s)). split; [|done]. split; [|done].
  exists t, (of_tree D t). split; cbn; try done.
  - intros x kv Hx. destruct (Hall x) as (? & ? & ? & ? & ? & ? & ? & ? & _); [by eexists|]. split_and!; try done; eauto.
  - intros Ha x (n & Hn & Hx)%elem_of_rows. apply Hheap; [done|].
    destruct (MapProofs.sorted_dat cmp _ _ _ (gr_sorted _ _ _ _ _ Hg) Hn) as [kn Hkn].
    apply elem_of_cons in Hx as [-> |[_ Hx]%of_tree_sub]; [by eexists|].
    destruct (ir_key _ _ Hin n x Hx) as (? & ? & _ & ? & _). eauto.
Qed.

Lemma validate_usable s D (alloc : bool) off : omm_memory s D -> omm_validate cmp s = Ok true ->
  (alloc = true -> forall x, is_Some (dat s !! x) -> x ∈ heap s) ->
  exists A, vals A = dat s /\ mem A = heap s /\
    shown cmp A (omm_size s) (omm_iter s false) (omm_iter s true) (omm_validate cmp s) /\
    forall ops rs A', calls cmp (kept alloc off) A ops rs A' ->
    exists s', omm_run cmp alloc off s ops = Ok (s', rs) /\
      shown cmp A' (omm_size s') (omm_iter s' false) (omm_iter s' true) (omm_validate cmp s').
Proof.
  intros Hm Hv Hh. destruct (validate_repr s D alloc Hm Hv Hh) as (A & Hr & ? & ?). exists A. split; [done|]. split; [done|]. split; [by apply (shown_Ok cmp Hcmp alloc)|].
  intros ops rs A' Hc. destruct (run_Ok cmp Hcmp alloc off s A ops rs A' Hr Hc) as (s' & Hrun & Hr').
  exists s'. split; [done|]. by apply (shown_Ok cmp Hcmp alloc).
Qed.
End valid.
