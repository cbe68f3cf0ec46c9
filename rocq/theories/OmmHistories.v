(** Every permitted history of calls on a multimap. *)
From Coq Require Import Sorted.
From stdpp Require Import base numbers option gmap fin_maps list.
From Verif Require Import Common LinkHeap PathLemmas OrderSpec TreeModel TreeProofs SplayModel MapOps OmModel OmmOps OmmModel
  OmmSpec OmmProofs OmmRings OmmGroups OmmWalk OmmCalls.
From Verif Require MapProofs OmProofs.

Local Ltac bind := cbn [mbind outcome_bind obind].

(** ** Lists *)

Lemma first_skip (P : nat -> Prop) l1 l2 x : (forall z, z ∈ l1 -> ~ P z) -> first P (l1 ++ l2) x <-> first P l2 x.
Proof.
  intros H. induction l1 as [|y l1 IH]; [done|]. cbn [app]. split.
  - intros Hf. inversion Hf; subst; [exfalso; by apply (H x); [left|]|].
    apply IH; [|done]. intros z Hz. apply H. by right.
  - intros Hf. apply first_later; [apply H; left|]. apply IH; [|done]. intros z Hz. apply H. by right.
Qed.
Lemma first_hd (P : nat -> Prop) l x : (forall z, z ∈ l -> P z) -> first P l x -> x = hd 0 l.
Proof. intros H Hf. destruct Hf as [|x l Hx|x l y Hx Hf]; [done|done|]. exfalso. apply Hx, H. left. Qed.

Lemma first_rows (P : nat -> Prop) D l x :
  (forall n y, n ∈ l -> y ∈ D n -> P y -> P n) -> first P (rows D l) x -> first P l x.
Proof.
  induction l as [|n l IH]; intros H Hf; [done|].
  change (rows D (n :: l)) with (n :: (D n ++ rows D l)) in Hf.
  inversion Hf as [|? ? Hn|? ? ? Hn Hf']; subst; [by apply first_here|]. apply first_later; [done|].
  apply IH; [intros m y Hm; apply H; by right|]. apply first_skip in Hf'; [done|].
  intros z Hz Hp. apply Hn. apply (H n z); [left|done|done].
Qed.

Lemma sublist_pair_rest {X} (x y z : X) l1 l2 :
  [y; z] `sublist_of` l1 ++ x :: l2 -> y <> x -> z <> x -> [y; z] `sublist_of` l1 ++ l2.
Proof.
  intros (u & v & Huv & Hu & Hv)%sublist_app_r Hy Hz. rewrite Huv. apply sublist_app; [done|].
  apply sublist_cons_r in Hv as [Hv|(w & -> & Hv)]; [done|]. exfalso.
  assert (x ∈ [y; z]) as Hx by (rewrite Huv, elem_of_app; right; left).
  rewrite !elem_of_cons, elem_of_nil in Hx. destruct Hx as [?|[?|?]]; congruence.
Qed.

Lemma foldr_delete_comm {X} (m : gmap nat X) x l : foldr delete (delete x m) l = delete x (foldr delete m l).
Proof. induction l as [|y l IH]; [done|]. cbn [foldr]. rewrite IH. apply delete_commute. Qed.

Section histories.
Context {K V : Type} (cmp : K -> K -> comparison) (Hcmp : total_preorder cmp) (alloc : bool) (off : nat).
Implicit Types (s : om K V) (A : view K V) (D : nat -> list nat).
Notation repr := (repr cmp alloc).
Notation core := (core cmp alloc).
Notation c := (kept alloc off).

Lemma listing_NoDup A d l : NoDup (queue A) -> listing cmp A d l -> NoDup l.
Proof. intros Hnd [Hp _]. by rewrite Hp. Qed.

(** The first of a listing is the last in the other direction. *)
Lemma listing_extreme A d x l :
  NoDup (queue A) -> (forall z, z ∈ queue A -> exists kv, vals A !! z = Some kv) -> listing cmp A (negb d) (x :: l) ->
  exists l1 l2, extreme cmp A d l1 x l2 /\ listing cmp (set_queue A (l1 ++ l2)) (negb d) l /\ x ∉ l1 ++ l2.
Proof.
  intros Hnd Hdat [Hp Hs].
  assert (x ∈ queue A) as Hxq by (rewrite <- Hp; left). destruct (Hdat x Hxq) as [kx Hkx].
  apply elem_of_list_split in Hxq as (l1 & l2 & Hq).
  pose proof Hnd as Hnd'. rewrite Hq, <- Permutation_middle in Hnd'. apply NoDup_cons in Hnd' as [Hx _].
  rewrite Hq, <- Permutation_middle in Hp. apply Permutation_cons_inv in Hp.
  apply StronglySorted_inv in Hs as [Hs Hall]. rewrite Forall_forall in Hall.
  assert (forall y, y ∈ l1 ++ l2 -> exists b, vals A !! y = Some b /\
    (cmp (fst kx) (fst b) = (if d then Gt else Lt) \/ cmp (fst kx) (fst b) = Eq /\ [x; y] `sublist_of` queue A)) as Hy.
  { intros y Hy. rewrite <- Hp in Hy. destruct (Hall y Hy) as (a & b & Ha & Hb & Hab). simplify_eq.
    exists b. split; [done|]. by destruct d. }
  exists l1, l2. split_and!; [|split; [done|]|done].
  - split; [done|]. exists kx. split_and!; [done|..]; apply Forall_forall; intros y Hin.
    + destruct (Hy y) as (b & Hb & [Hc|[Hc Hsub]]); [rewrite elem_of_app; by left|by exists b|]. exfalso.
      apply (sublist_pair_asym x y (queue A)); [done|done|]. rewrite Hq. apply sublist_pair.
      apply elem_of_list_split in Hin as (m1 & m2 & ->). exists m1, m2, l2. by rewrite <- app_assoc.
    + destruct (Hy y) as (b & Hb & [Hc|[Hc Hsub]]); [rewrite elem_of_app; by right|left; by exists b|right; by exists b].
  - cbn [vals queue set_queue]. clear Hall.
    assert (forall z, z ∈ l -> z <> x) as Hzx by (intros z Hz ->; by rewrite Hp in Hz).
    clear Hp. induction Hs as [|y l Hs IH Hall]; constructor.
    + apply IH. intros z Hz. apply Hzx. by right.
    + rewrite Forall_forall in Hall |- *. intros z Hz. destruct (Hall z Hz) as (a & b & Ha & Hb & Hab).
      exists a, b. split_and!; [done..|]. destruct Hab as [Hab|[Hab Hsub]]; [by left|right]. split; [done|].
      rewrite Hq in Hsub. apply (sublist_pair_rest x); [done|apply Hzx; left|apply Hzx; by right].
Qed.

Lemma listing_nil A d l : listing cmp A d l -> queue A = [] <-> l = [].
Proof. intros [Hp _]. split; [intros Hq; rewrite Hq in Hp; by apply Permutation_nil_r|intros ->; by apply Permutation_nil]. Qed.

Lemma keyed_ext A A' o k x : vals A' !! x = vals A !! x -> keyed cmp A o k x <-> keyed cmp A' o k x.
Proof. unfold keyed. by intros ->. Qed.
Lemma absent_ext A A' k : queue A' = queue A -> (forall z, z ∈ queue A -> vals A' !! z = vals A !! z) ->
  absent cmp A k -> absent cmp A' k.
Proof.
  unfold absent. intros -> Hv. rewrite !Forall_forall. intros H x Hx. rewrite <- (keyed_ext A A') by auto. by apply H.
Qed.
Lemma present_ext A A' k l1 x l2 : queue A' = queue A -> (forall z, z ∈ queue A -> vals A' !! z = vals A !! z) ->
  present cmp A k l1 x l2 -> present cmp A' k l1 x l2.
Proof.
  intros Hq' Hv (Hq & Hx & Hl). rewrite Hq in Hv. split_and!; [congruence|..].
  - apply (keyed_ext A A'); [|done]. apply Hv. rewrite elem_of_app. right. left.
  - rewrite Forall_forall in Hl |- *. intros z Hz. rewrite <- (keyed_ext A A'); [auto|]. apply Hv. rewrite elem_of_app. by left.
Qed.

(** ** Facts about represented maps *)

Lemma repr_NoDup s A : repr s A -> NoDup (queue A).
Proof. intros [(t & D & H) _]. by apply (core_NoDup cmp alloc s A t D). Qed.
Lemma repr_data s A x : repr s A -> x ∈ queue A -> exists kv, vals A !! x = Some kv.
Proof. intros [(t & D & H) _]. by apply (core_data cmp alloc s A t D). Qed.
Lemma repr_live s A x kv : repr s A -> vals A !! x = Some kv -> live (lk s) x /\ x <> 0 /\ x <> nil.
Proof. intros [(t & D & H) _]. apply (co_live _ _ _ _ _ _ H). Qed.
Lemma repr_value s A x kv : repr s A -> vals A !! x = Some kv -> value (dat s) x = Ok kv.
Proof. intros [(t & D & H) _]. by apply (core_value cmp alloc s A t D). Qed.
Lemma repr_mem s A x : repr s A -> alloc = true -> x ∈ queue A -> x ∈ mem A.
Proof. intros [(t & D & H) _] Ha. by apply (co_mem _ _ _ _ _ _ H Ha). Qed.
Lemma repr_ne s A x : repr s A -> x ∈ queue A -> x <> 0 /\ x <> nil.
Proof. intros Hr Hx. destruct (repr_data s A x Hr Hx) as [kv Hkv]. by destruct (repr_live s A x kv Hr Hkv) as (_ & ? & ?). Qed.
Lemma repr_sz s A : repr s A -> sz s = Z.of_nat (length (queue A)).
Proof. by intros [_ ?]. Qed.
Lemma core_repr s s' A t D : repr s A -> core s' A t D -> sz s' = sz s -> repr s' A.
Proof. intros [_ Hsz] H Hs. split; [by exists t, D|congruence]. Qed.
Lemma present_in A k l1 x l2 : present cmp A k l1 x l2 -> x ∈ queue A.
Proof. intros (-> & _). rewrite elem_of_app. right. left. Qed.
Lemma extreme_in A d l1 x l2 : extreme cmp A d l1 x l2 -> x ∈ queue A.
Proof. intros (-> & _). rewrite elem_of_app. right. left. Qed.

(** ** Walking *)

Lemma begin_Ok s A d l : repr s A -> listing cmp A d l -> omm_begin s d = Ok (hd 0 l).
Proof.
  intros Hr Hl. unfold omm_begin. rewrite (repr_sz s A Hr). destruct Hr as [(t & D & H) Hsz].
  pose proof (listing_is cmp Hcmp A _ D d l (co_groups _ _ _ _ _ _ H) Hl) as ->.
  rewrite (co_root _ _ _ _ _ _ H).
  assert (t = E \/ t <> E) as [Et|Hne] by (destruct t; auto).
  - rewrite (proj1 (core_empty cmp alloc s A t D H) Et), Et. by destruct d.
  - assert (queue A <> []) as Hq by (by rewrite <- (core_empty cmp alloc s A t D H)).
    destruct (Z.eqb_spec (Z.of_nat (length (queue A))) 0) as [He|_]; [destruct (queue A); [done|cbn in He; lia]|].
    rewrite (edge_br (lk s) (flat D (nodes t) (lk s))) by done.
    destruct (edge_Ok nil (flat D (nodes t) (lk s)) (negb d) t nil (wf_rep _ _ _ (co_wf _ _ _ _ _ _ H))
      (core_nodes cmp alloc s A t D H) Hne) as (m & x & Ho & ->).
    rewrite ord_negb in Ho. apply (f_equal (@rev nat)) in Ho. rewrite rev_involutive, rev_app_distr in Ho.
    by rewrite Ho.
Qed.

Lemma next_Ok s A d e l1 l2 : repr s A -> listing cmp A d (l1 ++ e :: l2) -> omm_next s d e = Ok (hd 0 l2).
Proof.
  intros Hr Hl.
  assert (forall z, z ∈ l1 ++ e :: l2 -> z <> 0 /\ z <> nil) as Hz.
  { intros z Hz. apply (repr_ne s A z Hr). by rewrite <- (proj1 Hl). }
  unfold omm_next. destruct (Hz e) as [He0 _]; [rewrite elem_of_app; right; left|].
  rewrite (proj2 (Nat.eqb_neq e 0)) by done.
  pose proof (listing_NoDup A d _ (repr_NoDup s A Hr) Hl) as Hnd.
  destruct Hr as [(t & D & H) Hsz].
  pose proof (listing_is cmp Hcmp A _ D d _ (co_groups _ _ _ _ _ _ H) Hl) as El. rewrite El in Hnd.
  rewrite (co_root _ _ _ _ _ _ H).
  rewrite (multimap_next_Ok (lk s) t D d e l1 l2 (co_wf _ _ _ _ _ _ H) (eq_sym El) Hnd). bind.
  destruct l2 as [|y l2]; [done|]. cbn. destruct (Hz y) as [_ Hy]; [rewrite elem_of_app; right; right; left|].
  by apply Nat.eqb_neq in Hy as ->.
Qed.

Lemma walk_Ok s A d ps l1 fuel :
  repr s A -> listing cmp A d (l1 ++ map fst ps) -> Forall (fun p => vals A !! fst p = Some (snd p)) ps ->
  length ps < fuel -> mwalk fuel s d (hd 0 (map fst ps)) = Ok ps.
Proof.
  intros Hr. revert ps l1. induction fuel as [|f IH]; intros ps l1 Ho HF Hlen; [lia|].
  destruct ps as [|[x kv] ps]; [done|]. cbn [map fst hd mwalk].
  apply Forall_cons in HF as [Hx HF]. cbn [fst snd] in Hx.
  destruct (repr_live s A x kv Hr Hx) as (_ & Hx0 & _). rewrite (proj2 (Nat.eqb_neq x 0)) by done.
  rewrite (repr_value s A x kv) by done. bind. cbn [map fst] in Ho.
  rewrite (next_Ok s A d x l1 (map fst ps)) by done. bind.
  rewrite (IH ps (l1 ++ [x])); [done| |done|cbn in Hlen; lia]. by rewrite <- app_assoc.
Qed.

Lemma repr_length s A : repr s A -> length (queue A) <= size (lf (lk s)).
Proof.
  intros [(t & D & H) _]. apply (wf_size (lk s) t D); [apply H|by apply (core_NoDup cmp alloc s A t D)|].
  intros x Hx. apply (core_span cmp alloc s A t D H). by right.
Qed.

Lemma iter_Ok s A d l ps : repr s A -> listing cmp A d l -> with_data A l ps -> omm_iter s d = Ok ps.
Proof.
  intros Hr Hl [<- HF]. unfold omm_iter. rewrite (begin_Ok s A d _ Hr Hl). bind.
  apply (walk_Ok s A d ps []); try done.
  pose proof (repr_length s A Hr) as Hlen. rewrite <- (proj1 Hl), map_length in Hlen. lia.
Qed.

Lemma repr_listing s A d : repr s A -> exists l ps, listing cmp A d l /\ with_data A l ps.
Proof.
  intros Hr. pose proof Hr as [(t & D & H) _]. pose proof (listing_rows cmp Hcmp A _ D d (co_groups _ _ _ _ _ _ H)) as Hl.
  destruct (OmProofs.with_data (vals A) (rows D (ord d (nodes t)))) as (ps & Hps & HF).
  { intros x Hx. apply (repr_data s A x Hr). by rewrite <- (proj1 Hl). }
  exists (rows D (ord d (nodes t))), ps. done.
Qed.

Lemma validate_Ok s A : repr s A -> omm_validate cmp s = Ok true.
Proof.
  intros Hr. pose proof (repr_length s A Hr) as Hlen. pose proof (repr_sz s A Hr) as Hsz.
  destruct Hr as [(t & D & H) _]. pose proof (co_groups _ _ _ _ _ _ H) as Hg. pose proof (co_wf _ _ _ _ _ _ H) as Hw.
  assert (length (nodes t) <= length (queue A)) as Hle.
  { apply submseteq_length, NoDup_submseteq; [apply (core_nodes cmp alloc s A t D H)|].
    intros n. apply (core_node cmp alloc s A t D H). }
  unfold omm_validate. rewrite (co_root _ _ _ _ _ _ H).
  rewrite (subtrees_valid_br cmp (dat s) _ (lk s) (flat D (nodes t) (lk s))) by done.
  rewrite (subtrees_valid_Ok nil cmp Hcmp (dat s) _ _ nil t); [bind; cbn [negb]|apply Hw| |lia| |by left|by left].
  - rewrite (mstoring_parent_Ok (lk s) t D Hw t nil) by (try apply Hw; (done || lia)). bind. cbn [negb].
    rewrite (mrecursive_size_Ok (lk s) t D Hw t nil) by (try apply Hw; (done || lia)). bind.
    pose proof (listing_rows cmp Hcmp A _ D true Hg) as [Hp _]. cbn [ord] in Hp.
    rewrite Hp, Hsz. by rewrite Z.eqb_refl.
  - rewrite (co_dat _ _ _ _ _ _ H). apply Hg.
  - destruct (wf_apart _ _ _ Hw) as (_ & _ & H0 & _).
    intros z [-> |Hz]%elem_of_cons; [done|]. apply Nat.eqb_neq. by intros ->.
Qed.

Lemma shown_Ok s A : repr s A ->
  shown cmp A (omm_size s) (omm_iter s false) (omm_iter s true) (omm_validate cmp s).
Proof.
  intros Hr. split_and!.
  - unfold omm_size. by rewrite (repr_sz s A Hr).
  - by apply (validate_Ok s A).
  - destruct (repr_listing s A false Hr) as (l & ps & Hl & Hps). exists l, ps. split_and!; [done..|by apply (iter_Ok s A false l)].
  - destruct (repr_listing s A true Hr) as (l & ps & Hl & Hps). exists l, ps. split_and!; [done..|by apply (iter_Ok s A true l)].
Qed.

(** ** Ranges *)

Lemma side_ord s A a x b D t d k :
  core s A (T a x b) D -> nodes (T a x b) = nodes t ->
  (forall z, z ∈ nodes a -> side cmp (vals A) true k z) -> (forall z, z ∈ nodes b -> side cmp (vals A) false k z) ->
  exists P Q, ord d (nodes t) = P ++ x :: Q /\
    (forall z, z ∈ P -> side cmp (vals A) d k z) /\ (forall z, z ∈ Q -> side cmp (vals A) (negb d) k z).
Proof.
  intros _ He Ha Hb. cbn [nodes] in He. rewrite <- He. destruct d.
  - by exists (nodes a), (nodes b).
  - exists (rev (nodes b)), (rev (nodes a)). cbn. rewrite rev_app_distr. cbn. rewrite <- app_assoc. split_and!; [done| |];
      intros z Hz; rewrite <- Permutation_rev in Hz; auto.
Qed.

Lemma keyed_fun A o o' k x : keyed cmp A o k x -> keyed cmp A o' k x -> o = o'.
Proof. intros (a & Ha & <-) (b & Hb & <-). by simplify_eq. Qed.

Lemma keyed_group s A t D o k n y : core s A t D -> n ∈ nodes t -> y ∈ D n -> keyed cmp A o k y -> keyed cmp A o k n.
Proof.
  intros H Hn Hy (ky & Hky & Hc).
  destruct (gr_in cmp _ _ _ _ n y (co_groups _ _ _ _ _ _ H) Hn) as (_ & kn & ky' & Hkn & Hky' & He); [by right|]. simplify_eq.
  exists kn. split; [done|]. by apply (cmp_eq_r cmp Hcmp).
Qed.

Lemma tnext_Ok s A t D d n l1 l2 :
  core s A t D -> ord d (nodes t) = l1 ++ n :: l2 ->
  exists q, mtree_next (lk s) (root s) d n = Ok q /\ (if q =? nil then 0 else q) = hd 0 l2.
Proof.
  intros H Ho. rewrite (co_root _ _ _ _ _ _ H).
  rewrite (mtree_next_Ok (lk s) t D d n l1 l2 (co_wf _ _ _ _ _ _ H) Ho). eexists. split; [done|].
  destruct l2 as [|y l2]; [done|]. cbn. destruct (Nat.eqb_spec y nil) as [-> |]; [|done]. exfalso.
  destruct (wf_apart _ _ _ (co_wf _ _ _ _ _ _ H)) as (_ & Hnil & _). apply Hnil, (elem_of_ord d).
  rewrite Ho, elem_of_app. right. right. left.
Qed.

Lemma range_Ok s A d a b l X Y :
  repr s A -> listing cmp A d l ->
  first (fun z => keyed cmp A (dirc (negb d)) a z \/ keyed cmp A Eq a z) l X ->
  first (keyed cmp A (dirc (negb d)) b) l Y ->
  exists s', omm_range cmp s d a b = Ok (s', (X, Y)) /\ repr s' A.
Proof.
  intros Hr Hl HX HY. unfold omm_range. pose proof (repr_sz s A Hr) as Hsz. pose proof Hr as [(t & D & H) _].
  pose proof (listing_is cmp Hcmp A _ D d _ (co_groups _ _ _ _ _ _ H) Hl) as El. rewrite El in HX, HY.
  apply first_rows in HX; cycle 1.
  { intros n y Hn Hy. rewrite elem_of_ord in Hn. intros [Hk|Hk]; [left|right]; by apply (keyed_group s A t D _ _ n y H Hn Hy). }
  apply first_rows in HY; cycle 1.
  { intros n y Hn Hy. rewrite elem_of_ord in Hn. by apply (keyed_group s A t D _ _ n y H Hn Hy). }
  clear El Hl l.
  rewrite Hsz. destruct (Z.eqb_spec (Z.of_nat (length (queue A))) 0) as [He|Hne].
  { exists s. split; [|done]. assert (queue A = []) as Hnil by (destruct (queue A); [done|cbn in He; lia]).
    pose proof (proj2 (core_empty cmp alloc s A t D H) Hnil) as Et.
    assert (ord d (nodes t) = []) as Eo by (rewrite Et; by destruct d). rewrite Eo in HX, HY.
    assert (forall P, first P [] X -> X = 0) as HX' by (by inversion 1).
    assert (forall P, first P [] Y -> Y = 0) as HY' by (by inversion 1).
    by rewrite (HX' _ HX), (HY' _ HY). }
  assert (queue A <> []) as Hne' by (intros He; by rewrite He in Hne).
  destruct (core_splay cmp Hcmp alloc s A t D H a Hne') as (s1 & ta & x & tb & kx & -> & H1 & Hn1 & Hsz1 & Hx & _ & Ha & Hb).
  bind. rewrite (core_cmpk cmp alloc s1 A _ D H1 a x kx Hx). bind.
  destruct (side_ord s1 A ta x tb D t d a H1 Hn1 Ha Hb) as (P & Q & Ho & HP & HQ).
  assert (exists x', (if cmp_is (cmp a (fst kx)) (if d then Gt else Lt)
    then mtree_next (lk s1) (root s1) d x else Ok x) = Ok x' /\ (if x' =? nil then 0 else x') = X) as (x' & -> & HX').
  { assert (forall z, z ∈ P -> ~ (keyed cmp A (dirc (negb d)) a z \/ keyed cmp A Eq a z)) as HnP.
    { intros z Hz Hk. specialize (HP z Hz). destruct Hk as [Hk|Hk]; pose proof (keyed_fun A _ _ _ _ Hk HP); by destruct d. }
    rewrite Ho in HX. apply first_skip in HX; [|done].
    destruct (cmp_is (cmp a (fst kx)) (if d then Gt else Lt)) eqn:E.
    - rewrite <- Hn1 in Ho. destruct (tnext_Ok s1 A _ D d x P Q H1 Ho) as (q & -> & Hq). exists q. split; [done|]. rewrite Hq.
      symmetry. apply (first_hd (fun z => keyed cmp A (dirc (negb d)) a z \/ keyed cmp A Eq a z)).
      + intros z Hz. left. by apply HQ.
      + change (x :: Q) with ([x] ++ Q) in HX. apply first_skip in HX; [done|].
        intros z ->%elem_of_list_singleton Hk.
        destruct Hk as [(w & Hw & Hcw)|(w & Hw & Hcw)]; assert (w = kx) as -> by congruence;
          rewrite Hcw in E; by destruct d.
    - exists x. split; [done|].
      destruct (repr_live s A x kx Hr Hx) as (_ & _ & Hxn). rewrite (proj2 (Nat.eqb_neq x nil)) by done.
      inversion HX as [| |? ? ? Hno]; subst; [done|]. exfalso. apply Hno.
      destruct (cmp a (fst kx)) eqn:Ec; destruct d; try done; try (by right; exists kx); by left; exists kx. }
  bind.
  destruct (core_splay cmp Hcmp alloc s1 A _ D H1 b Hne') as (s2 & ta2 & y & tb2 & ky & -> & H2 & Hn2 & Hsz2 & Hy & _ & Ha2 & Hb2).
  bind. rewrite (core_cmpk cmp alloc s2 A _ D H2 b y ky Hy). bind. rewrite Hn1 in Hn2.
  destruct (side_ord s2 A ta2 y tb2 D t d b H2 Hn2 Ha2 Hb2) as (P2 & Q2 & Ho2 & HP2 & HQ2).
  assert (exists y', (if cmp_is (cmp b (fst ky)) (if negb d then Gt else Lt)
    then Ok y else mtree_next (lk s2) (root s2) d y) = Ok y' /\ (if y' =? nil then 0 else y') = Y) as (y' & -> & HY').
  { assert (forall z, z ∈ P2 -> ~ keyed cmp A (dirc (negb d)) b z) as HnP.
    { intros z Hz Hk. specialize (HP2 z Hz). pose proof (keyed_fun A _ _ _ _ Hk HP2). by destruct d. }
    rewrite Ho2 in HY. apply first_skip in HY; [|done].
    destruct (cmp_is (cmp b (fst ky)) (if negb d then Gt else Lt)) eqn:E.
    - exists y. split; [done|].
      destruct (repr_live s A y ky Hr Hy) as (_ & _ & Hyn). rewrite (proj2 (Nat.eqb_neq y nil)) by done.
      inversion HY as [| |? ? ? Hno]; subst; [done|]. exfalso. apply Hno.
      destruct (cmp b (fst ky)) eqn:Ec; destruct d; try done; by exists ky.
    - rewrite <- Hn2 in Ho2. destruct (tnext_Ok s2 A _ D d y P2 Q2 H2 Ho2) as (q & -> & Hq). exists q. split; [done|]. rewrite Hq.
      symmetry. apply (first_hd (keyed cmp A (dirc (negb d)) b)).
      + intros z Hz. by apply HQ2.
      + change (y :: Q2) with ([y] ++ Q2) in HY. apply first_skip in HY; [done|].
        intros z ->%elem_of_list_singleton (w & Hw & Hcw). assert (w = ky) as -> by congruence.
        rewrite Hcw in E. by destruct d. }
  bind. rewrite HX', HY'. exists s2. split; [done|]. apply (core_repr s s2 A _ D Hr H2). congruence.
Qed.

(** ** Leaving for good *)

Lemma leaves_Ok s A l1 x l2 :
  repr s (set_queue A (l1 ++ l2)) -> x ∉ l1 ++ l2 -> x <> nil -> (alloc = true -> x ∈ mem A) ->
  exists s', (if alloc then give_back s x else Ok s) = Ok s' /\ repr s' (leaves c A l1 x l2).
Proof.
  intros Hr Hx Hn Hm. unfold leaves. cbn [allocates kept]. destruct alloc; [|by exists s].
  apply (give_back_Ok cmp Hcmp true s (set_queue A (l1 ++ l2)) x Hr Hx Hn). by apply Hm.
Qed.

Lemma in_rest A l1 x l2 : NoDup (queue A) -> queue A = l1 ++ x :: l2 -> x ∉ l1 ++ l2.
Proof. intros Hnd Hq. rewrite Hq, <- Permutation_middle in Hnd. by apply NoDup_cons in Hnd as [? _]. Qed.

Lemma erase_end_leaves s A d l1 x l2 :
  repr s A -> extreme cmp A d l1 x l2 ->
  exists s1 s', erase_end cmp s d = Ok (s1, x) /\ repr s1 (set_queue A (l1 ++ l2)) /\
    (if alloc then give_back s1 x else Ok s1) = Ok s' /\ repr s' (leaves c A l1 x l2).
Proof.
  intros Hr Hx. destruct (erase_end_Ok cmp Hcmp alloc s A d l1 x l2 Hr Hx) as (s1 & Hrun & Hr1).
  pose proof (extreme_in _ _ _ _ _ Hx) as Hin. destruct (repr_ne s A x Hr Hin) as [_ Hn]. destruct Hx as [Hq _].
  destruct (leaves_Ok s1 A l1 x l2 Hr1) as (s' & Hs' & Hr'); [|done| |by exists s1, s'].
  - apply (in_rest A); [by apply (repr_NoDup s)|done].
  - intros Ha. by apply (repr_mem s A).
Qed.

Lemma pop_Ok s A d l1 x l2 :
  repr s A -> extreme cmp A d l1 x l2 -> d = true \/ alloc = false \/ off = 0 ->
  exists s', (if d then omm_pop_max cmp alloc s else omm_pop_min cmp alloc off s) = Ok (s', OK) /\
    repr s' (leaves c A l1 x l2).
Proof.
  intros Hr Hx Hd. destruct (erase_end_leaves s A d l1 x l2 Hr Hx) as (s1 & s' & Hrun & Hr1 & Hs' & Hr').
  destruct (repr_ne s A x Hr (extreme_in _ _ _ _ _ Hx)) as [Hx0 _].
  exists s'. split; [|done]. destruct d.
  - unfold omm_pop_max. rewrite Hrun. bind. rewrite (proj2 (Nat.eqb_neq x 0)) by done. by rewrite Hs'.
  - unfold omm_pop_min. rewrite Hrun. bind. rewrite (proj2 (Nat.eqb_neq x 0)) by done.
    assert ((if alloc then give_back s1 (x - off) else Ok s1) = Ok s') as ->; [|done].
    rewrite <- Hs'. destruct alloc; [|done]. destruct Hd as [?|[?| ->]]; [done|done|]. by rewrite Nat.sub_0_r.
Qed.

(** The view of a map that was emptied in the order [l]. *)
Definition emptied A l : view K V :=
  if alloc then View [] (foldr delete (vals A) l) (mem A ∖ list_to_set l) else set_queue A [].

Lemma emptied_leaves A l1 x l2 l : emptied (leaves c A l1 x l2) l = emptied A (x :: l).
Proof.
  unfold emptied, leaves. cbn [allocates kept]. destruct alloc; [|done]. cbn [vals mem free set_queue]. f_equal.
  - cbn [foldr]. apply foldr_delete_comm.
  - cbn [list_to_set]. apply set_eq. intros z. rewrite !elem_of_difference, elem_of_union. tauto.
Qed.

Lemma listing_leaves A d l1 x l2 l : x ∉ l -> listing cmp (set_queue A (l1 ++ l2)) d l -> listing cmp (leaves c A l1 x l2) d l.
Proof.
  intros Hx [Hp Hs]. unfold leaves. destruct (allocates c); [|done]. split; [done|]. cbn [vals queue free set_queue] in *.
  clear Hp. induction Hs as [|y l Hs IH Hall]; constructor.
  - apply IH. intros Hin. apply Hx. by right.
  - rewrite Forall_forall in Hall |- *. intros z Hz. destruct (Hall z Hz) as (a & b & Ha & Hb & Hab). exists a, b.
    rewrite !lookup_delete_ne; [done| |]; intros ->; apply Hx; [by right|left].
Qed.

Lemma with_data_leaves A l1 x l2 l ps : x ∉ l -> with_data A l ps -> with_data (leaves c A l1 x l2) l ps.
Proof.
  intros Hx [<- HF]. split; [done|]. rewrite Forall_forall in HF |- *. intros p Hp. unfold leaves.
  destruct (allocates c); [|by apply HF]. cbn. rewrite lookup_delete_ne; [by apply HF|]. intros ->. apply Hx.
  apply elem_of_list_fmap. by exists p.
Qed.

Lemma clear_Ok s A fn l ps fuel :
  repr s A -> listing cmp A true l -> with_data A l ps -> length l < fuel ->
  exists s', mclear_loop cmp alloc fuel s fn = Ok (s', if fn then ps else []) /\ repr s' (emptied A l).
Proof.
  revert s A l ps. induction fuel as [|f IH]; intros s A l ps Hr Hl Hps Hlen; [lia|]. cbn [mclear_loop].
  unfold omm_is_empty. rewrite (mempty_Ok s A (repr_sz s A Hr)).
  destruct l as [|x l].
  - pose proof (proj2 (listing_nil A true [] Hl) eq_refl) as Hq. rewrite bool_decide_eq_true_2 by done.
    destruct Hps as [Hps _]. destruct ps; [|done]. exists s. split; [by destruct fn|].
    unfold emptied. destruct A as [q v m]. cbn in Hq. subst q. destruct alloc; [|done]. cbn. by rewrite difference_empty_L.
  - rewrite bool_decide_eq_false_2 by (by rewrite (listing_nil A true _ Hl)).
    destruct (listing_extreme A false x l) as (l1 & l2 & Hx & Hl' & Hxr); [by apply (repr_NoDup s)| |done|].
    { intros z. by apply (repr_data s). }
    assert (x ∉ l) as Hxl by (rewrite (proj1 Hl'); done).
    destruct (erase_end_leaves s A false l1 x l2 Hr Hx) as (s1 & s2 & -> & Hr1 & Hs2 & Hr2). bind.
    destruct Hps as [Hfst HF]. destruct ps as [|[x' kv] ps]; [done|]. cbn [map fst] in Hfst. injection Hfst as -> Hfst.
    apply Forall_cons in HF as [Hkv HF]. cbn [fst snd] in Hkv.
    assert ((if fn then v ← value (dat s1) x; Ok [(x, v)] else Ok []) = Ok (if fn then [(x, kv)] else [])) as ->.
    { destruct fn; [|done]. by rewrite (repr_value s1 _ x kv Hr1). }
    bind. rewrite Hs2. bind.
    destruct (IH s2 (leaves c A l1 x l2) l ps Hr2) as (s3 & -> & Hr3).
    { by apply listing_leaves. } { by apply with_data_leaves. } { cbn in Hlen. lia. }
    bind. exists s3. rewrite emptied_leaves in Hr3. split; [by destruct fn|done].
Qed.

Lemma drain_Ok s A d l ps fuel :
  repr s A -> listing cmp A (negb d) l -> with_data A l ps -> length l < fuel -> d = true \/ alloc = false \/ off = 0 ->
  exists s', drain_loop cmp alloc off fuel s d = Ok (s', ps) /\ repr s' (emptied A l).
Proof.
  intros Hr Hl Hps Hlen Hd. revert s A l ps Hr Hl Hps Hlen. induction fuel as [|f IH]; intros s A l ps Hr Hl Hps Hlen; [lia|].
  cbn [drain_loop]. unfold omm_is_empty. rewrite (mempty_Ok s A (repr_sz s A Hr)).
  destruct l as [|x l].
  - pose proof (proj2 (listing_nil A _ [] Hl) eq_refl) as Hq. rewrite bool_decide_eq_true_2 by done.
    destruct Hps as [Hps _]. destruct ps; [|done]. exists s. split; [done|].
    unfold emptied. destruct A as [q v m]. cbn in Hq. subst q. destruct alloc; [|done]. cbn. by rewrite difference_empty_L.
  - rewrite bool_decide_eq_false_2 by (by rewrite (listing_nil A _ _ Hl)).
    destruct (listing_extreme A d x l) as (l1 & l2 & Hx & Hl' & Hxr); [by apply (repr_NoDup s)| |done|].
    { intros z. by apply (repr_data s). }
    assert (x ∉ l) as Hxl by (rewrite (proj1 Hl'); done).
    destruct (end_Ok cmp Hcmp alloc s A d l1 x l2 Hr Hx) as (s1 & a & D & -> & H1 & Hsz1). bind.
    pose proof (core_repr s s1 A _ D Hr H1 Hsz1) as Hr1.
    destruct Hps as [Hfst HF]. destruct ps as [|[x' kv] ps]; [done|]. cbn [map fst] in Hfst. injection Hfst as -> Hfst.
    apply Forall_cons in HF as [Hkv HF]. cbn [fst snd] in Hkv. rewrite (repr_value s1 A x kv Hr1 Hkv). bind.
    destruct (pop_Ok s1 A d l1 x l2 Hr1 Hx Hd) as (s2 & -> & Hr2). bind.
    destruct (IH s2 (leaves c A l1 x l2) l ps Hr2) as (s3 & -> & Hr3).
    { by apply listing_leaves. } { by apply with_data_leaves. } { cbn in Hlen. lia. }
    bind. exists s3. by rewrite emptied_leaves in Hr3.
Qed.

(** ** Single calls *)

Lemma find_yes s A k l1 x l2 :
  repr s A -> present cmp A k l1 x l2 -> exists s', mfind cmp s k = Ok (s', x) /\ repr s' A /\ x <> 0 /\ root s' = x.
Proof.
  intros Hr Hp. destruct (find_present cmp Hcmp alloc s A k l1 x l2 Hr Hp) as (s' & a & b & D & Hf & H & Hsz).
  exists s'. split_and!; [done|by eapply (core_repr s s' A)| |by apply (co_root _ _ _ _ _ _ H)].
  by apply (repr_ne s A x Hr (present_in _ _ _ _ _ Hp)).
Qed.

Lemma entry_yes s A k l1 x l2 :
  repr s A -> present cmp A k l1 x l2 -> exists s', omm_entry cmp s k = Ok (s', occupied_ent x) /\ repr s' A.
Proof.
  intros Hr Hp. destruct (find_yes s A k l1 x l2 Hr Hp) as (s' & Hf & Hr' & H0 & _). unfold omm_entry. rewrite Hf. bind.
  rewrite (proj2 (Nat.eqb_neq x 0)) by done. by exists s'.
Qed.

Lemma entry_no s A k :
  repr s A -> absent cmp A k -> exists s', omm_entry cmp s k = Ok (s', vacant_ent 0) /\ repr s' A.
Proof.
  intros Hr Hp. destruct (find_absent cmp Hcmp alloc s A k Hr Hp) as (s' & Hf & Hr'). unfold omm_entry. rewrite Hf. bind.
  by exists s'.
Qed.

Lemma present_or_absent s A k : repr s A -> absent cmp A k \/ exists l1 x l2, present cmp A k l1 x l2.
Proof.
  intros [(t & D & H) _]. destruct (decide (queue A = [])) as [Hq|Hq]; [left; unfold absent; by rewrite Hq|].
  destruct (core_splay cmp Hcmp alloc s A t D H k Hq) as (s' & a & x & b & kv & _ & H' & _ & _ & Hx & _ & Ha & Hb).
  destruct (root_present cmp Hcmp alloc s' A a x b D k kv H' Hx Ha Hb) as (_ & _ & Hy & Hn).
  destruct (cmp k (fst kv)) eqn:Ec; [right|left..]; [|by apply Hn..].
  destruct Hy as (l1 & l2 & Hp); [done|]. by exists l1, x, l2.
Qed.

Lemma repr_new s A e kv l r p (b : bool) : unused A e -> repr s A ->
  repr (if b then take s e kv l r p else om_new s e (fst kv) (snd kv) l r p) (if b then obtain A e kv else set_val A e kv).
Proof.
  intros Hu [(t & D & H) Hsz]. pose proof (core_new cmp Hcmp alloc s A t D H e kv l r p b Hu) as H'. split.
  - exists t, D. destruct b; [done|]. unfold om_new. by rewrite <- surjective_pairing.
  - by destruct b.
Qed.

Lemma unused_queue s A e : repr s A -> unused A e -> e ∉ queue A.
Proof. intros [(t & D & H) _]. by apply (unused_not_in cmp alloc s A t D). Qed.

(** A copy or a new element from the allocator. *)
Lemma obtain_insert_Ok s A ans kv l r p :
  repr s A -> unused A ans -> alloc = true ->
  exists s' en, multimap_insert cmp (take s ans kv l r p) ans = Ok (s', en) /\ repr s' (push (obtain A ans kv) ans) /\
    e_ en = ans /\ ins_err en = false /\ (absent cmp A (fst kv) -> occupied en = false) /\
    (forall l1 x l2, present cmp A (fst kv) l1 x l2 -> occupied en = true).
Proof.
  intros Hr Hu Hal. pose proof (unused_queue s A ans Hr Hu) as Hin.
  pose proof (repr_new s A ans kv l r p true Hu Hr) as Hr1. cbn in Hr1.
  assert (forall z, z ∈ queue A -> vals (obtain A ans kv) !! z = vals A !! z) as Hv.
  { intros z Hz. cbn. rewrite lookup_insert_ne; [done|by intros ->]. }
  destruct (insert_Ok cmp Hcmp alloc _ (obtain A ans kv) ans kv Hr1) as (s' & en & Hrun & Hr' & He & Herr & Hab & Hpr).
  { cbn. by rewrite lookup_insert. } { done. } { intros _. cbn. set_solver. }
  exists s', en. split_and!; try done.
  - intros Ha. by apply Hab, (absent_ext A).
  - intros l1 x l2 Hp. by apply (Hpr l1 x l2), (present_ext A).
Qed.

Lemma made_Ok s A kv ans p A' :
  repr s A -> made c A ans kv p A' ->
  exists s', mnew_and_insert cmp alloc s kv ans = Ok (s', p) /\ repr s' A' /\ (if alloc then ans else 0) = p.
Proof.
  intros Hr Hm. unfold mnew_and_insert. destruct Hm as [Hal Hu|Hal]; cbn in Hal.
  - pose proof Hu as (H0 & _). assert (alloc && negb (ans =? 0) = true) as -> by (by rewrite Hal, (proj2 (Nat.eqb_neq ans 0))).
    destruct (obtain_insert_Ok s A ans kv 0 0 0 Hr Hu Hal) as (s' & en & -> & Hr' & He & _). bind. rewrite He.
    exists s'. split_and!; [done..|]. by rewrite Hal.
  - destruct Hal as [-> | ->]; [by exists s|]. rewrite Nat.eqb_refl, andb_false_r. exists s.
    split_and!; [done..|]. by destruct alloc.
Qed.

Lemma key_sym a b : cmp a b = Eq -> cmp b a = Eq.
Proof. intros H. by apply (cmp_flip cmp Hcmp) in H. Qed.

Lemma copying_false : copying c = false.
Proof. done. Qed.

(** The element itself arrives. *)
Lemma own_Ok s A e ans kv p A' :
  repr s A -> vals A !! e = Some kv -> arrives c (copying c) A e ans kv p A' ->
  p = e /\ e <> 0 /\ exists s' en, multimap_insert cmp s e = Ok (s', en) /\ repr s' A' /\ e_ en = e /\
    ins_err en = false /\ (absent cmp A (fst kv) -> occupied en = false).
Proof.
  intros Hr He Ha. destruct (repr_live s A e kv Hr He) as (_ & He0 & _). rewrite copying_false in Ha. inversion Ha as [_ Hin Hm| |]; subst; [|done..].
  split; [done|]. split; [done|].
  destruct (insert_Ok cmp Hcmp alloc s A p kv Hr He Hin Hm) as (s' & en & Hrun & Hr' & Hen & Herr & Hab & _).
  by exists s', en.
Qed.

Lemma assign_old_Ok s A e kv l1 x l2 :
  repr s A -> vals A !! e = Some kv -> present cmp A (fst kv) l1 x l2 -> e ∉ queue A ->
  exists s', omm_insert_or_assign cmp s e = Ok (s', occupied_ent x) /\ repr s' (set_val A x kv).
Proof.
  intros Hr He Hp Hin. unfold omm_insert_or_assign. rewrite (repr_value s A e kv) by done. bind.
  destruct (find_yes s A _ _ _ _ Hr Hp) as (s1 & -> & Hr1 & Hx0 & Hroot). bind.
  rewrite (proj2 (Nat.eqb_neq x 0)) by done. cbn [negb].
  pose proof (present_in _ _ _ _ _ Hp) as Hxin. destruct (repr_data s A x Hr Hxin) as [old Hx].
  assert (cmp (fst kv) (fst old) = Eq) as Hk by (destruct Hp as (_ & (o & Ho & Hc) & _); congruence).
  destruct (repr_live s1 A x old Hr1 Hx) as (Hlx & _ & Hxn). destruct (repr_live s1 A e kv Hr1 He) as (Hle & He0 & Hen).
  assert (x <> e) as Hxe by (by intros ->).
  destruct (OmProofs.live_links _ _ Hlx) as (l & r & p & Hl & Hrt & Hpa).
  rewrite (OmProofs.copy_links_Ok _ _ _ l r p) by done. bind.
  rewrite Hroot, (proj2 (Nat.eqb_neq x nil)) by done. cbn [negb oassert]. bind.
  destruct Hr1 as [(t & D & H1) Hsz1].
  pose proof (core_put cmp alloc s1 A t D H1 e l r p Hin Hen) as H2. set (s2 := set_lk s1 _) in *.
  unfold copy_struct. rewrite (proj2 (Nat.eqb_neq x e)) by done.
  rewrite (core_value cmp alloc s2 A t D H2 e kv He), (core_value cmp alloc s2 A t D H2 x old Hx). bind.
  rewrite (OmProofs.copy_links_Ok _ _ _ l r p) by (subst s2; cbn; by rewrite lookup_insert). bind.
  rewrite OmProofs.put_same by (subst s2; cbn; by rewrite lookup_insert_ne by done).
  eexists. split; [done|]. split; [|done]. exists t, D.
  replace (set_lk s2 (lk s2)) with s2 by done.
  apply (core_set_dat cmp Hcmp alloc s2 A t D H2); [..|]; try done.
  - by apply (co_live _ _ _ _ _ _ H2 x old).
  - intros _. exists old. split; [done|]. by apply key_sym.
Qed.

Lemma remove_free_Ok s A e kv l1 x l2 old :
  repr s A -> vals A !! e = Some kv -> present cmp A (fst kv) l1 x l2 -> alloc = true -> e ∉ queue A ->
  vals A !! x = Some old ->
  exists s', omm_remove cmp alloc s e = Ok (s', occupied_ent e) /\ repr s' (set_val (leaves c A l1 x l2) e old).
Proof.
  intros Hr He Hp Hal Hin Hx. unfold omm_remove. rewrite (repr_value s A e kv) by done. bind.
  destruct (erase_present cmp Hcmp alloc s A _ _ _ _ Hr Hp) as (s1 & -> & Hr1). bind.
  pose proof (present_in _ _ _ _ _ Hp) as Hxin. destruct (repr_ne s A x Hr Hxin) as [Hx0 Hxn].
  rewrite (proj2 (Nat.eqb_neq x 0)) by done.
  assert (e <> x) as Hex by (by intros ->).
  set (A1 := set_queue A (l1 ++ l2)) in *.
  assert (x ∉ l1 ++ l2) as Hxr by (apply (in_rest A); [by apply (repr_NoDup s)|by destruct Hp]).
  assert (e ∉ l1 ++ l2) as Her.
  { intros Hz. apply Hin. destruct Hp as (-> & _). rewrite <- Permutation_middle. by right. }
  destruct (repr_live s1 A1 x old Hr1 Hx) as (Hlx & _). destruct (repr_live s1 A1 e kv Hr1 He) as (Hle & He0 & Hen).
  assert (exists s3, (s2 ← copy_struct s1 e x; give_back s2 x) = Ok s3 /\ repr s3 (set_val (leaves c A l1 x l2) e old))
    as (s3 & Hrun & Hr3); [|exists s3; split; [|done]; destruct (copy_struct s1 e x); try done; revert Hrun; bind; intros ->;
      by rewrite Hal].
  unfold copy_struct. rewrite (proj2 (Nat.eqb_neq e x)) by done.
  rewrite (repr_value s1 A1 x old Hr1 Hx), (repr_value s1 A1 e kv Hr1 He). bind.
  destruct (OmProofs.live_links _ _ Hlx) as (l & r & p & Hl & Hrt & Hpa).
  rewrite (OmProofs.copy_links_Ok _ _ _ l r p) by done. bind.
  assert (repr (set_dat (set_lk s1 (put_links (lk s1) e l r p)) e old) (set_val A1 e old)) as Hr2.
  { destruct Hr1 as [(t & D & H1) Hsz1]. split; [|done]. exists t, D.
    pose proof (core_put cmp alloc s1 A1 t D H1 e l r p Her Hen) as H2.
    apply (core_set_dat cmp Hcmp alloc _ A1 t D H2); try done. by apply (co_live _ _ _ _ _ _ H2 e kv). }
  destruct (give_back_Ok cmp Hcmp alloc _ (set_val A1 e old) x Hr2 Hxr Hxn) as (s3 & -> & Hr3).
  { cbn. by apply (repr_mem s A). }
  bind. exists s3. split; [done|].
  assert (leaves c A l1 x l2 = free A1 x) as -> by (unfold leaves; cbn [allocates kept]; by rewrite Hal).
  replace (set_val (free A1 x) e old) with (free (set_val A1 e old) x); [done|].
  unfold free, set_val. cbn. f_equal. by apply delete_insert_ne.
Qed.

Lemma update_Ok s A e f l1 l2 kv :
  repr s A -> queue A = l1 ++ e :: l2 -> vals A !! e = Some kv ->
  exists s', omm_update cmp s e f = Ok (s', true) /\ repr s' (push (set_val (set_queue A (l1 ++ l2)) e (f kv)) e).
Proof.
  intros Hr Hq He. unfold omm_update. assert (e ∈ queue A) as Hin by (rewrite Hq, elem_of_app; right; left).
  pose proof (in_rest A l1 e l2 (repr_NoDup s A Hr) Hq) as Her. destruct (repr_ne s A e Hr Hin) as [He0 Hen].
  destruct (proj1 Hr) as (t & D & H). destruct (core_links_ne cmp alloc s A t D e H Hin) as (l & r & Hl & Hrt & Hl0 & Hr0).
  rewrite (rd_Ok _ _ _ Hl), (rd_Ok _ _ _ Hrt). bind.
  rewrite (proj2 (Nat.eqb_neq l 0)), (proj2 (Nat.eqb_neq r 0)) by done. cbn [orb].
  destruct (erase_node_Ok cmp Hcmp alloc s A l1 e l2 Hr Hq) as (s1 & -> & Hr1). bind.
  rewrite (proj2 (Nat.eqb_neq e 0)) by done. set (A1 := set_queue A (l1 ++ l2)) in *.
  rewrite (repr_value s1 A1 e kv Hr1 He). bind.
  assert (repr (set_dat s1 e (f kv)) (set_val A1 e (f kv))) as Hr2.
  { destruct (repr_live s1 A1 e kv Hr1 He) as (Hle & _). destruct Hr1 as [(t1 & D1 & H1) Hsz1]. split; [|done]. exists t1, D1.
    by apply (core_set_dat cmp Hcmp alloc s1 A1 t1 D1 H1). }
  destruct (insert_Ok cmp Hcmp alloc _ _ e (f kv) Hr2) as (s2 & en & -> & Hr3 & _).
  { cbn. by rewrite lookup_insert. } { done. } { intros Ha. by apply (repr_mem s A). }
  bind. by exists s2.
Qed.

Lemma pop_empty_Ok s A d : repr s A -> queue A = [] -> erase_end cmp s d = Ok (s, 0).
Proof. intros Hr Hq. unfold erase_end. by rewrite (mempty_Ok s A (repr_sz s A Hr)), bool_decide_eq_true_2. Qed.

Lemma erase_node_empty s A e kv : repr s A -> queue A = [] -> vals A !! e = Some kv ->
  exists l r, lf (lk s) !! e = Some l /\ rt (lk s) !! e = Some r /\ erase_node cmp s e = Ok (s, 0).
Proof.
  intros Hr Hq He. destruct (repr_live s A e kv Hr He) as (Hle & _).
  destruct (OmProofs.live_links _ _ Hle) as (l & r & p & Hl & Hrt & _). exists l, r. split_and!; [done..|].
  unfold erase_node. rewrite (rd_Ok _ _ _ Hl), (rd_Ok _ _ _ Hrt). bind. destruct (_ || _); [done|].
  by rewrite (mempty_Ok s A (repr_sz s A Hr)), bool_decide_eq_true_2.
Qed.

Lemma arrives_cases b A e ans kv p A' : arrives c b A e ans kv p A' -> p <> 0 ->
  (b = false /\ p = e /\ A' = push A e /\ e ∉ queue A /\ (alloc = true -> e ∈ mem A)) \/
  (b = true /\ p = ans /\ A' = push (obtain A ans kv) ans /\ unused A ans).
Proof. intros [Hb Hq Hm|Hb Hu|Hb Ha] Hp; [by left|by right|done]. Qed.

Lemma step_Ok s A o r A' :
  repr s A -> call cmp c A o r A' ->
  exists s', omm_step cmp alloc off s o = Ok (s', r) /\ repr s' A'.
Proof.
  intros Hr Hc. destruct Hc; cbn [omm_step].
  - (* new *) eexists. split; [done|]. unfold omm_new. by apply (repr_new s A e (k, v) l r p b).
  - (* contains *)
    pose proof (present_nonempty cmp _ _ _ _ _ H) as Hne. pose proof Hr as [(t & D & Hco) Hsz]. unfold omm_contains.
    destruct (core_splay cmp Hcmp alloc s A t D Hco k Hne) as (s' & a & y & b & kv & -> & H' & _ & Hsz' & Hy & _ & Ha & Hb). bind.
    destruct (root_present cmp Hcmp alloc s' A a y b D k kv H' Hy Ha Hb) as (Hpr & _).
    destruct (Hpr _ _ _ H) as [-> Hck]. rewrite (core_cmpk cmp alloc s' A _ D H' k y kv Hy). bind. rewrite Hck.
    exists s'. split; [done|]. by eapply (core_repr s s' A).
  - destruct H0 as [?|Hne]; [done|]. pose proof Hr as [(t & D & Hco) Hsz]. unfold omm_contains.
    destruct (core_splay cmp Hcmp alloc s A t D Hco k Hne) as (s' & a & y & b & kv & -> & H' & _ & Hsz' & Hy & _ & Ha & Hb). bind.
    destruct (root_present cmp Hcmp alloc s' A a y b D k kv H' Hy Ha Hb) as (_ & Hab & _). specialize (Hab H).
    rewrite (core_cmpk cmp alloc s' A _ D H' k y kv Hy). bind.
    exists s'. split; [by destruct (cmp k (fst kv))|]. by eapply (core_repr s s' A).
  - (* get *) destruct (find_yes s A _ _ _ _ Hr H) as (s' & Hf & Hr' & _). unfold omm_get. rewrite Hf. by exists s'.
  - destruct (find_absent cmp Hcmp alloc s A _ Hr H) as (s' & Hf & Hr'). unfold omm_get. rewrite Hf. by exists s'.
  - (* insert *) cbn in H0. exists s. split; [|done]. unfold omm_insert. by rewrite H0, H1.
  - unfold omm_insert. destruct (repr_live s A e kv Hr H) as (Hle & _).
    apply arrives_cases in H2 as [(Hal & -> & -> & Hin & Hm)|(Hal & -> & -> & Hu)]; [..|done].
    + destruct (insert_Ok cmp Hcmp alloc s A e kv Hr H Hin Hm) as (s' & en & Hrun & Hr' & He & Herr & Hab & _).
      destruct alloc; [done|]. rewrite Hrun. bind. exists s'. split; [|done]. unfold mobserve. by rewrite Hab, He, Herr.
    + destruct (OmProofs.live_links _ _ Hle) as (l & r & q & Hl & Hrt & Hq).
      destruct (obtain_insert_Ok s A ans kv l r q Hr Hu Hal) as (s' & en & Hrun & Hr' & He & Herr & Hab & _).
      pose proof (repr_value s A e kv Hr H) as Hv. destruct alloc; [|done].
      rewrite (proj2 (Nat.eqb_neq ans 0)) by done. rewrite Hv. bind.
      rewrite (rd_Ok _ _ _ Hl), (rd_Ok _ _ _ Hrt), (rd_Ok _ _ _ Hq). bind. rewrite Hrun. bind.
      exists s'. split; [|done]. unfold mobserve. by rewrite Hab, He, Herr.
  - unfold omm_insert. destruct (repr_live s A e kv Hr H) as (Hle & _).
    apply arrives_cases in H2 as [(Hal & -> & -> & Hin & Hm)|(Hal & -> & -> & Hu)]; [..|done].
    + destruct (insert_Ok cmp Hcmp alloc s A e kv Hr H Hin Hm) as (s' & en & Hrun & Hr' & He & Herr & _ & Hpr).
      destruct alloc; [done|]. rewrite Hrun. bind. exists s'. split; [|done]. unfold mobserve.
      by rewrite (Hpr _ _ _ H0), He, Herr.
    + destruct (OmProofs.live_links _ _ Hle) as (l & r & q & Hl & Hrt & Hq).
      destruct (obtain_insert_Ok s A ans kv l r q Hr Hu Hal) as (s' & en & Hrun & Hr' & He & Herr & _ & Hpr).
      pose proof (repr_value s A e kv Hr H) as Hv. destruct alloc; [|done].
      rewrite (proj2 (Nat.eqb_neq ans 0)) by done. rewrite Hv. bind.
      rewrite (rd_Ok _ _ _ Hl), (rd_Ok _ _ _ Hrt), (rd_Ok _ _ _ Hq). bind. rewrite Hrun. bind.
      exists s'. split; [|done]. unfold mobserve. by rewrite (Hpr _ _ _ H0), He, Herr.
  - (* try_insert *) unfold omm_try_insert. rewrite (repr_value s A e kv) by done. bind.
    destruct (find_absent cmp Hcmp alloc s A _ Hr H0) as (s1 & -> & Hr1). bind. cbn [Nat.eqb negb].
    destruct (own_Ok s1 A e ans kv p A' Hr1 H H1) as (-> & He0 & s' & en & -> & Hr' & He & Herr & Hab). bind.
    exists s'. split; [|done]. unfold mobserve, refused. by rewrite (Hab H0), He, Herr, (proj2 (Nat.eqb_neq e 0)).
  - unfold omm_try_insert. rewrite (repr_value s A e kv) by done. bind.
    destruct (find_yes s A _ _ _ _ Hr H0) as (s1 & -> & Hr1 & Hx0 & _). bind.
    rewrite (proj2 (Nat.eqb_neq x 0)) by done. cbn [negb]. by exists s1.
  - (* insert_or_assign *) unfold omm_insert_or_assign. rewrite (repr_value s A e kv) by done. bind.
    destruct (find_absent cmp Hcmp alloc s A _ Hr H0) as (s1 & -> & Hr1). bind. cbn [Nat.eqb negb].
    destruct (own_Ok s1 A e ans kv p A' Hr1 H H1) as (-> & He0 & s' & en & -> & Hr' & He & Herr & Hab). bind.
    exists s'. split; [|done]. unfold mobserve, refused. by rewrite (Hab H0), He, Herr, (proj2 (Nat.eqb_neq e 0)).
  - destruct (assign_old_Ok s A e kv l1 x l2 Hr H H0 H1) as (s' & -> & Hr'). by exists s'.
  - (* remove *) unfold omm_remove. rewrite (repr_value s A e kv) by done. bind.
    destruct (erase_absent cmp Hcmp alloc s A _ Hr H0) as (s1 & -> & Hr1). by exists s1.
  - unfold omm_remove. rewrite (repr_value s A e kv) by done. bind.
    destruct (erase_present cmp Hcmp alloc s A _ _ _ _ Hr H0) as (s1 & -> & Hr1). bind.
    destruct (repr_ne s A x Hr (present_in _ _ _ _ _ H0)) as [Hx0 _]. rewrite (proj2 (Nat.eqb_neq x 0)) by done.
    exists s1. unfold leaves. rewrite H1. cbn in H1. split; [by rewrite H1|done].
  - destruct (remove_free_Ok s A e kv l1 x l2 old) as (s' & -> & Hr'); try done. by exists s'.
  - (* entry *) destruct (entry_yes s A _ _ _ _ Hr H) as (s' & -> & Hr'). by exists s'.
  - destruct (entry_no s A _ Hr H) as (s' & -> & Hr'). by exists s'.
  - (* or_insert *) destruct (entry_no s A _ Hr H0) as (s1 & -> & Hr1). bind. unfold omm_or_insert. cbn [occupied vacant_ent].
    destruct (own_Ok s1 A e ans kv p A' Hr1 H H1) as (-> & He0 & s' & en & -> & Hr' & He & _). bind. rewrite He. by exists s'.
  - destruct (entry_yes s A _ _ _ _ Hr H) as (s1 & -> & Hr1). by exists s1.
  - (* insert_entry *)
    assert (exists s1 en1, omm_entry cmp s k = Ok (s1, en1) /\ repr s1 A) as (s1 & en1 & -> & Hr1).
    { destruct (present_or_absent s A k Hr) as [Ha|(l1 & x & l2 & Hp)].
      - destruct (entry_no s A _ Hr Ha) as (s1 & -> & Hr1). by eexists _, _.
      - destruct (entry_yes s A _ _ _ _ Hr Hp) as (s1 & -> & Hr1). by eexists _, _. }
    bind. unfold omm_insert_entry.
    destruct (own_Ok s1 A e ans kv p A' Hr1 H H0) as (-> & He0 & s' & en & -> & Hr' & He & _). bind. rewrite He. by exists s'.
  - (* and_modify *) destruct (entry_yes s A _ _ _ _ Hr H) as (s1 & -> & Hr1). bind. unfold omm_and_modify. cbn [occupied e_ occupied_ent].
    rewrite (repr_value s1 A x kv) by done. bind. eexists. split; [done|].
    destruct (repr_live s1 A x kv Hr1 H0) as (Hl & Hx0 & Hxn). destruct Hr1 as [(t & D & H1) Hsz]. split; [|done]. exists t, D.
    apply (core_set_dat cmp Hcmp alloc s1 A t D H1); try done. intros _. exists kv. split; [done|]. by apply (cmp_refl cmp Hcmp).
  - destruct (entry_no s A _ Hr H) as (s1 & -> & Hr1). by exists s1.
  - (* remove_entry *) destruct (entry_yes s A _ _ _ _ Hr H) as (s1 & -> & Hr1). bind. unfold omm_remove_entry. cbn [occupied e_ occupied_ent].
    pose proof (present_in _ _ _ _ _ H) as Hxin. destruct (repr_ne s A x Hr Hxin) as [Hx0 Hxn].
    destruct (repr_data s A x Hr Hxin) as [kx Hkx]. rewrite (repr_value s1 A x kx) by done. bind.
    assert (present cmp A (fst kx) l1 x l2) as Hp'.
    { destruct H as (Hq & (kx' & Hkx' & Hc) & Hl). assert (kx' = kx) as -> by congruence. split_and!; [done| |].
      - exists kx. split; [done|]. by apply (cmp_refl cmp Hcmp).
      - rewrite Forall_forall in Hl |- *. intros z Hz (kz & Hkz & Hcz). apply (Hl z Hz). exists kz. split; [done|].
        by rewrite (cmp_eq_l cmp Hcmp _ _ _ Hc). }
    destruct (erase_present cmp Hcmp alloc s1 A _ _ _ _ Hr1 Hp') as (s2 & -> & Hr2). bind.
    rewrite (proj2 (Nat.eqb_neq x 0)) by done. cbn [negb oassert]. bind.
    destruct (leaves_Ok s2 A l1 x l2 Hr2) as (s3 & Hs3 & Hr3).
    { apply (in_rest A); [by apply (repr_NoDup s)|by destruct H]. } { done. } { intros Ha. by apply (repr_mem s A). }
    cbn [allocates kept]. exists s3. destruct alloc.
    + rewrite Hs3. done.
    + injection Hs3 as ->. done.
  - destruct (entry_no s A _ Hr H) as (s1 & -> & Hr1). by exists s1.
  - (* or_insert_w *) destruct (entry_no s A _ Hr H) as (s1 & -> & Hr1). bind. unfold omm_or_insert_w. cbn [occupied vacant_ent].
    destruct (made_Ok s1 A _ _ _ _ Hr1 H0) as (s' & -> & Hr' & _). by exists s'.
  - destruct (entry_yes s A _ _ _ _ Hr H) as (s1 & -> & Hr1). by exists s1.
  - (* insert_entry_w *)
    assert (exists s1 en1, omm_entry cmp s k = Ok (s1, en1) /\ repr s1 A) as (s1 & en1 & -> & Hr1).
    { destruct (present_or_absent s A k Hr) as [Ha|(l1 & x & l2 & Hp)].
      - destruct (entry_no s A _ Hr Ha) as (s1 & -> & Hr1). by eexists _, _.
      - destruct (entry_yes s A _ _ _ _ Hr Hp) as (s1 & -> & Hr1). by eexists _, _. }
    bind. unfold omm_insert_entry_w. destruct (made_Ok s1 A _ _ _ _ Hr1 H) as (s' & -> & Hr' & _). by exists s'.
  - (* try_insert_w *) unfold omm_try_insert_w. destruct (entry_no s A _ Hr H) as (s1 & -> & Hr1). bind. cbn [occupied vacant_ent negb].
    unfold minsert_and_copy_key. destruct (made_Ok s1 A _ _ _ _ Hr1 H0) as (s' & -> & Hr' & ->). bind.
    exists s'. split; [|done]. unfold mobserve. cbn. by rewrite orb_true_r.
  - unfold omm_try_insert_w. destruct (entry_yes s A _ _ _ _ Hr H) as (s1 & -> & Hr1). by exists s1.
  - (* insert_or_assign_w *) unfold omm_insert_or_assign_w. destruct (entry_no s A _ Hr H) as (s1 & -> & Hr1). bind. cbn [occupied vacant_ent negb].
    unfold minsert_and_copy_key. destruct (made_Ok s1 A _ _ _ _ Hr1 H0) as (s' & -> & Hr' & ->). bind.
    exists s'. split; [|done]. unfold mobserve. cbn. by rewrite orb_true_r.
  - unfold omm_insert_or_assign_w. destruct (entry_yes s A _ _ _ _ Hr H) as (s1 & -> & Hr1). bind. cbn [occupied e_ occupied_ent negb].
    pose proof (present_in _ _ _ _ _ H) as Hxin. destruct (repr_data s A x Hr Hxin) as [kx Hkx].
    rewrite (repr_value s1 A x kx) by done. bind. eexists. split; [done|].
    destruct (repr_live s1 A x kx Hr1 Hkx) as (Hl & Hx0 & Hxn). destruct Hr1 as [(t & D & H1) Hsz]. split; [|done]. exists t, D.
    apply (core_set_dat cmp Hcmp alloc s1 A t D H1); try done. intros _. exists kx. split; [done|]. cbn.
    apply key_sym. destruct H as (_ & (o & Ho & Hc) & _). congruence.
  - (* max and min *)
    destruct (end_Ok cmp Hcmp alloc s A true _ _ _ Hr H) as (s' & a & D & -> & H' & Hsz). bind. exists s'. split; [done|].
    by eapply (core_repr s s' A).
  - destruct (end_Ok cmp Hcmp alloc s A false _ _ _ Hr H) as (s' & a & D & -> & H' & Hsz). bind. exists s'. split; [done|].
    by eapply (core_repr s s' A).
  - done.
  - done.
  - (* pops *) destruct (pop_Ok s A true _ _ _ Hr H) as (s' & -> & Hr'); [by left|]. by exists s'.
  - destruct (pop_Ok s A false _ _ _ Hr H) as (s' & -> & Hr').
    { destruct H0 as [?|Hm]; [by right; left|]. right. right. by apply Nat.eqb_eq. }
    by exists s'.
  - unfold omm_pop_max. rewrite (pop_empty_Ok s A true Hr H). by exists s.
  - unfold omm_pop_min. rewrite (pop_empty_Ok s A false Hr H). by exists s.
  - (* extract *) destruct (erase_node_Ok cmp Hcmp alloc s A l1 e l2 Hr H) as (s' & Hrun & Hr'). unfold omm_extract. rewrite Hrun. by exists s'.
  - destruct (erase_node_empty s A e kv Hr H H0) as (l & r & _ & _ & Hrun). unfold omm_extract. rewrite Hrun. by exists s.
  - (* update *) destruct (update_Ok s A e f l1 l2 kv Hr H H0) as (s' & -> & Hr'). by exists s'.
  - destruct (erase_node_empty s A e kv Hr H H0) as (l & r & Hl & Hrt & Hrun). unfold omm_update.
    rewrite (rd_Ok _ _ _ Hl), (rd_Ok _ _ _ Hrt). bind. destruct (_ || _); [by exists s|]. rewrite Hrun. by exists s.
  - (* walking *) rewrite (begin_Ok s A false l Hr H). by exists s.
  - rewrite (begin_Ok s A true l Hr H). by exists s.
  - rewrite (next_Ok s A false e l1 l2 Hr H). by exists s.
  - rewrite (next_Ok s A true e l1 l2 Hr H). by exists s.
  - destruct (range_Ok s A false a b l x y Hr H H0 H1) as (s' & -> & Hr'). by exists s'.
  - destruct (range_Ok s A true a b l x y Hr H H0 H1) as (s' & -> & Hr'). by exists s'.
  - (* clear *) unfold omm_clear. destruct (clear_Ok s A fn l ps (S (Z.to_nat (sz s))) Hr H H0) as (s' & -> & Hr').
    { rewrite (repr_sz s A Hr), (proj1 H). lia. }
    by exists s'.
  - unfold omm_size. rewrite (repr_sz s A Hr). by exists s.
  - unfold omm_is_empty. rewrite (mempty_Ok s A (repr_sz s A Hr)). exists s. split; [|done]. bind. do 3 f_equal.
    by destruct (queue A).
  - rewrite (validate_Ok s A Hr). by exists s.
Qed.

Lemma run_Ok s A os rs A' : repr s A -> calls cmp c A os rs A' -> exists s', omm_run cmp alloc off s os = Ok (s', rs) /\ repr s' A'.
Proof.
  intros Hr Hc. revert s Hr. induction Hc as [A|A o r A1 os rs A2 Hcall Hcs IH]; intros s Hr; [by exists s|].
  cbn [omm_run]. destruct (step_Ok s A o r A1 Hr Hcall) as (s1 & -> & Hr1). bind.
  destruct (IH s1 Hr1) as (s2 & -> & Hr2). by exists s2.
Qed.

Theorem shows_Ok os rs A :
  calls cmp c start os rs A ->
  exists s, omm_run cmp alloc off om_init os = Ok (s, rs) /\
    shown cmp A (omm_size s) (omm_iter s false) (omm_iter s true) (omm_validate cmp s).
Proof.
  intros Hc. destruct (run_Ok om_init start os rs A (repr_init cmp alloc) Hc) as (s & Hrun & Hr). exists s. split; [done|].
  by apply shown_Ok.
Qed.

(** Draining the map that a history made. *)
Theorem drains_Ok os rs A d l ps :
  calls cmp c start os rs A -> listing cmp A (negb d) l -> with_data A l ps -> d = true \/ alloc = false \/ off = 0 ->
  exists s s', omm_run cmp alloc off om_init os = Ok (s, rs) /\ omm_drain cmp alloc off s d = Ok (s', ps) /\ sz s' = 0%Z.
Proof.
  intros Hc Hl Hps Hd. destruct (run_Ok om_init start os rs A (repr_init cmp alloc) Hc) as (s & Hrun & Hr).
  destruct (drain_Ok s A d l ps (S (Z.to_nat (sz s))) Hr Hl Hps) as (s' & Hdr & Hr'); [|done|].
  { rewrite (repr_sz s A Hr), (proj1 Hl). lia. }
  exists s, s'. split_and!; [done..|]. rewrite (repr_sz s' _ Hr'). unfold emptied. by destruct alloc.
Qed.

Lemma listing_exists os rs A d : calls cmp c start os rs A -> exists l ps, listing cmp A d l /\ with_data A l ps.
Proof.
  intros Hc. destruct (run_Ok om_init start os rs A (repr_init cmp alloc) Hc) as (s & Hrun & Hr). by apply (repr_listing s).
Qed.
End histories.
