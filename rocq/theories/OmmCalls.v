(** The multimap's functions keep the elements in order of key and arrival. *)
From Coq Require Import Sorted.
From stdpp Require Import base numbers option gmap fin_maps list.
From Verif Require Import Common LinkHeap PathLemmas OrderSpec TreeModel TreeProofs SplayModel MapOps OmModel OmmOps OmmModel
  OmmSpec OmmProofs OmmRings OmmGroups OmmWalk.
From Verif Require MapProofs OmProofs.

Local Ltac bind := cbn [mbind outcome_bind obind].

Lemma wf_same h h' t D : wf h t D -> (forall z, span D (nodes t) z -> same h h' z) -> wf h' t D.
Proof.
  intros H Hs. pose proof H as [Hrep Hlive Hring Hout Hap]. split; [| | |done|done].
  - apply (rep_ext nil (flat D (nodes t) h)); [|done]. intros z Hz. rewrite !flat_in by done. cbn [lf rt flat].
    destruct (Hs z) as (? & ? & _); [apply span_in; by right|].
    destruct (Hs (keeper D z)) as (_ & _ & ?); [apply span_keeper; [by apply (wf_D_nil h t)|by right]|]. done.
  - apply (same_live h); [|done]. apply Hs. by left.
  - intros n Hn. apply (ring_ext h); [..|auto].
    + intros x Hx. destruct (Hs x) as (? & ? & _); [|done]. right. exists n. split; [done|by right].
    + intros x Hx. destruct (Hs x) as (_ & _ & ?); [|done]. right. exists n. split; [done|right].
      destruct (D n); [done|by right].
    + intros _. destruct (Hs n) as (_ & _ & ?); [|done]. right. exists n. split; [done|left].
Qed.

Lemma same_put h e l r p z : z <> e -> same h (put_links h e l r p) z.
Proof. intros Hz. unfold same, put_links. cbn. by rewrite !lookup_insert_ne by done. Qed.
Lemma same_del h e z : z <> e -> same h (del_links h e) z.
Proof. intros Hz. unfold same, del_links. cbn. by rewrite !lookup_delete_ne by done. Qed.

Section calls.
Context {K V : Type} (cmp : K -> K -> comparison) (Hcmp : total_preorder cmp) (alloc : bool).
Implicit Types (s : om K V) (A : view K V) (D : nat -> list nat).
Notation groups := (groups cmp).

(** Everything but the size. *)
Record core s A t D : Prop := {
  co_wf : wf (lk s) t D;
  co_root : root s = ptr t;
  co_groups : groups (vals A) (nodes t) D (queue A);
  co_dat : dat s = vals A;
  co_heap : heap s = mem A;
  co_live : forall x kv, vals A !! x = Some kv -> live (lk s) x /\ x <> 0 /\ x <> nil;
  co_mem : alloc = true -> forall x, x ∈ queue A -> x ∈ mem A }.
Definition repr s A : Prop := (exists t D, core s A t D) /\ sz s = Z.of_nat (length (queue A)).

Lemma set_queue_same A : set_queue A (queue A) = A.
Proof. by destruct A. Qed.

Lemma core_sz s A t D n : core s A t D -> core (set_sz s n) A t D.
Proof. intros []. by split. Qed.

Lemma repr_init : repr om_init start.
Proof.
  split; [|done]. exists E, (fun _ => []). split; cbn; try done.
  - split; try done; try (by intros n Hn%elem_of_nil).
    split_and!; try done; try (by intros ?%elem_of_nil); try (by intros ? ? ?%elem_of_nil); try (by intros ? ? ? ?%elem_of_nil);
      intros; constructor.
  - split; try done; try (by intros ? ?%elem_of_nil); try (by intros ? ? ?%elem_of_nil); [split; constructor|constructor].
  - by intros _ x Hx%elem_of_nil.
Qed.

Section core.
Context s A t D (H : core s A t D).

Lemma core_NoDup : NoDup (queue A).
Proof. apply H. Qed.
Lemma core_nodes : NoDup (nodes t).
Proof. by destruct (wf_apart _ _ _ (co_wf _ _ _ _ H)) as (? & _). Qed.
Lemma core_span z : span D (nodes t) z <-> z = nil \/ z ∈ queue A.
Proof.
  split; (intros [-> |Hz]; [by left|right]).
  - destruct Hz as (n & Hn & Hz). by apply (gr_in cmp _ _ _ _ _ _ (co_groups _ _ _ _ H) Hn Hz).
  - by apply (gr_cover _ _ _ _ _ (co_groups _ _ _ _ H)).
Qed.
Lemma core_value x kv : vals A !! x = Some kv -> value (dat s) x = Ok kv.
Proof. intros Hx. rewrite (co_dat _ _ _ _ H). unfold value. by rewrite Hx. Qed.
Lemma core_data x : x ∈ queue A -> exists kv, vals A !! x = Some kv.
Proof. apply (gr_dat cmp _ _ _ _ _ (co_groups _ _ _ _ H)). Qed.
Lemma core_node n : n ∈ nodes t -> n ∈ queue A.
Proof. apply (gr_node cmp _ _ _ _ _ (co_groups _ _ _ _ H)). Qed.
Lemma core_cmpk k x kv : vals A !! x = Some kv -> cmpk cmp (dat s) k x = Ok (cmp k (fst kv)).
Proof. intros Hx. rewrite (co_dat _ _ _ _ H). by apply cmpk_Ok. Qed.
Lemma core_outside x kv : vals A !! x = Some kv -> x ∉ queue A -> ~ span D (nodes t) x.
Proof. intros Hx Hq [-> |?]%core_span; [|done]. by destruct (co_live _ _ _ _ H _ _ Hx) as (_ & _ & ?). Qed.
Lemma core_empty : t = E <-> queue A = [].
Proof.
  split.
  - intros Et. apply elem_of_nil_inv. intros x Hx.
    destruct (gr_cover _ _ _ _ _ (co_groups _ _ _ _ H) x Hx) as (n & Hn & _). rewrite Et in Hn. by apply elem_of_nil in Hn.
  - intros Eq. assert (t = E \/ t <> E) as [?|Hne] by (destruct t; auto); [done|].
    apply (ptr_in nil) in Hne. apply core_node in Hne. rewrite Eq in Hne. by apply elem_of_nil in Hne.
Qed.
Lemma core_root_nil : (root s =? nil) = bool_decide (queue A = []).
Proof.
  rewrite (co_root _ _ _ _ H). assert (t = E \/ t <> E) as [Et|Hne] by (destruct t; auto).
  - rewrite bool_decide_eq_true_2 by (by apply core_empty). by rewrite Et.
  - rewrite bool_decide_eq_false_2 by (by rewrite <- core_empty). apply Nat.eqb_neq. intros Hp.
    apply (ptr_in nil) in Hne. rewrite Hp in Hne. by destruct (wf_apart _ _ _ (co_wf _ _ _ _ H)) as (_ & ? & _).
Qed.

(** The tree changes, elements come or go, data stay. *)
Lemma core_move s' q t' D' :
  dat s' = dat s -> heap s' = heap s -> wf (lk s') t' D' -> root s' = ptr t' ->
  groups (vals A) (nodes t') D' q -> (forall z, live (lk s) z -> live (lk s') z) ->
  (alloc = true -> forall x, x ∈ q -> x ∈ mem A) -> core s' (set_queue A q) t' D'.
Proof.
  intros Hd Hh Hw Hr Hg Hl Hm. split; cbn; try done.
  - rewrite Hd. apply H.
  - rewrite Hh. apply H.
  - intros x kv Hx. destruct (co_live _ _ _ _ H x kv Hx) as (? & ? & ?). auto.
Qed.

(** Links outside the map change. *)
Lemma core_links h :
  (forall z, z ∈ queue A -> same (lk s) h z) -> same (lk s) h nil -> (forall z, live (lk s) z -> live h z) ->
  core (set_lk s h) A t D.
Proof.
  intros Hq Hn Hl. rewrite <- (set_queue_same A). apply core_move; try done; [..|apply H|apply H].
  - apply (wf_same (lk s)); [apply H|]. intros z [-> |Hz]%core_span; auto.
  - apply H.
Qed.
Lemma core_put e l r p : e ∉ queue A -> e <> nil -> core (set_lk s (put_links (lk s) e l r p)) A t D.
Proof.
  intros He Hn. apply core_links.
  - intros z Hz. apply same_put. by intros ->.
  - by apply same_put.
  - intros z Hz. apply OmProofs.live_put. by left.
Qed.

Lemma core_set_dat x kv :
  live (lk s) x -> x <> 0 -> x <> nil ->
  (x ∈ queue A -> exists old, vals A !! x = Some old /\ cmp (fst old) (fst kv) = Eq) ->
  core (set_dat s x kv) (set_val A x kv) t D.
Proof.
  intros Hlx H0 H1 Hold. split; cbn; try apply H.
  - apply (gr_change cmp Hcmp (vals A)); [apply H|]. intros z Hz.
    destruct (decide (z = x)) as [-> |Hne].
    + destruct (Hold Hz) as (old & Ho & He). exists old, kv. by rewrite lookup_insert.
    + destruct (core_data z Hz) as [a Ha]. exists a, a. rewrite lookup_insert_ne by done.
      split_and!; [done..|by apply cmp_refl].
  - by rewrite (co_dat _ _ _ _ H).
  - intros z kv' Hz. destruct (decide (z = x)) as [-> |Hne]; [done|].
    rewrite lookup_insert_ne in Hz by done. by apply (co_live _ _ _ _ H z kv').
Qed.

Lemma unused_not_in e : unused A e -> e ∉ queue A.
Proof. intros (_ & _ & Hu) Hin. destruct (core_data e Hin) as [kv Hkv]. congruence. Qed.

(** A new element, made by the user or by the allocator. *)
Lemma core_new e kv l r p (b : bool) :
  unused A e ->
  core (if b then take s e kv l r p else Om (put_links (lk s) e l r p) (<[e := kv]> (dat s)) (heap s) (root s) (sz s))
    (if b then obtain A e kv else set_val A e kv) t D.
Proof.
  intros Hu. pose proof (unused_not_in e Hu) as Hin. pose proof Hu as (H0 & H1 & Hun).
  assert (wf (put_links (lk s) e l r p) t D) as Hwf.
  { apply (wf_same (lk s)); [apply H|]. intros z [-> |Hz]%core_span; apply same_put; [done|by intros ->]. }
  assert (groups (<[e:=kv]> (vals A)) (nodes t) D (queue A)) as Hgr.
  { apply (gr_same cmp Hcmp (vals A)); [apply H|]. intros z Hz. rewrite lookup_insert_ne; [done|]. by intros ->. }
  assert (forall x kx, <[e:=kv]> (vals A) !! x = Some kx ->
    live (put_links (lk s) e l r p) x /\ x <> 0 /\ x <> nil) as Hlv.
  { intros z kv' Hz. destruct (decide (z = e)) as [-> |Hne].
    + split_and!; [apply OmProofs.live_put; by right|done|done].
    + rewrite lookup_insert_ne in Hz by done. destruct (co_live _ _ _ _ H z kv' Hz) as (? & ? & ?).
      split_and!; [apply OmProofs.live_put; by left|done|done]. }
  destruct b; split; cbn [lk root dat heap take queue vals mem obtain set_val]; try done; try apply H.
  - by rewrite (co_dat _ _ _ _ H).
  - by rewrite (co_heap _ _ _ _ H).
  - intros Ha z Hz. apply elem_of_union. right. by apply (co_mem _ _ _ _ H).
  - by rewrite (co_dat _ _ _ _ H).
Qed.

(** ** Splaying *)

Lemma core_splay k :
  queue A <> [] ->
  exists s' a x b kv, splay_key cmp s (root s) k = Ok (s', x) /\ core s' A (T a x b) D /\
    nodes (T a x b) = nodes t /\ sz s' = sz s /\ vals A !! x = Some kv /\ within D (nodes t) (lk s) (lk s') /\
    (forall z, z ∈ nodes a -> side cmp (vals A) true k z) /\ (forall z, z ∈ nodes b -> side cmp (vals A) false k z).
Proof.
  intros Hne. unfold splay_key, msplay. rewrite (co_dat _ _ _ _ H), (co_root _ _ _ _ H).
  destruct (wf_splay cmp Hcmp (vals A) (lk s) t D k) as (h & a & x & b & kv & -> & Hw & Hn & Hin & Hx & Ha & Hb).
  { apply H. } { by rewrite core_empty. } { apply (gr_sorted _ _ _ _ _ (co_groups _ _ _ _ H)). }
  bind. eexists _, a, x, b, kv. split; [done|]. split; [|done].
  rewrite <- (set_queue_same A) at 1. apply core_move; cbn [lk dat heap root set_root set_lk]; try done.
  - rewrite Hn. apply H.
  - apply Hin.
  - apply H.
Qed.

Lemma core_splay_end d :
  queue A <> [] ->
  exists s' a x, msplay s (root s) (force d) = Ok (s', x) /\ core s' A (mk d a x E) D /\
    nodes (mk d a x E) = nodes t /\ sz s' = sz s.
Proof.
  intros Hne. unfold msplay. rewrite (co_root _ _ _ _ H).
  destruct (wf_splay_end cmp Hcmp (vals A) (lk s) t D d) as (h & a & x & -> & Hw & Hn & Hin).
  { apply H. } { by rewrite core_empty. } { apply (gr_sorted _ _ _ _ _ (co_groups _ _ _ _ H)). }
  bind. eexists _, a, x. split; [done|]. split; [|done].
  rewrite <- (set_queue_same A) at 1. apply core_move; cbn [lk dat heap root set_root set_lk]; try done.
  - by destruct d.
  - rewrite Hn. apply H.
  - apply Hin.
  - apply H.
Qed.
End core.

(** What the search ends at. *)
Lemma root_present s A a x b D k kv :
  core s A (T a x b) D -> vals A !! x = Some kv ->
  (forall z, z ∈ nodes a -> side cmp (vals A) true k z) -> (forall z, z ∈ nodes b -> side cmp (vals A) false k z) ->
  (forall l1 y l2, present cmp A k l1 y l2 -> y = x /\ cmp k (fst kv) = Eq) /\
  (absent cmp A k -> cmp k (fst kv) <> Eq) /\
  (cmp k (fst kv) = Eq -> exists l1 l2, present cmp A k l1 x l2) /\
  (cmp k (fst kv) <> Eq -> absent cmp A k).
Proof.
  intros H Hx Ha Hb. pose proof (co_groups _ _ _ _ H) as Hg.
  assert (x ∈ nodes (T a x b)) as Hxin by (cbn; rewrite elem_of_app; right; left).
  split_and!.
  - intros l1 y l2 Hp. pose proof (gr_present cmp Hcmp A _ _ _ _ _ _ Hg Hp) as Hy.
    destruct Hp as (_ & (ky & Hky & Hc) & _). cbn in Hy. apply elem_of_app in Hy as [Hy|[-> |Hy]%elem_of_cons].
    + destruct (Ha y Hy) as (ky' & Hky' & Hc'). simplify_eq. by rewrite Hc in Hc'.
    + by simplify_eq.
    + destruct (Hb y Hy) as (ky' & Hky' & Hc'). simplify_eq. by rewrite Hc in Hc'.
  - intros Hab. by apply (gr_absent cmp A _ _ k x kv Hg Hab).
  - intros Hc. by apply (gr_node_present cmp Hcmp A _ _ x k kv Hg).
  - intros Hc. apply (gr_absent_intro cmp Hcmp A _ _ k Hg). intros n kn Hn Hkn. cbn in Hn.
    apply elem_of_app in Hn as [Hn|[-> |Hn]%elem_of_cons].
    + destruct (Ha n Hn) as (ky' & Hky' & Hc'). simplify_eq. by rewrite Hc'.
    + by simplify_eq.
    + destruct (Hb n Hn) as (ky' & Hky' & Hc'). simplify_eq. by rewrite Hc'.
Qed.

Lemma present_nonempty A k l1 x l2 : present cmp A k l1 x l2 -> queue A <> [].
Proof. intros (-> & _). by destruct l1. Qed.

Lemma find_present s A k l1 x l2 :
  repr s A -> present cmp A k l1 x l2 ->
  exists s' a b D, mfind cmp s k = Ok (s', x) /\ core s' A (T a x b) D /\ sz s' = sz s.
Proof.
  intros [(t & D & H) Hsz] Hp. pose proof (present_nonempty _ _ _ _ _ Hp) as Hne. unfold mfind.
  rewrite (core_root_nil s A t D H). rewrite bool_decide_eq_false_2 by done.
  destruct (core_splay s A t D H k Hne) as (s' & a & y & b & kv & -> & H' & _ & Hsz' & Hy & _ & Ha & Hb). bind.
  destruct (root_present s' A a y b D k kv H' Hy Ha Hb) as (Hpr & _).
  destruct (Hpr _ _ _ Hp) as [-> Hc]. rewrite (core_cmpk _ _ _ _ H' k y kv) by done. bind. rewrite Hc.
  by exists s', a, b, D.
Qed.

Lemma find_absent s A k :
  repr s A -> absent cmp A k -> exists s', mfind cmp s k = Ok (s', 0) /\ repr s' A.
Proof.
  intros [(t & D & H) Hsz] Hab. unfold mfind.
  rewrite (core_root_nil s A t D H). case_bool_decide as Hne; [exists s; split; [done|split; [by exists t, D|done]]|].
  destruct (core_splay s A t D H k Hne) as (s' & a & y & b & kv & -> & H' & _ & Hsz' & Hy & _ & Ha & Hb). bind.
  destruct (root_present s' A a y b D k kv H' Hy Ha Hb) as (_ & Hab' & _). specialize (Hab' Hab).
  rewrite (core_cmpk _ _ _ _ H' k y kv) by done. bind. exists s'. split; [by destruct (cmp k (fst kv))|].
  split; [by exists (T a y b), D|congruence].
Qed.

(** ** Insertion *)

Lemma mempty_Ok s A : sz s = Z.of_nat (length (queue A)) -> mempty s = bool_decide (queue A = []).
Proof.
  intros Hsz. unfold mempty. rewrite Hsz. destruct (queue A) as [|x q]; [done|].
  rewrite bool_decide_eq_false_2 by done. apply Z.eqb_neq. cbn. lia.
Qed.

Lemma insert_Ok s A e kv :
  repr s A -> vals A !! e = Some kv -> e ∉ queue A -> (alloc = true -> e ∈ mem A) ->
  exists s' en, multimap_insert cmp s e = Ok (s', en) /\ repr s' (push A e) /\ e_ en = e /\ ins_err en = false /\
    (absent cmp A (fst kv) -> occupied en = false) /\
    (forall l1 x l2, present cmp A (fst kv) l1 x l2 -> occupied en = true).
Proof.
  intros [(t & D & H) Hsz] He Hin Hmem. destruct (co_live _ _ _ _ H e kv He) as (Hle & He0 & Hen).
  unfold multimap_insert. rewrite OmProofs.set_links_put by done. bind.
  set (s1 := set_lk s _). pose proof (core_put s A t D H e nil nil nil Hin Hen) as H1. fold s1 in H1.
  destruct (OmProofs.put_lookups (lk s) e nil nil nil) as (Hl & Hrt & Hp).
  assert (alloc = true -> forall x, x ∈ queue A ++ [e] -> x ∈ mem A) as Hmem'.
  { intros Ha x [Hx|Hx]%elem_of_app; [by apply (co_mem _ _ _ _ H)|]. apply elem_of_list_singleton in Hx as ->. auto. }
  rewrite (mempty_Ok s1 A) by done. case_bool_decide as Hne.
  - pose proof (proj2 (core_empty s A t D H) Hne) as ->.
    eexists _, _. split; [done|]. split_and!; try done.
    + split; [|cbn; by rewrite Hne]. exists (T E e E), D.
      pose proof (wf_out _ _ _ (co_wf _ _ _ _ H1)) as Hout.
      assert (forall n, D n = []) as HD by (intros n; apply Hout, not_elem_of_nil).
      apply (core_move s1 A E D H1); try done.
      * split.
        -- cbn [TreeProofs.rep TreeProofs.ptr nodes app]. rewrite !flat_in by (cbn; left). cbn [lf rt flat].
           rewrite (HD e). cbn [hd]. done.
        -- apply (wf_nil _ _ _ (co_wf _ _ _ _ H1)).
        -- intros n _. by rewrite HD.
        -- intros n _. apply HD.
        -- cbn. split_and!.
           ++ apply NoDup_singleton.
           ++ intros ?%elem_of_list_singleton. congruence.
           ++ intros ?%elem_of_list_singleton. congruence.
           ++ intros n. rewrite HD. constructor.
           ++ intros n x. rewrite HD. by intros ?%elem_of_nil.
           ++ intros n m x. rewrite HD. by intros ?%elem_of_nil.
      * cbn [nodes app]. rewrite Hne. apply (gr_push_new cmp Hcmp (vals A) [] [e] D [] e kv); try done.
        -- pose proof (co_groups _ _ _ _ H) as Hg. by rewrite Hne in Hg.
        -- split; [repeat constructor|]. constructor; [by exists kv|constructor].
        -- by intros n kn ?%elem_of_nil.
        -- apply not_elem_of_nil.
    + intros l1 x l2 Hpr. exfalso. by apply (present_nonempty _ _ _ _ _ Hpr).
  - pose proof (core_sz _ _ _ _ (sz s1 + 1)%Z H1) as H1'.
    rewrite (core_value _ A t D H1' e kv) by done. bind.
    destruct (core_splay _ A t D H1' (fst kv) Hne) as (s2 & a & x & b & kx & Hrun & H2 & Hn2 & Hsz2 & Hx & Hw2 & Ha & Hb).
    rewrite Hrun. bind.
    rewrite (core_cmpk _ _ _ _ H2 (fst kv) x kx) by done. bind.
    destruct (root_present s2 A a x b D _ kx H2 Hx Ha Hb) as (Hpr & Hab & _ & Hab').
    assert (~ span D (nodes (T a x b)) e) as Hsp by (by apply (core_outside s2 A (T a x b) D H2 e kv)).
    assert (root s2 = x) as Hroot2 by apply H2.
    destruct (co_live _ _ _ _ H2 e kv He) as (Hle2 & _).
    assert (Z.of_nat (length (queue A ++ [e])) = (sz s1 + 1)%Z) as Hlen.
    { rewrite app_length. cbn [length]. change (sz s1) with (sz s). lia. }
    destruct (is_eq (cmp (fst kv) (fst kx))) eqn:Ec.
    + assert (cmp (fst kv) (fst kx) = Eq) as Ec' by (by destruct (cmp (fst kv) (fst kx))).
      rewrite Hroot2. destruct (wf_add (lk s2) a x b D e) as (h3 & -> & Hw3 & Hin3); [apply H2|done..|]. bind.
      eexists _, _. split; [done|]. split_and!; try done.
      * split; [|cbn [sz set_lk queue push set_queue]; rewrite Hsz2; cbn [sz set_sz]; lia].
        exists (T a x b), (put D x (D x ++ [e])). apply (core_move s2 A (T a x b) D H2); try done.
        -- apply (gr_push_old cmp Hcmp (vals A) _ D _ x e kx kv); try done; [apply H2|].
           cbn. rewrite elem_of_app. right. left.
        -- apply Hin3.
      * intros Hab''. by specialize (Hab Hab'').
    + assert (cmp (fst kv) (fst kx) <> Eq) as Ec' by (by intros E'; rewrite E' in Ec).
      set (d := is_gt (cmp (fst kv) (fst kx))).
      assert (exists u w, T a x b = mk d u x w /\
        ((d = true /\ u = a /\ w = b /\ cmp (fst kv) (fst kx) = Gt) \/
         (d = false /\ u = b /\ w = a /\ cmp (fst kv) (fst kx) = Lt))) as (u & w & Hmk & Hcase).
      { unfold d. destruct (cmp (fst kv) (fst kx)); [done|exists b, a|exists a, b]; (split; [done|auto]). }
      assert (same (lk s1) (lk s2) e) as (Hs1 & Hs2 & Hs3).
      { apply Hw2. by rewrite <- Hn2. }
      rewrite Hroot2. destruct (wf_graft (lk s2) D (cmp (fst kv) (fst kx)) u x w e) as (h3 & -> & Hw3 & Hin3).
      { fold d. rewrite <- Hmk. apply H2. }
      { fold d. rewrite <- Hmk. split_and!; try done; [rewrite Hs1|rewrite Hs2|rewrite Hs3]; done. }
      bind. fold d in Hw3, Hin3. rewrite <- Hmk in Hin3.
      eexists _, _. split; [done|]. split_and!; try done.
      * split; [|cbn [sz set_root set_lk queue push set_queue]; rewrite Hsz2; cbn [sz set_sz]; lia].
        exists (mk d (mk d u x E) e w), D. apply (core_move s2 A (T a x b) D H2); try done.
        -- cbn [root set_root]. by rewrite ptr_mk.
        -- apply (gr_push_new cmp Hcmp (vals A) (nodes (T a x b)) _ D _ e kv); try done.
           ++ apply H2.
           ++ pose proof (gr_sorted _ _ _ _ _ (co_groups _ _ _ _ H2)) as Hs. cbn [nodes] in Hs.
              destruct Hcase as [(Ed & -> & -> & Ecc)|(Ed & -> & -> & Ecc)]; rewrite Ed; cbn [mk nodes].
              ** apply (MapProofs.sorted_insert cmp Hcmp (vals A) _ _ e kv); [by rewrite <- app_assoc|done| |done].
                 intros z [Hz|[-> |Hz%elem_of_nil]%elem_of_cons]%elem_of_app; [auto| |done]. by exists kx.
              ** apply (MapProofs.sorted_insert cmp Hcmp (vals A) _ _ e kv); [done|done|done|].
                 intros z [-> |Hz]%elem_of_cons; [by exists kx|auto].
           ++ rewrite Hmk, !nodes_mk_perm. cbn [nodes]. by rewrite app_nil_r.
           ++ apply (wf_out _ _ _ (co_wf _ _ _ _ H2)). intros Hz. apply Hsp. apply span_in. by right.
           ++ intros n kn Hnn Hkn. apply (gr_absent cmp A _ _ (fst kv) n kn (co_groups _ _ _ _ H2)); [auto|done|done].
        -- apply Hin3.
      * intros l1 y l2 Hpr'. by destruct (Hpr _ _ _ Hpr') as [_ ?].
Qed.

(** ** Removal *)

(** [x] left the map. *)
Definition gone s s' A l1 l2 : Prop := sz s' = sz s /\ exists t D, core s' (set_queue A (l1 ++ l2)) t D.

Lemma gone_mem s A t D l1 x l2 : core s A t D -> queue A = l1 ++ x :: l2 ->
  alloc = true -> forall z, z ∈ l1 ++ l2 -> z ∈ mem A.
Proof. intros H Hq Ha z Hz. apply (co_mem _ _ _ _ H); [done|]. rewrite Hq. by apply in_middle. Qed.

Lemma remove_single s A a x b D l1 l2 :
  core s A (T a x b) D -> queue A = l1 ++ x :: l2 -> D x = [] ->
  exists s', mremove_from_tree cmp s x = Ok s' /\ gone s s' A l1 l2.
Proof.
  intros H Hq HD. pose proof (co_groups _ _ _ _ H) as Hg. rewrite Hq in Hg.
  destruct (core_data s A _ D H x) as [kx Hx]; [rewrite Hq, elem_of_app; right; left|].
  pose proof (gr_sorted _ _ _ _ _ Hg) as Hs.
  destruct (wf_detach cmp Hcmp (vals A) (lk s) D a x b kx) as (h' & t' & Hrun & Hw & Hn & Hin); [apply H|done..|].
  unfold mremove_from_tree. rewrite (co_dat _ _ _ _ H), Hrun. bind. eexists. split; [done|]. split; [done|].
  exists t', D. apply (core_move s A (T a x b) D H); try done; [|apply Hin|by apply (gone_mem s A (T a x b) D l1 x)].
  rewrite Hn. cbn [nodes] in Hg, Hs. apply (gr_pop_single cmp Hcmp (vals A) (nodes a ++ x :: nodes b) _ D l1 x l2); try done.
  - rewrite elem_of_app. right. left.
  - by apply (MapProofs.sorted_remove cmp (vals A) _ x).
  - pose proof (core_nodes s A _ D H) as Hnd. cbn [nodes] in Hnd. rewrite <- Permutation_middle in Hnd.
    apply NoDup_cons in Hnd as [Hnx _]. intros n. rewrite !elem_of_app, elem_of_cons. rewrite elem_of_app in Hnx.
    split; [|tauto]. intros Hn'. split; [tauto|]. by intros ->.
Qed.

Lemma remove_front s A a x b D l1 l2 d r k :
  core s A (T a x b) D -> queue A = l1 ++ x :: l2 -> D x = d :: r ->
  exists s', pop_front_dup cmp s x k = Ok s' /\ gone s s' A l1 l2.
Proof.
  intros H Hq HD. pose proof (co_groups _ _ _ _ H) as Hg. rewrite Hq in Hg.
  destruct (pop_front_Ok cmp s a x b D d r k) as (h' & -> & Hw & Hin); [apply H|done|apply H|].
  eexists. split; [done|]. split; [done|]. exists (T a d b), (put (put D x []) d r).
  apply (core_move s A (T a x b) D H); try done; [|apply Hin|by apply (gone_mem s A (T a x b) D l1 x)].
  cbn [nodes] in *. apply (gr_pop_front cmp Hcmp); [done|done|].
  destruct (wf_apart _ _ _ (co_wf _ _ _ _ H)) as (_ & _ & _ & _ & Hd & _).
  apply (Hd x d). rewrite HD. left.
Qed.

Lemma unlink_Ok s A t D x : core s A t D -> x ∉ queue A -> x <> nil -> live (lk s) x ->
  exists h, set_links (lk s) x 0 = Ok h /\ core (set_lk s h) A t D.
Proof. intros H Hx Hn Hl. rewrite OmProofs.set_links_put by done. eexists. split; [done|]. by apply core_put. Qed.

Lemma gone_unlink s s' A l1 x l2 kx :
  gone s s' A l1 l2 -> vals A !! x = Some kx -> x ∉ l1 ++ l2 ->
  exists h, set_links (lk s') x 0 = Ok h /\ gone s (set_lk s' h) A l1 l2.
Proof.
  intros [Hsz (t & D & H)] Hx Hn. destruct (co_live _ _ _ _ H x kx Hx) as (Hl & _ & Hxn).
  destruct (unlink_Ok s' _ t D x H Hn Hxn Hl) as (h & Hh & H'). exists h. split; [done|]. split; [done|]. by exists t, D.
Qed.

Lemma not_in_rest s A t D l1 x l2 : core s A t D -> queue A = l1 ++ x :: l2 -> x ∉ l1 ++ l2.
Proof. intros H Hq. pose proof (co_groups _ _ _ _ H) as Hg. rewrite Hq in Hg. by apply (gr_leave_NoDup cmp) in Hg as [_ ?]. Qed.

Lemma core_has_dups s A t D n : core s A t D -> n ∈ nodes t -> has_dups (lk s) n = Ok (dup D n).
Proof.
  intros H Hn. destruct (wf_shadow (lk s) t D) as [Hs Ht]; [apply H|].
  apply (has_dups_Ok D (nodes t) (flat D (nodes t) (lk s))); [done|done|by right].
Qed.

Lemma take_front_Ok s A a x b D l1 l2 :
  core s A (T a x b) D -> queue A = l1 ++ x :: l2 ->
  exists s', take_front cmp s x = Ok (s', x) /\ gone s s' A l1 l2.
Proof.
  intros H Hq. unfold take_front.
  assert (x ∈ nodes (T a x b)) as Hxn by (cbn; rewrite elem_of_app; right; left).
  destruct (core_data s A _ D H x) as [kx Hx]; [by apply (core_node s A (T a x b) D)|].
  rewrite (core_has_dups s A _ D x H Hxn). bind. unfold dup.
  assert (exists s', (if match D x with [] => false | _ => true end then kv ← value (dat s) x; pop_front_dup cmp s x (fst kv)
    else mremove_from_tree cmp s x) = Ok s' /\ gone s s' A l1 l2) as (s1 & -> & Hg).
  { destruct (D x) as [|d r] eqn:ED.
    - by apply (remove_single s A a x b D).
    - rewrite (core_value s A _ D H x kx Hx). bind. by apply (remove_front s A a x b D l1 l2 d r). }
  bind. destruct (gone_unlink s s1 A l1 x l2 kx Hg Hx) as (h & -> & Hg').
  - by apply (not_in_rest s A (T a x b) D).
  - bind. by eexists.
Qed.

Lemma gone_repr s s' A l1 x l2 n :
  gone s s' A l1 l2 -> queue A = l1 ++ x :: l2 -> sz s = (n - 1)%Z -> n = Z.of_nat (length (queue A)) ->
  repr s' (set_queue A (l1 ++ l2)).
Proof.
  intros [Hsz He] Hq Hs Hn. split; [done|]. cbn [queue set_queue]. rewrite Hsz, Hs, Hn, Hq, !app_length. cbn [length]. lia.
Qed.

Lemma erase_present s A k l1 x l2 :
  repr s A -> present cmp A k l1 x l2 ->
  exists s', multimap_erase cmp s k = Ok (s', x) /\ repr s' (set_queue A (l1 ++ l2)).
Proof.
  intros [(t & D & H) Hsz] Hp. pose proof (present_nonempty _ _ _ _ _ Hp) as Hne. unfold multimap_erase.
  rewrite (mempty_Ok s A Hsz). rewrite bool_decide_eq_false_2 by done.
  destruct (core_splay s A t D H k Hne) as (s1 & a & y & b & kv & -> & H1 & _ & Hsz1 & Hy & _ & Ha & Hb). bind.
  destruct (root_present s1 A a y b D k kv H1 Hy Ha Hb) as (Hpr & _).
  destruct (Hpr _ _ _ Hp) as [-> Hc]. rewrite (core_cmpk _ _ _ _ H1 k y kv) by done. bind. rewrite Hc. cbn [is_eq negb].
  pose proof (core_sz _ _ _ _ (sz s1 - 1)%Z H1) as H2. pose proof Hp as (Hq & _).
  destruct (take_front_Ok _ A a y b D l1 l2 H2 Hq) as (s' & -> & Hg).
  exists s'. split; [done|]. apply (gone_repr _ s' A l1 y l2 (sz s1) Hg Hq); [done|congruence].
Qed.

Lemma erase_absent s A k :
  repr s A -> absent cmp A k -> exists s', multimap_erase cmp s k = Ok (s', 0) /\ repr s' A.
Proof.
  intros [(t & D & H) Hsz] Hab. unfold multimap_erase.
  rewrite (mempty_Ok s A Hsz). case_bool_decide as Hne; [exists s; split; [done|split; [by exists t, D|done]]|].
  destruct (core_splay s A t D H k Hne) as (s1 & a & y & b & kv & -> & H1 & _ & Hsz1 & Hy & _ & Ha & Hb). bind.
  destruct (root_present s1 A a y b D k kv H1 Hy Ha Hb) as (_ & Hab' & _). specialize (Hab' Hab).
  rewrite (core_cmpk _ _ _ _ H1 k y kv) by done. bind. exists s1.
  split; [by destruct (cmp k (fst kv))|]. split; [by exists (T a y b), D|congruence].
Qed.

Lemma extreme_nonempty A d l1 x l2 : extreme cmp A d l1 x l2 -> queue A <> [].
Proof. intros (-> & _). by destruct l1. Qed.

Lemma end_Ok s A d l1 x l2 :
  repr s A -> extreme cmp A d l1 x l2 -> exists s' a D, omm_end s d = Ok (s', x) /\ core s' A (mk d a x E) D /\ sz s' = sz s.
Proof.
  intros [(t & D & H) Hsz] Hx. pose proof (extreme_nonempty _ _ _ _ _ Hx) as Hne.
  destruct (core_splay_end s A t D H d Hne) as (s' & a & y & Hrun & H' & Hn & Hsz').
  exists s', a, D. assert (x = y) as ->; [|done].
  apply (gr_extreme cmp Hcmp A _ D d l1 x l2 y (ord d (nodes a)) (co_groups _ _ _ _ H') Hx). by rewrite nodes_mk; destruct d.
Qed.

Lemma erase_end_Ok s A d l1 x l2 :
  repr s A -> extreme cmp A d l1 x l2 ->
  exists s', erase_end cmp s d = Ok (s', x) /\ repr s' (set_queue A (l1 ++ l2)).
Proof.
  intros Hr Hx. pose proof (extreme_nonempty _ _ _ _ _ Hx) as Hne. unfold erase_end.
  pose proof Hr as [_ Hsz]. rewrite (mempty_Ok s A Hsz), bool_decide_eq_false_2 by done.
  destruct Hr as [(t & D & H) _].
  destruct (core_splay_end _ A t D (core_sz _ _ _ _ (sz s - 1)%Z H) d Hne) as (s1 & a & y & -> & H1 & Hn & Hsz1). bind.
  assert (x = y) as ->.
  { apply (gr_extreme cmp Hcmp A _ D d l1 x l2 y (ord d (nodes a)) (co_groups _ _ _ _ H1) Hx). by rewrite nodes_mk; destruct d. }
  destruct Hx as [Hq _].
  assert (exists s', take_front cmp s1 y = Ok (s', y) /\ gone s1 s' A l1 l2) as (s' & -> & Hg).
  { destruct d; [by apply (take_front_Ok s1 A a y E D)|by apply (take_front_Ok s1 A E y a D)]. }
  exists s'. split; [done|]. by apply (gone_repr s1 s' A l1 y l2 (sz s) Hg Hq).
Qed.

(** Links of elements in the map are never NULL. *)
Lemma core_links_ne s A t D x : core s A t D -> x ∈ queue A ->
  exists l r, lf (lk s) !! x = Some l /\ rt (lk s) !! x = Some r /\ l <> 0 /\ r <> 0.
Proof.
  intros H Hx. destruct (gr_cover _ _ _ _ _ (co_groups _ _ _ _ H) x Hx) as (n & Hn & Hin).
  pose proof (co_wf _ _ _ _ H) as Hw. destruct (wf_apart _ _ _ Hw) as (_ & _ & H0 & _ & Hd & _).
  apply elem_of_cons in Hin as [-> |Hin].
  - destruct (wf_shadow _ _ _ Hw) as [Hs (_ & Ht & _)]. destruct (Ht n Hn) as [_ Hb].
    assert (forall z, z ∈ nil :: nodes t -> z <> 0) as Hz. { intros z [-> |Hz]%elem_of_cons; [done|by intros ->]. }
    destruct (Hb false) as (l & Hl & Hli), (Hb true) as (r & Hr & Hri). exists l, r.
    rewrite flat_br in Hl, Hr. split_and!; auto.
  - pose proof (wf_ring _ _ _ Hw n Hn) as Hring. pose proof Hin as Hin'. apply elem_of_list_split in Hin as (m1 & m2 & ED).
    destruct (D n) as [|d r] eqn:EDn; [by destruct m1|]. destruct Hring as (_ & Hl & _). rewrite ED in Hl.
    assert (forall m, (forall z, z ∈ m -> z ∈ d :: r) -> hd x m <> 0) as Hm.
    { intros m Hm. apply (Hd n). rewrite EDn. destruct m as [|y m]; [done|]. apply Hm. left. }
    eexists _, _. split; [by apply (linked_prev _ _ _ _ Hl)|]. split; [by apply (linked_next _ _ _ _ Hl)|].
    split; apply Hm; intros z; rewrite ?elem_of_rev, ED, !elem_of_app, elem_of_cons; tauto.
Qed.

Lemma erase_node_Ok s A l1 e l2 :
  repr s A -> queue A = l1 ++ e :: l2 ->
  exists s', erase_node cmp s e = Ok (s', e) /\ repr s' (set_queue A (l1 ++ l2)).
Proof.
  intros [(t & D & H) Hsz] Hq. assert (e ∈ queue A) as He by (rewrite Hq, elem_of_app; right; left).
  assert (queue A <> []) as Hne by (rewrite Hq; by destruct l1).
  destruct (core_links_ne s A t D e H He) as (l & r & Hl & Hr & Hl0 & Hr0).
  destruct (core_data s A t D H e He) as [kv Hkv].
  unfold erase_node. rewrite (rd_Ok _ _ _ Hr). bind. rewrite (rd_Ok _ _ _ Hl). bind.
  rewrite (proj2 (Nat.eqb_neq r 0)), (proj2 (Nat.eqb_neq l 0)) by done. cbn [orb].
  rewrite (mempty_Ok s A Hsz), bool_decide_eq_false_2 by done.
  destruct (gr_cover _ _ _ _ _ (co_groups _ _ _ _ H) e He) as (n & Hn & Hin).
  destruct (wf_pa_zero (lk s) t D n e (co_wf _ _ _ _ H) Hn Hin) as (p & Hp & Hp0).
  cbn [lk set_sz]. rewrite (rd_Ok _ _ _ Hp). bind. destruct (Nat.eqb_spec p 0) as [Ep|Ep].
  - (* within a ring *)
    apply Hp0 in Ep. destruct (D n) as [|d q] eqn:ED; [by apply elem_of_nil in Ep|]. cbn [tail] in Ep.
    apply elem_of_list_split in Ep as (m1 & m2 & ->).
    destruct (wf_snip (lk s) t D n d m1 e m2 l r (co_wf _ _ _ _ H) Hn ED Hl Hr)
      as (Hen & Hle & Hre & Hlr & Hrl & Hll & Hlr' & Hw & Hwi).
    rewrite (rd_Ok _ _ _ Hlr). bind. rewrite (rd_Ok _ _ _ Hrl). bind. rewrite Nat.eqb_refl. cbn [andb oassert]. bind.
    rewrite wbr_Ok by (by apply live_br). bind.
    rewrite (rd_Ok (rt _) _ r) by (see; done). bind.
    rewrite (rd_Ok (lf _) _ l) by done. bind.
    rewrite wbr_Ok by (apply live_br; by apply live_set_br). bind.
    eexists. split; [done|].
    apply (gone_repr (set_sz s (sz s - 1)) _ A l1 e l2 (sz s)); [|done..]. split; [done|].
    exists t, (put D n (d :: m1 ++ m2)). apply (core_move s A t D H); try done.
    + apply H.
    + pose proof (co_groups _ _ _ _ H) as Hg. rewrite Hq in Hg.
      by apply (gr_pop_dup cmp Hcmp (vals A) (nodes t) D l1 e l2 n (d :: m1) m2).
    + apply Hwi.
    + by apply (gone_mem s A t D l1 e).
  - pose proof (core_sz _ _ _ _ (sz s - 1)%Z H) as H0. rewrite (core_value _ A t D H0 e kv Hkv). bind.
    destruct (core_splay _ A t D H0 (fst kv) Hne) as (s1 & a & x & b & kx & -> & H1 & Hn1 & Hsz1 & Hx & _ & Ha & Hb). bind.
    rewrite (core_cmpk _ _ _ _ H1 (fst kv) x kx) by done. bind.
    destruct (root_present s1 A a x b D (fst kv) kx H1 Hx Ha Hb) as (_ & _ & _ & Hab).
    destruct (is_eq (cmp (fst kv) (fst kx))) eqn:Ec; cycle 1.
    { exfalso. assert (absent cmp A (fst kv)) as Habs by (apply Hab; by intros E'; rewrite E' in Ec).
      unfold absent in Habs. rewrite Forall_forall in Habs. apply (Habs e He). exists kv. split; [done|by apply cmp_refl]. }
    cbn [negb]. assert (cmp (fst kx) (fst kv) = Eq) as Ek.
    { apply (cmp_sym cmp Hcmp). by destruct (cmp (fst kv) (fst kx)). }
    assert (x ∈ nodes (T a x b)) as Hxn by (cbn; rewrite elem_of_app; right; left).
    pose proof (gr_owner cmp _ _ _ _ x e kx kv (co_groups _ _ _ _ H1) Hxn He Hx Hkv Ek) as Hex.
    assert (n = x) as ->.
    { destruct (decide (n = x)) as [|Hnx]; [done|exfalso].
      apply (apart_groups (nodes (T a x b)) D n x e (wf_apart _ _ _ (co_wf _ _ _ _ H1))); try done. by rewrite Hn1. }
    rewrite (core_has_dups s1 A _ D x H1 Hxn). bind. unfold dup.
    assert (exists s2, (if match D x with [] => false | _ => true end then pop_dup_node cmp s1 e x
      else s2 ← mremove_from_tree cmp s1 x; Ok (s2, x)) = Ok (s2, e) /\ gone s1 s2 A l1 l2) as (s2 & -> & Hg).
    { destruct (D x) as [|d q] eqn:ED.
      - apply elem_of_list_singleton in Hin as ->. destruct (remove_single s1 A a x b D l1 l2 H1 Hq ED) as (s2 & -> & Hg). bind.
        by exists s2.
      - unfold pop_dup_node. destruct (Nat.eqb_spec e x) as [-> |Hne'].
        + rewrite (core_value s1 A _ D H1 x kx Hx). bind.
          destruct (remove_front s1 A a x b D l1 l2 d q (fst kx) H1 Hq ED) as (s2 & -> & Hg). bind. by exists s2.
        + assert (e = d) as ->.
          { cbn [tail] in Hp0. apply elem_of_cons in Hin as [?|[?|Hin]%elem_of_cons]; [done|done|].
            exfalso. apply Ep. by apply Hp0. }
          destruct (core_links_ne s1 A _ D d H1 He) as (p1 & n1 & Hp1 & Hnx1 & _ & _).
          destruct (wf_head (lk s1) a x b D d q p1 n1 (co_wf _ _ _ _ H1) ED Hp1 Hnx1) as (Hxd & Hlx & Hpd & Hone & Hmore).
          rewrite (rd_Ok _ _ _ Hnx1). bind.
          pose proof (co_groups _ _ _ _ H1) as Hg. rewrite Hq in Hg.
          destruct q as [|d' q].
          * destruct (Hone eq_refl) as (-> & Hw & Hwi). rewrite Nat.eqb_refl.
            rewrite wpa_Ok by (by apply live_pa). bind. eexists. split; [done|]. split; [done|].
            exists (T a x b), (put D x []). apply (core_move s1 A (T a x b) D H1); try done.
            -- apply H1.
            -- by apply (gr_pop_dup cmp Hcmp (vals A) _ D l1 d l2 x [] []).
            -- apply Hwi.
            -- by apply (gone_mem s1 A (T a x b) D l1 d).
          * destruct Hmore as (Hpd' & Hnd & Hnx' & Hlp & Hln & Hw & Hwi); [done|].
            rewrite (proj2 (Nat.eqb_neq n1 d)) by done. rewrite (rd_Ok _ _ _ Hp1). bind.
            rewrite wbr_Ok by (by apply live_br). bind.
            rewrite (rd_Ok (rt _) _ n1) by (see; done). bind.
            rewrite (rd_Ok (lf _) _ p1) by done. bind.
            rewrite wbr_Ok by (apply live_br; by apply live_set_br). bind.
            rewrite (rd_Ok (rt _) _ n1) by (see; done). bind.
            rewrite (rd_Ok (pa _) _ nil) by done. bind.
            rewrite wpa_Ok by (apply live_pa; by repeat apply live_set_br). bind.
            rewrite wpa_Ok by (apply live_pa, live_set_pa; by repeat apply live_set_br). bind.
            eexists. split; [done|]. split; [done|].
            exists (T a x b), (put D x (d' :: q)). apply (core_move s1 A (T a x b) D H1); try done.
            -- apply H1.
            -- by apply (gr_pop_dup cmp Hcmp (vals A) _ D l1 d l2 x [] (d' :: q)).
            -- apply Hwi.
            -- by apply (gone_mem s1 A (T a x b) D l1 d). }
    bind. destruct (gone_unlink s1 s2 A l1 e l2 kv Hg Hkv) as (h & -> & Hg').
    { by apply (not_in_rest s1 A (T a x b) D). }
    bind. eexists. split; [done|]. by apply (gone_repr s1 _ A l1 e l2 (sz s) Hg' Hq).
Qed.

(** ** Memory *)

Lemma give_back_Ok s A x :
  repr s A -> x ∉ queue A -> x <> nil -> x ∈ mem A -> exists s', give_back s x = Ok s' /\ repr s' (free A x).
Proof.
  intros [(t & D & H) Hsz] Hx Hn Hm. unfold give_back. rewrite (co_heap _ _ _ _ H), bool_decide_eq_true_2 by done.
  eexists. split; [done|]. split; [|done]. exists t, D. split; cbn [lk root dat heap queue vals mem free]; try apply H; try done.
  - apply (wf_same (lk s)); [apply H|]. intros z [-> |Hz]%(core_span s A t D H); apply same_del; [done|by intros ->].
  - apply (gr_same cmp Hcmp (vals A)); [apply H|]. intros z Hz. rewrite lookup_delete_ne; [done|by intros ->].
  - by rewrite (co_dat _ _ _ _ H).
  - intros z kv [Hz Hkv]%lookup_delete_Some. destruct (co_live _ _ _ _ H z kv Hkv) as (Hl & ? & ?).
    split_and!; try done. apply (same_live (lk s)); [|done]. by apply same_del.
  - intros Ha z Hz. apply elem_of_difference. split; [by apply (co_mem _ _ _ _ H)|].
    intros ->%elem_of_singleton. done.
Qed.
End calls.
