(** Calls on the ordered multimap that are documented to cost O(1) and do not. *)
From Coq Require Import Sorted.
From stdpp Require Import base numbers option gmap fin_maps list.
From Verif Require Import Common LinkHeap PathLemmas OrderSpec TreeModel TreeProofs SplayModel SplayProofs MapOps OmModel OmmOps
  OmmModel OmmSpec OmmProofs OmmRings OmmGroups OmmWalk OmmCalls OmmHistories CostModel CostErase SplayCostModel SplayCost OmCost WalkCost
  OmmCostModel OmmCostErase OmmCostSpec OmmCostBounds OmmCost OmmEndsCost.
From Verif Require MapProofs OmProofs OmWalkCost.
Import OmWalkCost (chain, down, falls_inv, mk_inj, chain_other, falls_chain, down_last, chain_edge, down_length, elem_of_down,
  total_preorder_Z, falls_top).

Local Ltac bind := cbn [mbind outcome_bind obind].
Local Ltac cb := cbn [cbind mbind outcome_bind obind still gratis].

(** ** Long edges *)

(** A search that goes past every node of an edge. *)
Lemma falls_past g d t i l z r : falls nil g t i l z r -> (forall x, x ∈ nodes t -> g x = dirc d) ->
  edge_length d t <= 2 * i /\ exists u, T l z r = mk d u z E /\ i <= S (edge_length d u).
Proof.
  assert (forall d d', dirc d = dirc d' -> d = d') as Hinj by (by intros [] []).
  assert (forall d a x b, x ∈ nodes (mk d a x b)) as Hroot.
  { intros [] a x b; cbn; rewrite elem_of_app, elem_of_cons; auto. }
  assert (forall d a x b y, y ∈ nodes b -> y ∈ nodes (mk d a x b)) as Hsub.
  { intros [] a x b y Hy; cbn; rewrite elem_of_app, elem_of_cons; auto. }
  induction 1 as [a x b Hx|d' a x Hx|d' a x b i l z r Hx Hb Hy Hf IH|d' a x b y Hx Hy|d' a x b y c i l z r Hx Hy Hc Hf IH]; intros Hall.
  - exfalso. rewrite (Hall x) in Hx; [by destruct d|]. apply (Hroot true).
  - rewrite (Hall x) in Hx by apply Hroot. apply Hinj in Hx as <-. rewrite edge_length_mk. cbn.
    split; [lia|]. exists a. split; [by destruct d|lia].
  - exfalso. rewrite (Hall x) in Hx by apply Hroot. apply Hinj in Hx as <-. apply Hy, Hall, Hsub.
    apply (ptr_in nil b). done.
  - rewrite (Hall x) in Hx by apply Hroot. apply Hinj in Hx as <-. rewrite !edge_length_mk. cbn.
    split; [lia|]. exists (mk d a x b). split; [by destruct d|lia].
  - rewrite (Hall x) in Hx by apply Hroot. apply Hinj in Hx as <-. rewrite !edge_length_mk.
    destruct IH as (H1 & u & Hu & H2); [intros w Hw; by apply Hall, Hsub, Hsub|].
    split; [lia|]. exists (mk d (mk d a x b) y u).
    split; [|rewrite edge_length_mk; lia]. destruct d; cbn [mk] in *; by injection Hu as -> ->.
Qed.

(** A search between the last two of a chain of even length. *)
Lemma falls_between g d n : forall l y i a z b, length l <= n -> Nat.odd (length l) = true ->
  (forall x, x ∈ l -> g x = dirc (negb d)) -> g y = dirc d -> falls nil g (chain d (l ++ [y])) i a z b ->
  exists u, T a z b = mk d E y u /\ length l <= 2 * edge_length (negb d) u.
Proof.
  induction n as [|n IH]; intros l y i a z b Hlen Hodd Hl Hy Hf.
  { destruct l; [done|cbn in Hlen; lia]. }
  destruct l as [|x l]; [done|]. cbn [app] in Hf. rewrite chain_other in Hf. cbn in Hlen.
  apply falls_inv in Hf; [|apply Hl; left].
  assert (chain d (l ++ [y]) <> E) as HcE. { destruct l; cbn [app chain]; apply mk_not_E. }
  destruct Hf as [(? & _)|[(i' & l' & r' & _ & Hp & Hf & _ & Ht)|[(b' & y' & Hb & Hy' & _)|(b' & y' & c' & i' & l' & r' & Hb & Hy' & Hc & Hf & _ & Ht)]]].
  - done.
  - destruct l as [|x' l]; [|exfalso; apply Hp; cbn [app chain]; rewrite ptr_mk; apply Hl; right; left].
    cbn [app chain] in Hf. apply falls_top in Hf as Hu; [|done].
    rewrite Ht. exists (mk (negb d) E x E). split; [|rewrite edge_length_mk; cbn; lia].
    destruct d; cbn [negb mk] in *; injection Hu as -> -> ->; done.
  - exfalso. destruct l as [|x' l]; cbn [app] in Hb; rewrite chain_other in Hb; apply mk_inj in Hb as (_ & <- & Hb).
    + rewrite Hy in Hy'. by destruct d.
    + destruct l; cbn [app chain] in Hb; by apply mk_not_E in Hb.
  - destruct l as [|x' l]; cbn [app] in Hb; rewrite chain_other in Hb; apply mk_inj in Hb as (<- & <- & <-).
    { rewrite Hy in Hy'. by destruct d. }
    apply (IH l) in Hf as (u & Hu & Hlu); [|cbn in Hlen; lia|done|intros w Hw; apply Hl; by do 2 right|done].
    rewrite Ht. exists (mk (negb d) (mk (negb d) E x E) x' u). split; [|rewrite edge_length_mk; cbn [length]; lia].
    destruct d; cbn [negb mk] in *; injection Hu as -> -> ->; done.
Qed.

(** ** Insertions that make a chain *)

Definition key (i : nat) : Z := (-2 * Z.of_nat i)%Z.
Definition sinking (i : nat) : list (mm_op Z nat) := [ONew (i + 2) (key i) 0 0 0 0 false; OInsert (i + 2) 0].
Fixpoint sinkings (m : nat) : list (mm_op Z nat) := match m with 0 => [] | S m => sinkings m ++ sinking m end.
Fixpoint sunk (m : nat) : view Z nat :=
  match m with 0 => start | S m => push (set_val (sunk m) (m + 2) (key m, 0)) (m + 2) end.

Notation kept := (OmmSpec.kept false 0).
Notation fits n := (fits Z.compare false n).
Notation run_c := (omm_run_c Z.compare false 0).

Lemma sunk_val m i : i < m -> vals (sunk m) !! (i + 2) = Some (key i, 0).
Proof.
  intros Hi. induction m as [|m IH]; [lia|]. cbn. destruct (decide (i = m)) as [-> |Hne]; [by rewrite lookup_insert|].
  rewrite lookup_insert_ne by lia. apply IH. lia.
Qed.
Lemma sunk_unused m i : m <= i -> unused (sunk m) (i + 2).
Proof.
  intros Hi. split; [lia|]. split; [lia|]. induction m as [|m IH]; [done|]. cbn. rewrite lookup_insert_ne by lia. apply IH. lia.
Qed.
Lemma elem_of_sunk m x : x ∈ queue (sunk m) <-> exists i, i < m /\ x = i + 2.
Proof.
  induction m as [|m IH]; cbn [sunk].
  - cbn. rewrite elem_of_nil. split; [done|]. intros (i & ? & _). lia.
  - cbn [queue push set_queue set_val]. rewrite elem_of_app, IH, elem_of_list_singleton. split.
    + intros [(i & ? & ->)| ->]; [exists i|exists m]; (split; [lia|done]).
    + intros (i & Hi & ->). destruct (decide (i = m)) as [-> |]; [by right|]. left. exists i. split; [lia|done].
Qed.
Lemma sunk_length m : length (queue (sunk m)) = m.
Proof. induction m as [|m IH]; [done|]. cbn. rewrite app_length, IH. cbn. lia. Qed.
Lemma sunk_first m : exists l, queue (sunk (S m)) = 2 :: l.
Proof.
  induction m as [|m [l IH]]; [by exists []|]. change (queue (sunk (S (S m)))) with (queue (sunk (S m)) ++ [S m + 2]).
  rewrite IH. by eexists.
Qed.
Lemma keyc_sunk m k i : i < m -> keyc Z.compare (vals (sunk m)) k (i + 2) = Z.compare k (key i).
Proof. intros Hi. unfold keyc. by rewrite (sunk_val m i Hi). Qed.
Lemma sunk_absent m k : (forall i, i < m -> k <> key i) -> absent Z.compare (sunk m) k.
Proof.
  intros Hk. apply Forall_forall. intros x (i & Hi & ->)%elem_of_sunk (kv & Hkv & Hc). rewrite (sunk_val m i Hi) in Hkv.
  simplify_eq. cbn in Hc. apply Z.compare_eq in Hc. by apply (Hk i).
Qed.
Lemma sunk_present m i : i < m -> exists l1 l2, present Z.compare (sunk m) (key i) l1 (i + 2) l2.
Proof.
  intros Hi. assert (i + 2 ∈ queue (sunk m)) as (l1 & l2 & Hq)%elem_of_list_split by (apply elem_of_sunk; by exists i).
  exists l1, l2. split; [done|]. split.
  - exists (key i, 0). split; [by apply sunk_val|]. apply Z.compare_refl.
  - apply Forall_forall. intros y Hy (kv & Hkv & Hc).
    assert (y ∈ queue (sunk m)) as (j & Hj & ->)%elem_of_sunk by (rewrite Hq, elem_of_app; by left).
    rewrite (sunk_val m j Hj) in Hkv. simplify_eq. cbn in Hc. apply Z.compare_eq in Hc. assert (i = j) as <- by (unfold key in Hc; lia).
    assert (NoDup (queue (sunk m))) as Hnd.
    { clear. induction m as [|m IH]; [constructor|]. cbn. apply NoDup_app. split; [done|]. split; [|apply NoDup_singleton].
      intros x (i & Hi & ->)%elem_of_sunk. rewrite elem_of_list_singleton. lia. }
    rewrite Hq in Hnd. apply NoDup_app in Hnd as (_ & Hnd & _). apply (Hnd _ Hy). left.
Qed.

Lemma run_c_app {K V} (cmp : K -> K -> comparison) alloc off (s s1 s2 : om K V) os1 os2 rs1 rs2 w1 w2 :
  omm_run_c cmp alloc off s os1 = Ok ((s1, rs1), w1) -> omm_run_c cmp alloc off s1 os2 = Ok ((s2, rs2), w2) ->
  exists w, omm_run_c cmp alloc off s (os1 ++ os2) = Ok ((s2, rs1 ++ rs2), w).
Proof.
  revert s rs1 w1. induction os1 as [|o os1 IH]; intros s rs1 w1 H1 H2; cbn [omm_run_c app] in *.
  - injection H1 as -> <- _. by exists w2.
  - destruct (omm_step_c cmp alloc off s o) as [[[s' r] w]| |]; try done. cbn [cbind mbind outcome_bind obind] in *.
    destruct (omm_run_c cmp alloc off s' os1) as [[[s'' rs] w']| |] eqn:E1; try done. cbn in H1. injection H1 as -> <- _.
    destruct (IH s' rs w' E1 H2) as [w3 ->]. cbn. by eexists.
Qed.
Lemma calls_app {K V} (cmp : K -> K -> comparison) c (A B C : view K V) os1 os2 rs1 rs2 :
  calls cmp c A os1 rs1 B -> calls cmp c B os2 rs2 C -> calls cmp c A (os1 ++ os2) (rs1 ++ rs2) C.
Proof. induction 1 as [|A o r A1 os rs A2 H Hs IH]; [done|]. intros H2. econstructor; [done|by apply IH]. Qed.

Lemma sinking_calls m : calls Z.compare kept (sunk m) (sinking m) [OPtr (m + 2); OEnt false false (m + 2)] (sunk (S m)).
Proof.
  eapply calls_cons.
  - apply (call_new Z.compare kept (sunk m) (m + 2) (key m) 0 0 0 0 false). by apply sunk_unused.
  - eapply calls_cons; [|apply calls_nil].
    assert (m + 2 ∉ queue (sunk m)) as Hin by (rewrite elem_of_sunk; intros (i & ? & ?); lia).
    eapply (call_insert_new _ _ _ _ _ (key m, 0)); [cbn; by rewrite lookup_insert| |lia|apply arrives_own; [done|exact Hin|done]].
    assert (absent Z.compare (sunk m) (key m)) as Hab by (apply sunk_absent; intros i Hi; unfold key; lia).
    unfold absent in *. cbn [queue set_val]. rewrite Forall_forall in *. intros y Hy (kv & Hkv & Hc). apply (Hab y Hy).
    exists kv. split; [|done]. cbn in Hkv. by rewrite lookup_insert_ne in Hkv by (intros <-; done).
Qed.
Lemma sinkings_calls m : exists rs, calls Z.compare kept start (sinkings m) rs (sunk m).
Proof.
  induction m as [|m [rs IH]]; [exists []; constructor|]. eexists. cbn [sinkings]. eapply calls_app; [exact IH|]. apply sinking_calls.
Qed.

Lemma fits_keep n (s : om Z nat) A t t' : fits n s A t -> t = t' -> fits n s A t'.
Proof. by intros ? <-. Qed.
Lemma sinking_run n s m : S m <= n -> fits n s (sunk m) (chain false (down m)) ->
  exists s' w, run_c s (sinking m) = Ok ((s', [OPtr (m + 2); OEnt false false (m + 2)]), w) /\
    fits n s' (sunk (S m)) (chain false (down (S m))).
Proof.
  intros Hm Hf. unfold sinking. cbn [omm_run_c omm_step_c]. unfold omm_new. cb.
  set (A := set_val (sunk m) (m + 2) (key m, 0)).
  assert (fits n (om_new s (m + 2) (key m) 0 0 0 0) A (chain false (down m))) as Hf1.
  { apply (fits_new Z.compare total_preorder_Z false n s (sunk m) _ (m + 2) (key m, 0) 0 0 0 false); [by apply sunk_unused|done]. }
  unfold omm_insert_c.
  assert (m + 2 ∉ queue A) as Hin by (unfold A; cbn; rewrite elem_of_sunk; intros (i & ? & ?); lia).
  assert (vals A !! (m + 2) = Some (key m, 0)) as He by (unfold A; cbn; by rewrite lookup_insert).
  assert (keys_within Z.compare n (push A (m + 2))) as Hk.
  { apply (keys_of_size Z.compare total_preorder_Z). change (push A (m + 2)) with (sunk (S m)). by rewrite sunk_length. }
  assert (absent Z.compare A (key m)) as Hab.
  { assert (absent Z.compare (sunk m) (key m)) as Hab by (apply sunk_absent; intros i Hi; unfold key; lia).
    unfold absent in *. cbn [queue set_val A]. rewrite Forall_forall in *. intros y Hy (kv & Hkv & Hc). apply (Hab y Hy).
    exists kv. split; [|done]. cbn in Hkv. by rewrite lookup_insert_ne in Hkv by (intros <-; done). }
  destruct (insert_grown_c Z.compare total_preorder_Z false n _ A _ (m + 2) (key m, 0) Hf1 He Hin ltac:(done) Hk)
    as (en & ([s2 en'] & w & t' & -> & _ & Hen & Hf2 & Hgrow) & He2 & Herr & Hocc & _). cbn in Hen, Hf2. subst en'. cb.
  exists s2. eexists. split.
  { unfold mobserve. rewrite (Hocc Hab), He2, Herr. reflexivity. }
  apply (fits_keep n s2 _ t'); [exact Hf2|]. destruct Hgrow as [Hempty Hgrow]. destruct m as [|m].
  { by rewrite Hempty. }
  destruct Hgrow as (d & u & x & w' & i & l & r & Hfall & Hx & Hmk & ->).
  { unfold A. cbn. by destruct (queue (sunk m)). }
  { done. }
  assert (keyc Z.compare (vals A) (key (S m)) (m + 2) = dirc false) as Hlt.
  { change (vals A) with (vals (sunk (S (S m)))). rewrite keyc_sunk by lia. apply Z.compare_lt_iff. unfold key. lia. }
  cbn [down chain] in Hfall. apply falls_top in Hfall as Hsame; [|exact Hlt].
  rewrite Hsame in Hmk. assert (x = m + 2) as -> by (by destruct d; injection Hmk as _ ->).
  cbn [fst] in Hx. rewrite Hlt in Hx. assert (d = false) as -> by (by destruct d).
  apply mk_inj in Hmk as (<- & _ & <-). done.
Qed.
Lemma sinkings_run n m : m <= n -> exists s rs w, run_c om_init (sinkings m) = Ok ((s, rs), w) /\
  fits n s (sunk m) (chain false (down m)) /\ calls Z.compare kept start (sinkings m) rs (sunk m).
Proof.
  induction m as [|m IH]; intros Hm.
  - exists om_init, [], idle. split; [done|]. split; [|constructor].
    destruct (repr_init (V := nat) Z.compare false) as [(t & D & H) Hsz].
    pose proof (proj2 (core_empty Z.compare false _ _ t D H) eq_refl) as ->. split; [by exists D|]. split; [done|cbn; lia].
  - destruct IH as (s & rs & w & Hrun & Hf & Hc); [lia|].
    destruct (sinking_run n s m Hm Hf) as (s1 & w1 & Hrun1 & Hf1).
    destruct (run_c_app _ _ _ _ _ _ _ _ _ _ _ _ Hrun Hrun1) as [w2 Hrun2].
    eexists s1, _, w2. cbn [sinkings]. split; [exact Hrun2|]. split; [exact Hf1|]. eapply calls_app; [exact Hc|apply sinking_calls].
Qed.

(** ** The dear calls *)

(** No duplicates among the elements. *)
Lemma sunk_single s m t D x : core Z.compare false s (sunk m) t D -> x ∈ nodes t -> D x = [].
Proof.
  intros H Hx. destruct (D x) as [|y r] eqn:ED; [done|exfalso].
  destruct (gr_in Z.compare _ _ _ _ x y (co_groups _ _ _ _ _ _ H) Hx) as (Hy & kx & ky & Hkx & Hky & Hc); [rewrite ED; right; left|].
  pose proof (core_node Z.compare false s (sunk m) t D H x Hx) as Hxq.
  apply elem_of_sunk in Hy as (i & Hi & ->). apply elem_of_sunk in Hxq as (j & Hj & ->).
  rewrite sunk_val in Hkx, Hky by done. simplify_eq. cbn in Hc. apply Z.compare_eq in Hc. assert (i = j) as -> by (unfold key in Hc; lia).
  destruct (wf_apart _ _ _ (co_wf _ _ _ _ _ _ H)) as (_ & _ & _ & _ & Hdd & _).
  destruct (Hdd (j + 2) (j + 2)) as [Hno _]; [rewrite ED; left|done].
Qed.

(** Taking the greatest away from the root splays what is below it. *)
Lemma cut_dear s m u D t1 i w :
  core Z.compare false s (sunk (S m)) (T u 2 E) D -> cut_off nil (keyc Z.compare (vals (sunk (S m))) (key 0)) u E i t1 ->
  w <= 2 * edge_length true u -> 0 < w -> w <= 4 * i.
Proof.
  intros H Hcut Hw Hpos. destruct Hcut as [(-> & _)|(a' & y & Hf & _)]; [cbn in Hw; lia|].
  apply (falls_past _ true) in Hf as [Hle _]; [lia|].
  intros x Hx. assert (x ∈ nodes (T u 2 E)) as Hx' by (cbn; rewrite elem_of_app; auto).
  pose proof (core_node Z.compare false s _ _ D H x Hx') as (i0 & Hi0 & ->)%elem_of_sunk.
  rewrite keyc_sunk by done. cbn [dirc]. apply Z.compare_gt_iff. unfold key.
  assert (i0 <> 0); [|lia]. intros ->. pose proof (core_nodes Z.compare false s _ _ D H) as Hnd. cbn in Hnd.
  apply NoDup_app in Hnd as (_ & Hnd & _). apply (Hnd _ Hx). left.
Qed.
Lemma take_last_dear n s m u D w :
  core Z.compare false s (sunk (S m)) (T u 2 E) D -> length (nodes (T u 2 E)) <= n -> w <= 2 * edge_length true u ->
  0 < w ->
  exists s' i, take_front_c Z.compare s 2 = Ok ((s', 2), Work i 0) /\ w <= 4 * i.
Proof.
  intros H Hroom Hw Hpos. destruct (sunk_first m) as [l Hq].
  assert (2 ∈ nodes (T u 2 E)) as H2 by (cbn; rewrite elem_of_app, elem_of_cons; auto).
  pose proof (sunk_single s (S m) _ D 2 H H2) as HD. pose proof (sunk_val (S m) 0 ltac:(lia)) as Hv.
  destruct (take_single Z.compare total_preorder_Z false n s _ u 2 E D [] l _ H Hq HD Hroom Hv) as (s' & t' & i & Hrun & Hcut).
  exists s', i. split; [done|]. by apply (cut_dear s m u D t').
Qed.

(** A search for the greatest folds the chain. *)
Lemma last_folds n s m D : core Z.compare false s (sunk (S m)) (chain false (down (S m))) D ->
  length (nodes (chain false (down (S m)))) <= n ->
  exists s' u i, splay_key_c Z.compare s (root s) (key 0) = Ok ((s', 2), Work i 0) /\
    core Z.compare false s' (sunk (S m)) (T u 2 E) D /\
    length (nodes (T u 2 E)) <= n /\ sz s' = sz s /\ m <= 2 * edge_length true u.
Proof.
  intros H Hroom.
  assert (queue (sunk (S m)) <> []) as Hne by (destruct (sunk_first m) as [l ->]; done).
  destruct (core_splay_c Z.compare total_preorder_Z false n s _ _ D (key 0) H Hne Hroom)
    as (s' & a & x & b & kv & i & Hrun & Hf & _ & H' & Hnn & Hsz' & _).
  destruct (down_last m) as (l & Hl & Hlen & Hin). rewrite Hl in Hf.
  apply (falls_chain _ false (length l)) in Hf as (u & Hu & Hle); [|done| |].
  - rewrite Hu in H', Hnn. cbn [mk negb] in *. assert (x = 2) as -> by congruence.
    exists s', u, i. split_and!; try done; [by rewrite Hnn|by rewrite Hlen in Hle].
  - intros y Hy. destruct (Hin y Hy) as (j & Hj & ->). rewrite keyc_sunk by lia. apply Z.compare_gt_iff. unfold key. lia.
  - change 2 with (0 + 2). rewrite keyc_sunk by lia. apply Z.compare_refl.
Qed.

Lemma pop_max_dear c : exists (ops : list (mm_op Z nat)) rs A s s1 s2 w x w1 w2,
  calls Z.compare kept start ops rs A /\ run_c om_init ops = Ok ((s, rs), w) /\
  omm_step_c Z.compare false 0 s OMax = Ok ((s1, OPtr x), w1) /\
  omm_step_c Z.compare false 0 s1 OPopMax = Ok ((s2, OResult OK), w2) /\ c < turns w2.
Proof.
  set (m := 4 * c + 2). destruct (sinkings_run (S m) (S m) (le_n _)) as (s & rs & w & Hrun & Hf & Hc).
  pose proof Hf as ((D & H) & Hsz & Hroom).
  assert (queue (sunk (S m)) <> []) as Hne by (destruct (sunk_first m) as [l ->]; done).
  destruct (core_splay_end_c Z.compare total_preorder_Z false (S m) s _ _ D true H Hne Hroom)
    as (s1 & a & x & i & g & l & r & Hrun1 & Hfl & Hg & Emk & _ & H1 & Hn1 & Hsz1).
  apply (falls_past _ true) in Hfl as (Hlong & u & Hu & Hi); [|done].
  rewrite Hu in Emk. apply mk_inj in Emk as (-> & _ & _). cbn [mk] in *.
  change true with (negb false) in Hlong. rewrite chain_edge, down_length in Hlong.
  assert (x = 2) as ->.
  { destruct (sunk_first m) as [q Hq].
    symmetry. apply (gr_extreme Z.compare total_preorder_Z (sunk (S m)) _ D true [] 2 q x (nodes a) (co_groups _ _ _ _ _ _ H1)); [|done].
    split; [done|]. exists (key 0, 0). split; [by apply (sunk_val (S m) 0); lia|]. split; [constructor|].
    apply Forall_forall. intros y Hy.
    assert (y ∈ queue (sunk (S m))) as (j & Hj & ->)%elem_of_sunk by (rewrite Hq; by right).
    assert (j = 0 \/ j <> 0) as [-> |Hj0] by lia; [right|left]; eexists; (split; [by apply sunk_val|]).
    - apply Z.compare_refl.
    - apply Z.compare_gt_iff. cbn [fst]. unfold key. lia. }
  destruct (end_again Z.compare total_preorder_Z false (S m) (set_sz s1 (sz s1 - 1)) _ true a 2 D
    (core_sz Z.compare false _ _ _ _ _ H1)) as (s2 & Hrun2 & H2 & Hsz2); [cbn [mk]; by rewrite Hn1|].
  destruct (take_last_dear (S m) s2 m a D (2 * edge_length true a) H2) as (s3 & i2 & Hrun3 & Hi2); [by rewrite Hn1|lia|lia|].
  exists (sinkings (S m)), rs, (sunk (S m)), s, s1, s3, w, 2. eexists _, _. split; [done|]. split; [done|]. split; [|split].
  - cbn [omm_step_c]. unfold omm_end_c. rewrite Hrun1. cb. reflexivity.
  - cbn [omm_step_c]. unfold omm_pop_max_c, erase_end_c.
    rewrite (mempty_Ok s1 (sunk (S m))) by congruence. rewrite bool_decide_eq_false_2 by done.
    change (root (set_sz s1 (sz s1 - 1))) with (root s1) in Hrun2. cbn zeta. cbn [root set_sz] in Hrun2 |- *.
    rewrite Hrun2. cb. rewrite Hrun3. cb. reflexivity.
  - cbn. lia.
Qed.

Lemma extract_dear c : exists (ops : list (mm_op Z nat)) rs A s s1 w x w1,
  calls Z.compare kept start ops rs A /\ x ∈ queue A /\ run_c om_init ops = Ok ((s, rs), w) /\
  omm_step_c Z.compare false 0 s (OExtract x) = Ok ((s1, OPtr x), w1) /\ c < turns w1.
Proof.
  set (m := 4 * c + 1). destruct (sinkings_run (S m) (S m) (le_n _)) as (s & rs & w & Hrun & Hf & Hc).
  destruct (sunk_first m) as [q Hq]. assert (2 ∈ queue (sunk (S m))) as Hin by (rewrite Hq; left).
  pose proof Hf as ((D & H) & Hsz & Hroom).
  pose proof (sunk_val (S m) 0 ltac:(lia)) as Hv. cbn [Nat.add] in Hv.
  destruct (last_folds (S m) (set_sz s (sz s - 1)) m D (core_sz Z.compare false _ _ _ _ _ H) Hroom)
    as (s2 & u & i & Hrun2 & H2' & Hroom2 & _ & Hlong).
  assert (2 ∈ nodes (T u 2 E)) as H2u by (cbn; rewrite elem_of_app, elem_of_cons; auto).
  destruct (cut_single Z.compare total_preorder_Z false (S m) s2 _ u 2 E D [] q _ H2' Hq (sunk_single s2 _ _ D 2 H2' H2u) Hroom2 Hv)
    as (s3 & t3 & i3 & Hdup & Hrun3 & Hg & t4 & Hcut).
  pose proof (cut_dear s2 m u D t4 i3 m H2' Hcut Hlong ltac:(lia)) as Hi3.
  destruct (gone_unlink_c Z.compare false (S m) s2 s3 _ [] 2 q _ _ Hg Hv) as (h & Hh & _).
  { by apply (not_in_rest Z.compare false s2 (sunk (S m)) (T u 2 E) D). }
  exists (sinkings (S m)), rs, (sunk (S m)), s. eexists _, w, 2, _. split; [done|]. split; [done|]. split; [done|]. split.
  - cbn [omm_step_c]. unfold omm_extract_c, erase_node_c.
    destruct (core_links_ne Z.compare false s _ _ D 2 H Hin) as (l & r & Hl & Hr & Hl0 & Hr0).
    rewrite (rd_Ok _ _ _ Hr), (rd_Ok _ _ _ Hl). cb.
    rewrite (proj2 (Nat.eqb_neq r 0)), (proj2 (Nat.eqb_neq l 0)) by done. cbn [orb].
    rewrite (mempty_Ok s _ Hsz), bool_decide_eq_false_2 by (by rewrite Hq).
    assert (2 ∈ nodes (chain false (down (S m)))) as H2.
    { destruct (gr_cover _ _ _ _ _ (co_groups _ _ _ _ _ _ H) 2 Hin) as (z & Hz & Hz2).
      rewrite (sunk_single s _ _ D z H Hz), elem_of_list_singleton in Hz2. by subst z. }
    destruct (wf_pa_zero (lk s) _ D 2 2 (co_wf _ _ _ _ _ _ H) H2) as (p & Hp & Hp0); [left|].
    cbn [lk set_sz]. rewrite (rd_Ok _ _ _ Hp). cb.
    rewrite (sunk_single s _ _ D 2 H H2) in Hp0. cbn [tail] in Hp0.
    rewrite (proj2 (Nat.eqb_neq p 0)) by (intros Ep%Hp0; by apply elem_of_nil in Ep).
    rewrite (core_value Z.compare false _ _ _ D (core_sz Z.compare false _ _ _ _ _ H) 2 _ Hv). cb. cbn [fst].
    rewrite Hrun2. cb. rewrite (core_cmpk Z.compare false _ _ _ _ H2' (key 0) 2 _ Hv). cb. cbn [fst].
    rewrite Z.compare_refl. cbn [is_eq negb]. rewrite Hdup. cb. rewrite Hrun3. cb. rewrite Hh. cb. reflexivity.
  - cbn. lia.
Qed.

Lemma remove_entry_dear c : exists (ops : list (mm_op Z nat)) rs A s s1 s2 w en k w1 w2,
  calls Z.compare kept start ops rs A /\ run_c om_init ops = Ok ((s, rs), w) /\
  omm_entry_c Z.compare s k = Ok ((s1, en), w1) /\
  omm_remove_entry_c Z.compare false s1 en = Ok ((s2, en), w2) /\ occupied en = true /\ c < turns w2.
Proof.
  set (m := 4 * c + 1). destruct (sinkings_run (S m) (S m) (le_n _)) as (s & rs & w & Hrun & Hf & Hc).
  destruct (sunk_first m) as [q Hq].
  pose proof Hf as ((D & H) & Hsz & Hroom).
  pose proof (sunk_val (S m) 0 ltac:(lia)) as Hv. cbn [Nat.add] in Hv.
  destruct (last_folds (S m) s m D H Hroom) as (s2 & u & i & Hrun2 & H2 & Hroom2 & Hsz2 & Hlong).
  destruct (key_again Z.compare total_preorder_Z false (S m) s2 _ u 2 E D (key 0) _ H2 Hroom2 Hv (Z.compare_refl _))
    as (s3 & Hrun3 & H3 & Hsz3).
  destruct (take_last_dear (S m) (set_sz s3 (sz s3 - 1)) m u D m (core_sz Z.compare false _ _ _ _ _ H3) Hroom2 Hlong)
    as (s4 & i4 & Hrun4 & Hi4); [lia|].
  exists (sinkings (S m)), rs, (sunk (S m)), s, s2, s4, w, (occupied_ent 2), (key 0). eexists _, _.
  split; [done|]. split; [done|]. split; [|split; [|split; [done|]]].
  - unfold omm_entry_c, mfind_c. rewrite (core_root_nil Z.compare false s _ _ D H), bool_decide_eq_false_2 by (by rewrite Hq).
    rewrite Hrun2. cb. rewrite (core_cmpk Z.compare false _ _ _ _ H2 (key 0) 2 _ Hv). cb. cbn [fst].
    rewrite Z.compare_refl. cbn [is_eq negb Nat.eqb]. reflexivity.
  - unfold omm_remove_entry_c. cbn [occupied occupied_ent e_].
    rewrite (core_value Z.compare false _ _ _ D H2 2 _ Hv). cb. cbn [fst]. unfold multimap_erase_c.
    rewrite (mempty_Ok s2 (sunk (S m))) by congruence. rewrite bool_decide_eq_false_2 by (by rewrite Hq).
    rewrite Hrun3. cb. rewrite (core_cmpk Z.compare false _ _ _ _ H3 (key 0) 2 _ Hv). cb. cbn [fst].
    rewrite Z.compare_refl. cbn [is_eq negb]. rewrite Hrun4. cb. cbn [Nat.eqb negb oassert]. cb. reflexivity.
  - cbn. lia.
Qed.

(** Inserting through a Vacant entry. *)
Lemma vacant_insert_dear c : exists (ops : list (mm_op Z nat)) rs A s s1 s2 s3 w en k e kv w1 w2,
  calls Z.compare kept start ops rs A /\ vals A !! e = Some kv /\ fst kv = k /\ e ∉ queue A /\
  run_c om_init ops = Ok ((s, rs), w) /\
  omm_entry_c Z.compare s k = Ok ((s1, en), w1) /\ occupied en = false /\
  omm_or_insert_c Z.compare s1 en e = Ok ((s2, e), w2) /\
  omm_insert_entry_c Z.compare s1 en e = Ok ((s3, e), w2) /\ c < turns w2.
Proof.
  set (m := 4 * c + 1). destruct (sinkings_run (S (S m)) (S m) ltac:(lia)) as (s0 & rs & w & Hrun & Hf0 & Hc).
  set (A := set_val (sunk (S m)) (m + 3) ((-1)%Z, 0)).
  assert (unused (sunk (S m)) (m + 3)) as Hun. { replace (m + 3) with (S m + 2) by lia. by apply sunk_unused. }
  pose proof (fits_new Z.compare total_preorder_Z false (S (S m)) s0 _ _ (m + 3) ((-1)%Z, 0) 0 0 0 false Hun Hf0) as Hf. cbn [fst snd] in Hf.
  set (s := om_new s0 (m + 3) (-1)%Z 0 0 0 0) in *. fold A in Hf.
  assert (m + 3 ∉ queue A) as Hin. { unfold A. cbn [queue set_val]. rewrite elem_of_sunk. intros (i & ? & ?). lia. }
  assert (forall i, i < S m -> vals A !! (i + 2) = Some (key i, 0)) as Hva.
  { intros i Hi. unfold A. cbn [vals set_val]. rewrite lookup_insert_ne by lia. by apply sunk_val. }
  assert (vals A !! 2 = Some (key 0, 0)) as Hva0 by (apply (Hva 0); lia).
  assert (queue A <> []) as Hne by (unfold A; cbn [queue set_val]; destruct (sunk_first m) as [q ->]; done).
  assert (absent Z.compare A (-1)%Z) as Hab.
  { apply Forall_forall. intros x (i & Hi & ->)%elem_of_sunk (kv & Hkv & Hk). rewrite (Hva i Hi) in Hkv. simplify_eq.
    cbn [fst] in Hk. apply Z.compare_eq in Hk. unfold key in Hk. lia. }
  pose proof Hf as ((D & H) & Hsz & Hroom).
  destruct (core_splay_c Z.compare total_preorder_Z false (S (S m)) s A _ D (-1)%Z H Hne Hroom)
    as (s1 & a & x & b & kv & i & Hrun1 & Hfl & _ & H1 & Hnn & Hsz1 & Hx & _).
  destruct (down_last m) as (l & Hl & Hlen & Hinl). rewrite Hl in Hfl.
  apply (falls_between _ false (length l)) in Hfl as (u & Hu & Hle); [|done| | |]; cycle 1.
  { rewrite Hlen. unfold m. rewrite Nat.odd_add, Nat.odd_mul. done. }
  { intros y Hy. destruct (Hinl y Hy) as (j & Hj & ->). unfold keyc. rewrite Hva by lia. apply Z.compare_gt_iff. cbn [fst]. unfold key. lia. }
  { unfold keyc. by rewrite Hva0. }
  cbn [mk negb] in Hu, Hle. rewrite Hlen in Hle. injection Hu as -> -> ->. rewrite <- Hnn in Hroom.
  rewrite Hva0 in Hx. injection Hx as <-.
  assert (fits (S (S m)) s1 A (T u 2 E)) as Hf1. { split; [by exists D|]. split; [congruence|done]. }
  assert (vals A !! (m + 3) = Some ((-1)%Z, 0)) as He by (unfold A; cbn [vals set_val]; by rewrite lookup_insert).
  assert (keys_within Z.compare (S (S m)) (push A (m + 3))) as Hkeys.
  { apply (keys_of_size Z.compare total_preorder_Z). unfold A. cbn [queue push set_queue set_val].
    rewrite app_length, sunk_length. cbn. lia. }
  destruct (insert_c Z.compare total_preorder_Z false (S (S m)) s1 A _ (m + 3) _ Hf1 He Hin ltac:(done) Hkeys)
    as (en & ([s2 en'] & w2 & t2 & Hrun2 & _ & Hen & Hf2) & He2 & _). cbn in Hen. subst en'.
  assert (calls Z.compare kept start (sinkings (S m) ++ [ONew (m + 3) (-1)%Z 0 0 0 0 false]) (rs ++ [OPtr (m + 3)]) A) as Hc'.
  { eapply calls_app; [exact Hc|]. eapply calls_cons; [|apply calls_nil].
    apply (call_new Z.compare kept (sunk (S m)) (m + 3) (-1)%Z 0 0 0 0 false Hun). }
  destruct (run_c_app Z.compare false 0 om_init s0 s (sinkings (S m)) [ONew (m + 3) (-1)%Z 0 0 0 0 false] rs [OPtr (m + 3)] w
    (add_work idle (add_work idle idle)) Hrun ltac:(done)) as [w' Hrun'].
  exists (sinkings (S m) ++ [ONew (m + 3) (-1)%Z 0 0 0 0 false]), (rs ++ [OPtr (m + 3)]), A, s, s1, s2, s2, w', (vacant_ent 0), (-1)%Z,
    (m + 3), ((-1)%Z, 0). eexists _, (add_work w2 idle).
  split; [done|]. split; [done|]. split; [done|]. split; [done|]. split; [done|]. split; [|split; [done|split; [|split]]].
  - unfold omm_entry_c, mfind_c. rewrite (core_root_nil Z.compare false s _ _ D H), bool_decide_eq_false_2 by done.
    rewrite Hrun1. cb. rewrite (core_cmpk Z.compare false _ _ _ _ H1 (-1)%Z 2 _ Hva0). cb. cbn [fst].
    change (is_eq (-1 ?= key 0)%Z) with false. cbn [Nat.eqb negb]. reflexivity.
  - unfold omm_or_insert_c. cbn [occupied vacant_ent]. rewrite Hrun2. cb. by rewrite He2.
  - unfold omm_insert_entry_c. rewrite Hrun2. cb. by rewrite He2.
  - rewrite OmWalkCost.add_idle.
    (* the second splay *)
    pose proof (core_put Z.compare false s1 A _ D H1 (m + 3) nil nil nil Hin) as H3.
    destruct (co_live _ _ _ _ _ _ H1 (m + 3) _ He) as (Hlv & _ & Hnn1). specialize (H3 Hnn1).
    set (s3 := set_lk s1 _) in H3.
    pose proof (core_sz Z.compare false _ _ _ _ (sz s3 + 1)%Z H3) as H3'.
    destruct (core_splay_c Z.compare total_preorder_Z false (S (S m)) _ A _ D (-1)%Z H3' Hne Hroom)
      as (s4 & a & x & b & kv & i4 & Hrun4 & Hfl & _ & H4 & _ & _ & Hx4 & _).
    unfold multimap_insert_c in Hrun2. rewrite OmProofs.set_links_put in Hrun2 by done. cbn [mbind outcome_bind obind] in Hrun2.
    fold s3 in Hrun2. rewrite (mempty_Ok s3 A (eq_trans Hsz1 Hsz)), bool_decide_eq_false_2 in Hrun2 by done.
    rewrite (core_value Z.compare false _ _ _ D H3' (m + 3) _ He) in Hrun2. cbn [mbind outcome_bind obind fst] in Hrun2.
    rewrite Hrun4 in Hrun2. cbn [cbind mbind outcome_bind obind] in Hrun2.
    assert (turns w2 = i4) as ->.
    { rewrite (core_cmpk Z.compare false _ _ _ _ H4 (-1)%Z x _ Hx4) in Hrun2. cbn [mbind outcome_bind obind] in Hrun2.
      destruct (is_eq _); [destruct (add_duplicate _ _ _ _)|destruct (graft_by _ _ _ _ _ _)]; try done; cbn in Hrun2;
        injection Hrun2 as _ _ <-; cbn; lia. }
    assert (forall y, y ∈ nodes u -> keyc Z.compare (vals A) (-1)%Z y = dirc true) as Hall.
    { intros y Hy. assert (y ∈ nodes (T u 2 E)) as Hy' by (cbn; rewrite elem_of_app; auto).
      pose proof (core_node Z.compare false s1 _ _ D H1 y Hy') as (i0 & Hi0 & ->)%elem_of_sunk.
      unfold keyc. rewrite Hva by done. cbn [dirc fst]. apply Z.compare_gt_iff. unfold key.
      assert (i0 <> 0); [|lia]. intros ->. pose proof (core_nodes Z.compare false s1 _ _ D H1) as Hnd. cbn in Hnd.
      apply NoDup_app in Hnd as (_ & Hnd & _). apply (Hnd _ Hy). left. }
    apply (falls_inv _ false E 2 u) in Hfl; [|unfold keyc; by rewrite Hva0].
    destruct Hfl as [(-> & _)|[(i' & l' & r' & _ & _ & Hfl & -> & _)|[(b' & y & -> & Hy & _)|(b' & y & c' & i' & l' & r' & -> & Hy & _)]]].
    + cbn in Hle. lia.
    + apply (falls_past _ true) in Hfl as [Hlong _]; [lia|done].
    + rewrite Hall in Hy; [done|]. cbn. left.
    + rewrite Hall in Hy; [done|]. cbn. rewrite elem_of_app, elem_of_cons. auto.
Qed.
