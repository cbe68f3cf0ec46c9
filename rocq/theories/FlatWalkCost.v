(** What walking an array backed ordered map costs. *)
From stdpp Require Import base numbers option gmap fin_maps list.
From Coq Require Import Arith.
From Verif Require Import Common LinkHeap PathLemmas OrderSpec MapOps MapSpec TreeModel CostModel CostErase TreeProofs
  WalkCost WavlModel WavlProofs WavlRank WavlRemove MapProofs MapCases OmProofs OmCostErase OmWalkCost
  FlatOps FlatSpec FlatModel FlatProofs FlatCalls WavlCostModel WavlCostErase WavlCost.

Local Ltac bind := cbn [mbind outcome_bind obind cbind still gratis hopping].

Section walk.
Context {K V : Type} (cmp : K -> K -> comparison) (Hcmp : total_preorder cmp).
Context (good : wavl -> tree -> Prop) (seal : flat K V -> outcome (flat K V)) (HT : tree_facts good seal).
Implicit Types (s : flat K V) (A : fview K V).
Local Notation reprT := (FlatProofs.reprT cmp good).
Local Notation repr := (FlatProofs.repr cmp good).

Lemma flat_begin_cost s A t d :
  reprT s A t -> flat_begin_c s d = Ok (hd 0 (ord d (elems (fv A))), Work 0 (edge_length (negb d) t)).
Proof.
  intros Hr. pose proof (reprT_nodes cmp good s A t Hr) as Hn. unfold flat_begin_c.
  destruct Hr as [_ [(_ & _ & -> & -> & -> & _)|Hrdy]]; [by destruct d|].
  rewrite (proj2 (Nat.eqb_neq (sz s) 0)) by (destruct Hrdy as (_ & ? & _); lia).
  destruct (ready_rep cmp good seal HT s A t Hrdy) as (Hroot & Hr & Hnd & _). rewrite Hroot.
  assert (t = E \/ t <> E) as [-> |Hne] by (destruct t; auto).
  - rewrite <- Hn. by destruct d.
  - rewrite (ptr_eqb 0 _ _ _ Hr). destruct (isE_spec t) as [|_]; [done|].
    destruct (edge_cost 0 _ (negb d) t 0 Hr Hnd Hne) as (l & x & Ho & ->). bind.
    rewrite Hn, ord_negb in Ho. apply (f_equal (@rev nat)) in Ho. rewrite rev_involutive, rev_app_distr in Ho.
    by rewrite Ho.
Qed.

Lemma flat_next_cost s A t d y l1 l2 :
  reprT s A t -> ord d (elems (fv A)) = l1 ++ y :: l2 ->
  exists i, next_costs d 1 t !! length l1 = Some i /\ flat_next_c s d y = Ok (hd 0 l2, Work 0 i).
Proof.
  intros Hr Ho. pose proof (reprT_nodes cmp good s A t Hr) as Hn. pose proof (reprT_facts cmp good s A t Hr) as Hf.
  assert (y ∈ elems (fv A)) as Hy. { apply (elem_of_ord d). rewrite Ho, elem_of_app. right. left. }
  pose proof (reprT_born cmp good s A t y Hr Hy) as Hrdy.
  destruct (ready_rep cmp good seal HT s A t Hrdy) as (Hroot & Hrep & Hnd & _).
  rewrite <- Hn in Ho. destruct (tree_next_cost 0 _ d t y l1 l2 Hrep Hnd Ho) as (i & Hi & Hnx).
  exists i. split; [done|]. apply (facts_range cmp A y Hf) in Hy. unfold flat_next_c, fnext_c.
  rewrite (proj2 (Nat.eqb_neq (sz s) 0)) by (destruct Hrdy as (_ & ? & _); lia).
  rewrite (proj2 (Nat.eqb_neq y 0)) by lia. rewrite Hroot, Hnx. bind. by destruct l2.
Qed.

Lemma flat_walk_cost s A t d ps l1 fuel :
  reprT s A t -> ord d (elems (fv A)) = l1 ++ map fst ps -> Forall (fun p => vals (fv A) !! fst p = Some (snd p)) ps ->
  length ps < fuel ->
  flat_walk_c fuel s d (hd 0 (map fst ps)) = Ok (ps, Work 0 (sum_list (drop (length l1) (next_costs d 1 t)))).
Proof.
  intros Hr. pose proof (reprT_facts cmp good s A t Hr) as Hf.
  assert (length (next_costs d 1 t) = length (elems (fv A))) as Hcosts.
  { by rewrite next_costs_length, (reprT_nodes cmp good s A t Hr). }
  revert ps l1. induction fuel as [|f IH]; intros ps l1 Ho HF Hlen; [lia|].
  destruct ps as [|[x kv] ps]; cbn [map fst hd flat_walk_c].
  { bind. rewrite drop_ge; [done|]. apply (f_equal length) in Ho. rewrite ord_length, app_length in Ho. cbn in Ho. lia. }
  apply Forall_cons in HF as [Hx HF]. cbn [fst snd] in Hx.
  assert (x ∈ elems (fv A)) as Hin. { apply (elem_of_ord d). rewrite Ho, elem_of_app. right. left. }
  apply (facts_range cmp A x Hf) in Hin. rewrite (proj2 (Nat.eqb_neq x 0)) by lia.
  rewrite (reprT_value cmp good s A t x kv) by done. bind. cbn [map fst] in Ho.
  destruct (flat_next_cost s A t d x l1 (map fst ps) Hr Ho) as (i & Hi & ->). bind.
  rewrite (IH ps (l1 ++ [x])); [|by rewrite <- app_assoc|done|cbn in Hlen; lia]. bind.
  rewrite add_idle. unfold add_work. cbn [turns hops]. rewrite app_length. cbn [length].
  rewrite (drop_S _ i (length l1)) by done. cbn [sum_list_with]. unfold id.
  by rewrite (Nat.add_1_r (length l1)).
Qed.

Lemma flat_iter_cost s A d :
  repr s A ->
  exists ps w, flat_iter_c s d = Ok (ps, w) /\ map fst ps = ord d (elems (fv A)) /\ turns w = 0 /\ hops w <= 2 * length ps.
Proof.
  intros [t Hr]. pose proof (reprT_facts cmp good s A t Hr) as Hf.
  destruct (with_data (vals (fv A)) (ord d (elems (fv A)))) as (ps & Hps & HF).
  { intros x Hx. apply elem_of_ord in Hx. by apply (facts_dat cmp). }
  assert (length ps = length (elems (fv A))) as Hlen.
  { apply (f_equal length) in Hps. by rewrite map_length, ord_length in Hps. }
  pose proof (reprT_count cmp good s A t Hr) as Hroom. unfold count in Hroom.
  eexists ps, _. split.
  - unfold flat_iter_c. rewrite (flat_begin_cost s A t d Hr). bind. rewrite <- Hps.
    rewrite (flat_walk_cost s A t d ps []); [|done..|lia]. bind. cbn [length drop]. reflexivity.
  - split; [done|]. cbn [turns hops add_work]. split; [lia|].
    assert (length (nodes t) = length ps) as Hn. { by rewrite (reprT_nodes cmp good s A t Hr). }
    destruct t as [|l x r]; [cbn; lia|].
    pose proof (next_costs_sum d 1 (T l x r) ltac:(done)). rewrite drop_0. lia.
Qed.

Lemma fnext_height s A t d x n w :
  reprT s A t -> x ∈ nodes t \/ x = 0 -> fnext_c s d x = Ok (n, w) -> turns w = 0 /\ hops w <= height t.
Proof.
  intros Ht Hx. unfold fnext_c. destruct (Nat.eqb_spec x 0) as [|Hx0]; [intros [= <- <-]; cbn; lia|].
  destruct Hx as [Hx|]; [|done]. pose proof Hx as Hx'. rewrite (reprT_nodes cmp good s A t Ht) in Hx'.
  destruct (ready_rep cmp good seal HT s A t (reprT_born cmp good s A t x Ht Hx')) as (Hroot & Hrep & Hnd & _).
  rewrite Hroot. destruct (step_cost 0 _ d t x Hrep Hnd Hx) as (m & i & -> & Hi). bind. intros [= <- <-]. by cbn.
Qed.
End walk.
