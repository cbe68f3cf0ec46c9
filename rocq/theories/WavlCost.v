(** What searching and walking the realtime ordered maps costs. *)
From stdpp Require Import base numbers option gmap fin_maps list.
From Coq Require Import Arith.
From Verif Require Import Common LinkHeap PathLemmas OrderSpec MapOps MapSpec TreeModel CostModel CostErase TreeProofs
  WalkCost WavlModel WavlProofs WavlRank WavlRemove MapProofs MapCases WavlCostModel WavlCostErase OmCostErase OmWalkCost.

Local Ltac bind := cbn [mbind outcome_bind obind cbind still gratis hopping].

(** ** Lengths and heights *)

Lemma height_mk d a x b : height (mk d a x b) = S (Nat.max (height a) (height b)).
Proof. destruct d; cbn; lia. Qed.

Lemma edge_length_height d t : edge_length d t <= height t.
Proof.
  pattern t; apply (mk_ind _ d); clear t; [done|]. intros a x b _ IH. rewrite edge_length_mk, height_mk. lia.
Qed.

Lemma next_costs_height d c t i : 1 <= c -> i ∈ next_costs d c t -> i < c + height t.
Proof.
  revert c i. pattern t; apply (mk_ind _ d); clear t; [by intros c i _ ?%elem_of_nil|]. intros a x b IHa IHb c i Hc.
  rewrite next_costs_mk, height_mk, elem_of_app, elem_of_cons. intros [Hi|[-> |Hi]].
  - apply IHa in Hi; lia.
  - pose proof (edge_length_height (negb d) b) as He. destruct b; lia.
  - apply IHb in Hi; lia.
Qed.

Lemma tree_cases d t : t = E \/ exists a x b, t = mk d a x b.
Proof. pattern t; apply (mk_ind _ d); [by left|]. intros a x b _ _. right. by exists a, x, b. Qed.

(** Following links one way takes at least half the rank. *)
Lemma ok_edge P d t n : ok P t n -> (n + 1 <= 2 * Z.of_nat (edge_length d t))%Z.
Proof.
  revert n. pattern t; apply (mk_ind _ d); clear t; [cbn; lia|]. intros a x b _ IH n Hok.
  apply ok_mk in Hok as (_ & _ & i & j & _ & Hb & _ & Hg). apply IH in Hb. rewrite edge_length_mk.
  destruct Hg; lia.
Qed.

(** A tree of rank n has less than 2 ^ (n + 1) nodes. *)
Lemma ok_small P t n : ok P t n -> (Z.of_nat (length (nodes t)) + 1 <= 2 ^ (n + 1))%Z.
Proof.
  revert n. induction t as [|l IHl x r IHr]; intros n Hok; [by cbn in Hok; subst n|].
  pose proof (ok_ge0 P _ n Hok ltac:(done)) as Hn0.
  destruct Hok as (_ & _ & a & b & Ha & Hb & Hga & Hgb).
  pose proof (ok_ge P l a Ha). pose proof (ok_ge P r b Hb).
  apply IHl in Ha. apply IHr in Hb. cbn [nodes]. rewrite app_length. cbn [length].
  assert (2 ^ (a + 1) <= 2 ^ n)%Z by (apply Z.pow_le_mono_r; [lia|destruct Hga; lia]).
  assert (2 ^ (b + 1) <= 2 ^ n)%Z by (apply Z.pow_le_mono_r; [lia|destruct Hgb; lia]).
  rewrite Z.pow_add_r by lia. change (2 ^ 1)%Z with 2%Z. lia.
Qed.

(** The step from the root into its side follows many links in a large map. *)
Lemma root_next P d a x b n :
  ok P (mk d a x b) n -> length (nodes (mk d a x b)) < 2 ^ (2 * edge_length (negb d) b + 2).
Proof.
  intros Hok. pose proof (ok_small _ _ _ Hok) as Hs. pose proof (ok_ge _ _ _ Hok) as Hn.
  apply ok_mk in Hok as (_ & _ & i & j & _ & Hj & _ & Hg). apply (ok_edge P (negb d)) in Hj.
  set (e := edge_length (negb d) b) in *.
  assert (2 ^ (n + 1) <= 2 ^ Z.of_nat (2 * e + 2))%Z as Hp by (apply Z.pow_le_mono_r; [lia|destruct Hg; lia]).
  apply Nat2Z.inj_lt. rewrite Nat2Z.inj_pow. change (Z.of_nat 2) with 2%Z. lia.
Qed.

(** ** Searching *)

Section search.
Context (nil : nat) {K V : Type} (cmp : K -> K -> comparison).

Lemma find_loop_cost fuel (dat : gmap nat (K * V)) h k t q p last c x w :
  rep nil h q t -> find_loop_c nil cmp fuel dat h k p (ptr nil t) last = Ok ((c, x), w) ->
  turns w <= height t /\ hops w = 0 /\ (x ∈ nodes t \/ x = p).
Proof.
  revert t q p last w. induction fuel as [|f IH]; intros t q p last w Hr; [done|]. cbn [find_loop_c].
  rewrite (ptr_eqb _ _ _ _ Hr). destruct t as [|a y b]; cbn [isE].
  - intros [= <- <- <-]. cbn. split_and!; [lia|done|by right].
  - cbn [ptr]. destruct Hr as (Ha & Hb & _ & _ & Hra & Hrb). destruct (cmpk cmp dat k y) as [o| |]; bind; [|done..].
    destruct (is_eq o).
    { intros [= <- <- <-]. cbn. split_and!; [lia|done|]. left. rewrite elem_of_app. right. left. }
    destruct (is_gt o); cbn [br]; [rewrite (rd_Ok _ _ _ Hb)|rewrite (rd_Ok _ _ _ Ha)]; bind;
      destruct (find_loop_c _ _ _ _ _ _ _ _ _) as [[[c' x'] w']| |] eqn:Ef; bind; try done; intros [= -> -> <-];
      eapply IH in Ef as (Ht & Hh & Hx); try done; cbn [add_work turns hops height nodes];
      (split_and!; [lia|lia|]); left; rewrite elem_of_app, elem_of_cons; naive_solver.
Qed.
End search.

(** ** A step *)

Section step.
Context (nil : nat).

Lemma step_cost h d t n :
  rep nil h nil t -> NoDup (nodes t) -> n ∈ nodes t ->
  exists m i, tree_next_c nil h (ptr nil t) d n = Ok (m, i) /\ i <= height t.
Proof.
  intros Hr Hnd Hn. apply (elem_of_ord d), elem_of_list_split in Hn as (l1 & l2 & Ho).
  destruct (tree_next_cost nil h d t n l1 l2 Hr Hnd Ho) as (i & Hi & Hnx). eexists _, i. split; [done|].
  apply elem_of_list_lookup_2, next_costs_height in Hi; lia.
Qed.

(** The step from the root. *)
Lemma step_root h d a x b :
  rep nil h nil (mk d a x b) -> NoDup (nodes (mk d a x b)) -> b <> E ->
  exists m, tree_next_c nil h x d x = Ok (m, edge_length (negb d) b).
Proof.
  intros Hr Hnd Hb. pose proof (tree_next_cost nil h d (mk d a x b) x (ord d (nodes a)) (ord d (nodes b)) Hr Hnd) as H.
  rewrite nodes_mk, ptr_mk in H. destruct H as (i & Hi & Hnx); [done|].
  rewrite next_costs_mk, lookup_app_r in Hi by (rewrite next_costs_length, ord_length; lia).
  rewrite next_costs_length, ord_length, Nat.sub_diag in Hi. cbn in Hi.
  assert (i = edge_length (negb d) b) as -> by (destruct b; [done|by injection Hi as <-]).
  by eexists.
Qed.
End step.

(** ** Taking a counted computation apart *)

Lemma cbind_Ok {A B} (m : counted A) (f : A -> counted B) r w :
  cbind f m = Ok (r, w) -> exists a w1 w2, m = Ok (a, w1) /\ f a = Ok (r, w2) /\ w = add_work w1 w2.
Proof.
  destruct m as [[a w1]| |]; [|done..]. cbn. destruct (f a) as [[b w2]| |] eqn:E; [|done..]. cbn.
  intros [= -> <-]. by exists a, w1, w2.
Qed.

(** Squares of squares. *)
Lemma pow_twice h i n : 2 ^ h <= n -> i <= h + h -> 2 ^ i <= n * n.
Proof.
  intros Hh Hi. transitivity (2 ^ (h + h)); [by apply Nat.pow_le_mono_r|]. rewrite Nat.pow_add_r. by apply Nat.mul_le_mono.
Qed.
Lemma pow_once h i n : 2 ^ h <= n -> i <= h -> 2 ^ i <= n.
Proof. intros Hh Hi. transitivity (2 ^ h); [by apply Nat.pow_le_mono_r|done]. Qed.
