(** What calls on the ordered map cost: sequences of calls, the walks from node
    to node, and a search repeated. *)
From stdpp Require Import base numbers option gmap fin_maps list.
From Coq Require Import Arith.
From Verif Require Import Common LinkHeap OrderSpec MapOps MapSpec TreeModel CostModel CostErase TreeProofs SplayCost
  CostSpec CostBounds MapProofs MapCases OmModel OmCostModel OmCostErase OmProofs OmCalls.

Local Ltac bind := cbn [mbind outcome_bind obind cbind still gratis hopping].

(** ** Sequences of calls *)

Section cost.
Context {K V : Type} (cmp : K -> K -> comparison) (Hcmp : total_preorder cmp).
Notation kept alloc := (Contract alloc true false).
Implicit Types (ops : list (map_op K V)) (A : view K V) (s : om K V).

Lemma spent_turns n j t w t' : spent n j t w t' -> pot t = 1 -> turns w <= j * (2 + 3 * Nat.log2_up (n + 1)).
Proof.
  intros Hw Ht. apply doublings. unfold spent in Hw. rewrite Ht, Nat.mul_1_r in Hw.
  etrans; [|exact Hw]. pose proof (pot_pos t'). nia.
Qed.

Lemma history_cost (alloc : bool) n ops rs A :
  calls_within cmp (kept alloc) n start ops rs A ->
  exists s rs' w, om_run_c cmp alloc om_init ops = Ok ((s, rs'), w) /\ Forall2 agree rs rs' /\
    turns w <= length ops * (10 + 15 * Nat.log2_up (n + 1)).
Proof.
  intros Hc.
  destruct (run_c_Ok cmp Hcmp (kept alloc) eq_refl n om_init start E ops rs A eq_refl) as (s & rs' & w & t' & j & Hs & Hag & _ & Hw & Hj).
  { apply reprT_init. } { done. }
  exists s, rs', w. split; [done|]. split; [done|]. apply spent_turns in Hw; [|done]. cbn in Hj.
  etrans; [exact Hw|]. assert (j <= 5 * length ops) as Hj' by lia.
  etrans; [apply Nat.mul_le_mono_r, Hj'|]. lia.
Qed.
End cost.

(** ** Calls that do not walk *)

Definition silent {A} (m : counted A) : Prop := forall a w, m = Ok (a, w) -> hops w = 0.

Lemma silent_still {A} (a : A) : silent (still a).
Proof. by intros ? ? [= <- <-]. Qed.
Lemma silent_gratis {A} (m : outcome A) : silent (gratis m).
Proof. intros a w. unfold gratis. destruct m; bind; [|done..]. by intros [= <- <-]. Qed.
Lemma silent_cbind {A B} (m : counted A) (f : A -> counted B) :
  silent m -> (forall a, silent (f a)) -> silent (cbind f m).
Proof.
  intros Hm Hf b w. unfold cbind. destruct m as [[a w1]| |] eqn:Em; cbn [mbind outcome_bind obind]; [|done..].
  destruct (f a) as [[b' w2]| |] eqn:Ef; cbn [mbind outcome_bind obind]; [|done..].
  intros [= <- <-]. cbn. rewrite (Hm a w1 eq_refl), (Hf a b' w2 Ef). done.
Qed.
Lemma silent_bind {A B} (m : outcome A) (f : A -> counted B) : (forall a, silent (f a)) -> silent (m ≫= f).
Proof. intros Hf b w. destruct m as [a| |]; bind; [|done..]. apply Hf. Qed.
Lemma silent_UB {A} : silent (UB : counted A). Proof. done. Qed.
Lemma silent_Fuel {A} : silent (Fuel : counted A). Proof. done. Qed.

Create HintDb silent discriminated.
Local Ltac silence := unfold is_Some;
  repeat first [ solve [eauto 2 with silent] | apply silent_still | apply silent_gratis | apply silent_UB | apply silent_Fuel
    | apply silent_cbind; [|intros ?] | apply silent_bind; intros ?
    | match goal with |- silent (if ?b then _ else _) => destruct b end
    | match goal with |- silent (match ?b with _ => _ end) => destruct b end ].

Section silence.
Context {K V : Type} (cmp : K -> K -> comparison) (alloc : bool).
Implicit Types (s : om K V).

Lemma splay_silent s r k : silent (splay_s_c cmp s r k).
Proof.
  unfold splay_s_c. apply silent_bind. intros [[h r'] n]. by intros a w [= <- <-].
Qed.
Local Hint Resolve splay_silent : silent.
Lemma find_silent s k : silent (find_c cmp s k).
Proof. unfold find_c. silence. Qed.
Local Hint Resolve find_silent : silent.
Lemma alloc_insert_silent s e ans : silent (alloc_insert_c cmp alloc s e ans).
Proof. unfold alloc_insert_c. silence. Qed.
Local Hint Resolve alloc_insert_silent : silent.
Lemma insert_silent s x : silent (insert_c cmp s x).
Proof. unfold insert_c. silence. Qed.
Local Hint Resolve insert_silent : silent.
Lemma remove_silent s x : silent (remove_from_tree_c cmp s x).
Proof. unfold remove_from_tree_c. silence. Qed.
Local Hint Resolve remove_silent : silent.
Lemma erase_silent s k : silent (erase_c cmp s k).
Proof. unfold erase_c. silence. Qed.
Local Hint Resolve erase_silent : silent.
Lemma new_and_insert_silent s kv ans : silent (new_and_insert_c cmp alloc s kv ans).
Proof. unfold new_and_insert_c. silence. Qed.
Local Hint Resolve new_and_insert_silent : silent.
Lemma clear_loop_silent fuel s fn : silent (clear_loop_c cmp alloc fuel s fn).
Proof. revert s. induction fuel as [|f IH]; intros s; cbn [clear_loop_c]; silence. Qed.
Local Hint Resolve clear_loop_silent : silent.

Lemma step_silent s o : walks o = false -> silent (om_step_c cmp alloc s o).
Proof.
  intros Ho. destruct o; try discriminate Ho; cbn [om_step_c];
  unfold om_contains_c, om_get_c, om_insert_c, om_try_insert_c, om_insert_or_assign_c, om_remove_c, om_entry_c,
    om_or_insert_c, om_insert_entry_c, om_remove_entry_c, om_or_insert_w_c, om_insert_entry_w_c, om_try_insert_w_c,
    om_insert_or_assign_w_c, insert_and_copy_key_c, om_clear_c, om_entry_c; silence.
Qed.

Lemma run_silent s os : Forall (fun o => walks o = false) os -> silent (om_run_c cmp alloc s os).
Proof.
  intros Hos. revert s. induction Hos as [|o os Ho Hos IH]; intros s; cbn [om_run_c]; [silence|].
  apply silent_cbind; [by apply step_silent|]. intros []. apply silent_cbind; [done|]. intros []. silence.
Qed.
End silence.

(** ** A search repeated *)

Section again.
Context {K V : Type} (cmp : K -> K -> comparison) (Hcmp : total_preorder cmp).
Implicit Types (s : om K V) (A : view K V).

Lemma falls_again g a x b i l z r : falls nil g (T a x b) i l z r -> g x = Eq -> i = 1 /\ l = a /\ z = x /\ r = b.
Proof.
  intros Hf Hx. remember (T a x b) as t eqn:Ht. destruct Hf; unfold mk in Ht;
    try (by injection Ht as -> -> ->);
    destruct d; injection Ht as <- <- <-; cbn in *; congruence.
Qed.

Lemma get_again c s A k l1 x l2 :
  repr cmp c s A -> present cmp A k l1 x l2 ->
  exists s1 s2 w1, om_get_c cmp s k = Ok ((s1, x), w1) /\ om_get_c cmp s1 k = Ok ((s2, x), Work 1 0).
Proof.
  intros [t Hr] Hp.
  destruct (find_present cmp Hcmp c _ s A t k l1 x l2 Hr (le_n _) Hp) as (s1 & a & b & w1 & H1 & _ & Hr1 & _ & _ & Hroot).
  pose proof (present_nonempty _ _ _ _ _ _ Hp) as Hne. pose proof Hp as (_ & kv & Hkv & Hc).
  destruct (splay_root_falls cmp Hcmp c s1 A (T a x b) k Hr1 Hne) as (s2 & a' & x' & b' & kv' & i & Hs2 & Hf & Hr2 & _).
  apply falls_again in Hf as (-> & -> & -> & ->); [|unfold keyc; by rewrite Hkv].
  exists s1, s2, w1. split; [exact H1|]. unfold om_get_c, find_c.
  assert (repr cmp c s1 A) as Hr1' by (by eexists).
  rewrite (root_nil cmp c s1 A) by done. rewrite bool_decide_eq_false_2 by done. rewrite Hs2. bind.
  rewrite (repr_vals cmp c s2 A) by (by eexists). rewrite (cmpk_Ok cmp _ k _ kv) by done. bind. rewrite Hc. done.
Qed.

Lemma history_again (alloc : bool) ops rs A k l1 x l2 :
  calls cmp (Contract alloc true false) start ops rs A -> present cmp A k l1 x l2 ->
  exists s rs' s1 s2 w1, om_run cmp alloc om_init ops = Ok (s, rs') /\
    om_get_c cmp s k = Ok ((s1, x), w1) /\ om_get_c cmp s1 k = Ok ((s2, x), Work 1 0).
Proof.
  intros Hc Hp. destruct (history_repr cmp Hcmp alloc ops rs A Hc) as (s & rs' & Hrun & _ & Hr).
  destruct (get_again _ s A k l1 x l2 Hr Hp) as (s1 & s2 & w1 & ? & ?). by exists s, rs', s1, s2, w1.
Qed.
End again.
