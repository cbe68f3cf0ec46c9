(** Sequences of calls on the ordered multimap: how many keys it can hold, and
    which calls run no loop but that of splay. *)
From Coq Require Import Sorted.
From stdpp Require Import base numbers option gmap fin_maps list.
From Verif Require Import Common LinkHeap OrderSpec TreeModel SplayModel MapOps OmModel OmmOps OmmModel OmmSpec CostModel
  SplayCostModel TreeProofs OmCost OmmCostModel OmmCostSpec.

Section bounds.
Context {K V : Type} (cmp : K -> K -> comparison) (Hcmp : total_preorder cmp) (c : contract).
Implicit Types (A : view K V).

Lemma keys_of_size A n : length (queue A) <= n -> keys_within cmp n A.
Proof.
  intros Hn l Hl Hs. etransitivity; [|exact Hn]. apply submseteq_length, NoDup_submseteq; [|done].
  clear Hl. induction Hs as [|x l Hs IH Hall]; constructor; [|done].
  intros Hin. rewrite Forall_forall in Hall. destruct (Hall x Hin) as (a & b & Ha & Hb & Hne). simplify_eq.
  apply Hne. by apply (cmp_refl cmp Hcmp).
Qed.

Lemma arrives_le b A e ans kv p A' : arrives c b A e ans kv p A' -> length (queue A') <= S (length (queue A)).
Proof. intros []; cbn; rewrite ?app_length; cbn; lia. Qed.
Lemma made_le A ans kv p A' : made c A ans kv p A' -> length (queue A') <= S (length (queue A)).
Proof. intros []; cbn; rewrite ?app_length; cbn; lia. Qed.
Lemma leaves_le A l1 x l2 : queue A = l1 ++ x :: l2 -> length (queue (leaves c A l1 x l2)) <= S (length (queue A)).
Proof. intros Hq. unfold leaves. destruct (allocates c); cbn; rewrite Hq, !app_length; cbn; lia. Qed.
Lemma call_length A o r A' : call cmp c A o r A' -> length (queue A') <= S (length (queue A)).
Proof.
  destruct 1; cbn [queue set_val]; try lia; (by eapply arrives_le) || (by eapply made_le) || idtac.
  all: repeat match goal with H : present _ _ _ _ _ _ |- _ => destruct H as [? _]
    | H : extreme _ _ _ _ _ _ |- _ => destruct H as [? _] end.
  all: try (by apply leaves_le).
  - destruct b; cbn; lia.
  - cbn. rewrite H, !app_length. cbn. lia.
  - cbn. rewrite H, !app_length. cbn. lia.
  - destruct (allocates c); cbn; lia.
Qed.

Lemma calls_are_within A os rs A' :
  calls cmp c A os rs A' -> calls_within cmp c (length (queue A) + length os) A os rs A'.
Proof.
  assert (forall n, calls cmp c A os rs A' -> length (queue A) + length os <= n -> calls_within cmp c n A os rs A') as H; [|auto].
  intros n Hc. induction Hc as [A|A o r A1 os rs A2 Hc Hcs IH]; cbn [length]; intros Hn.
  - constructor. apply keys_of_size. lia.
  - pose proof (call_length _ _ _ _ Hc). econstructor; [apply keys_of_size; lia|done|]. apply IH. lia.
Qed.
End bounds.

(** ** Calls that do not walk *)

Local Ltac silence :=
  repeat first [ solve [eauto 2 with silent] | apply silent_still | apply silent_gratis | apply silent_UB | apply silent_Fuel
    | apply silent_cbind; [|intros ?] | apply silent_bind; intros ?
    | match goal with |- silent (if ?b then _ else _) => destruct b end
    | match goal with |- silent (match ?b with _ => _ end) => destruct b end ].

Section silence.
Context {K V : Type} (cmp : K -> K -> comparison) (alloc : bool) (off : nat).
Implicit Types (s : om K V).

Lemma msplay_silent s r p : silent (msplay_c s r p).
Proof. unfold msplay_c. apply silent_bind. intros [[h r'] n]. by intros a w [= <- <-]. Qed.
Local Hint Resolve msplay_silent : silent.
Lemma splay_key_silent s r k : silent (splay_key_c cmp s r k).
Proof. unfold splay_key_c. silence. Qed.
Local Hint Resolve splay_key_silent : silent.
Lemma mfind_silent s k : silent (mfind_c cmp s k).
Proof. unfold mfind_c. silence. Qed.
Local Hint Resolve mfind_silent : silent.
Lemma multimap_insert_silent s e : silent (multimap_insert_c cmp s e).
Proof. unfold multimap_insert_c. silence. Qed.
Local Hint Resolve multimap_insert_silent : silent.
Lemma mremove_silent s x : silent (mremove_from_tree_c cmp s x).
Proof. unfold mremove_from_tree_c. apply silent_bind. intros [[h r] n]. by intros a w [= <- <-]. Qed.
Local Hint Resolve mremove_silent : silent.
Lemma take_front_silent s x : silent (take_front_c cmp s x).
Proof. unfold take_front_c. silence. Qed.
Local Hint Resolve take_front_silent : silent.
Lemma multimap_erase_silent s k : silent (multimap_erase_c cmp s k).
Proof. unfold multimap_erase_c. silence. Qed.
Lemma erase_end_silent s d : silent (erase_end_c cmp s d).
Proof. unfold erase_end_c. silence. Qed.
Lemma erase_node_silent s e : silent (erase_node_c cmp s e).
Proof. unfold erase_node_c. silence. Qed.
Local Hint Resolve multimap_erase_silent erase_end_silent erase_node_silent : silent.
Lemma mnew_and_insert_silent s kv ans : silent (mnew_and_insert_c cmp alloc s kv ans).
Proof. unfold mnew_and_insert_c. silence. Qed.
Local Hint Resolve mnew_and_insert_silent : silent.
Lemma mclear_loop_silent fuel s fn : silent (mclear_loop_c cmp alloc fuel s fn).
Proof. revert s. induction fuel as [|f IH]; intros s; cbn [mclear_loop_c]; silence. Qed.
Local Hint Resolve mclear_loop_silent : silent.

Lemma step_silent s o : walks o = false -> silent (omm_step_c cmp alloc off s o).
Proof.
  intros Ho. destruct o; try discriminate Ho; cbn [omm_step_c];
  unfold omm_contains_c, omm_insert_c, omm_try_insert_c, omm_insert_or_assign_c, omm_remove_c, omm_entry_c,
    omm_or_insert_c, omm_insert_entry_c, omm_remove_entry_c, omm_or_insert_w_c, omm_insert_entry_w_c, omm_try_insert_w_c,
    omm_insert_or_assign_w_c, minsert_and_copy_key_c, omm_clear_c, omm_entry_c, omm_end_c, omm_pop_max_c, omm_pop_min_c,
    omm_extract_c, omm_update_c; silence.
Qed.

Lemma run_silent s os : Forall (fun o => walks o = false) os -> silent (omm_run_c cmp alloc off s os).
Proof.
  intros Hos. revert s. induction Hos as [|o os Ho Hos IH]; intros s; cbn [omm_run_c]; [silence|].
  apply silent_cbind; [by apply step_silent|]. intros []. apply silent_cbind; [done|]. intros []. silence.
Qed.
End silence.
