(** What validate of the ordered map is worth in arbitrary memory. *)
From stdpp Require Import base numbers option gmap fin_maps list.
From Coq Require Import Sorting.Sorted.
From Verif Require Import Common LinkHeap OrderSpec MapOps MapSpec TreeModel TreeProofs MapProofs MapCases CostModel CostErase OmModel OmCostModel OmCostErase OmProofs OmCalls ValidSpec TreeValid.

Local Ltac bind := cbn [mbind outcome_bind obind].

Section valid.
Context {K V : Type} (cmp : K -> K -> comparison) (Hcmp : total_preorder cmp).
Implicit Types (s : om K V) (A : view K V).

(** Memory that holds an ordered map, in whatever state. *)
Definition om_memory s : Prop :=
  readable nil (fun p => p =? 0) (dat s) (lk s) /\ live (lk s) nil /\
  (target nil (dat s) (root s) \/ root s = 0).

Lemma validate_tree s : om_memory s ->
  exists b, om_validate cmp s = Ok b /\
    (b = true -> exists t, rep nil (lk s) nil t /\ root s = ptr nil t /\
      sorted cmp (dat s) (nodes t) /\ sz s = Z.of_nat (length (nodes t))).
Proof.
  intros (Hmem & Hnil & Hroot). unfold om_validate.
  destruct (subtrees_valid_total nil cmp Hcmp (fun p => p =? 0) (dat s) (lk s) Hmem (S (S (size (lf (lk s))))) nil (root s) nil)
    as (b1 & -> & Hb1).
  { by left. } { by left. } { destruct Hroot as [?| ->]; [by left|by right]. }
  { pose proof (room_size nil cmp _ (dat s) (lk s) Hmem nil nil). lia. }
  bind. destruct b1; cbn [negb]; [|by exists false].
  destruct Hb1 as (t & Hsh & <- & Hs & Hk); [done|].
  assert (length (nodes t) <= size (lf (lk s))) as Hlen.
  { apply (sorted_size nil cmp Hcmp _ (dat s) (lk s) Hmem); [done|]. intros z Hz. by apply Hk. }
  destruct (storing_parent_total nil (fun p => p =? 0) (dat s) (lk s) Hmem true nil t (S (S (size (lf (lk s)))))) as (b2 & -> & Hb2).
  { done. } { intros z Hz. by apply Hk. } { lia. }
  bind. destruct b2; cbn [negb]; [|by exists false]. specialize (Hb2 eq_refl).
  rewrite (recursive_size_shape nil (lk s) t) by (done || lia). bind.
  eexists. split; [done|]. intros Hz%Z.eqb_eq. exists t. split_and!; [done|done| |done].
  split; [done|]. apply Forall_forall. intros z Hz'. by apply Hk.
Qed.

Lemma validate_repr s (alloc : bool) (b1 b2 : bool) : om_memory s -> om_validate cmp s = Ok true ->
  (alloc = true -> forall ps, om_iter s true = Ok ps -> Forall (fun p => fst p ∈ heap s) ps) ->
  exists A, repr cmp (Contract alloc b1 b2) s A.
Proof.
  intros Hm Hv Hheap. destruct (validate_tree s Hm) as (b & Hv' & Hb).
  assert (b = true) as -> by congruence. destruct (Hb eq_refl) as (t & Hr & Hroot & Hs & Hsz).
  destruct Hm as (Hmem & Hnil & _).
  assert (forall c, allocates c = false -> reprT cmp c s (View (nodes t) (dat s)) t) as Hrepr.
  { intros c Hc. unfold reprT. cbn [elems vals]. split_and!; try done.
    - intros x kv Hx. assert (is_Some (dat s !! x)) as Hk by (by eexists).
      split_and!; [by apply (known_live nil (fun p => p =? 0) (dat s))| |].
      + destruct Hmem as [_ H]. destruct (H x Hk) as (_ & Hx0 & _). by apply Nat.eqb_neq.
      + destruct Hmem as [_ H]. by destruct (H x Hk) as (? & _).
    - by rewrite Hc. }
  exists (View (nodes t) (dat s)). exists t. specialize (Hrepr (Contract false b1 b2) eq_refl).
  assert (repr cmp (Contract false b1 b2) s (View (nodes t) (dat s))) as Hr0 by (by exists t).
  destruct Hrepr as (? & ? & ? & ? & ? & ? & ? & ? & _). split_and!; try done.
  intros Ha x Hx.
  destruct (shows_Ok cmp Hcmp _ s _ Hr0) as (_ & _ & ps & Hps & _ & Hit & _).
  specialize (Hheap Ha ps Hit). rewrite Forall_forall in Hheap. cbn [elems] in Hps. rewrite <- Hps in Hx.
  apply elem_of_list_fmap in Hx as (y & -> & Hy). by apply Hheap.
Qed.

Lemma validate_decides s : om_memory s -> exists b, om_validate cmp s = Ok b.
Proof. intros Hm. destruct (validate_tree s Hm) as (b & ? & _). by exists b. Qed.

Lemma validate_consistent s : om_memory s -> om_validate cmp s = Ok true ->
  consistent cmp (om_size s) (om_iter s true) (om_iter s false) (fun k e => exists s', om_get cmp s k = Ok (s', e)).
Proof.
  intros Hm Hv. destruct (validate_repr s false true false Hm Hv) as [A Hr]; [done|].
  destruct (shows_Ok cmp Hcmp _ s A Hr) as (Hsz & _ & ps & Hps & HF & Hf & Hb).
  exists ps. split_and!; [|done|done| |].
  - rewrite Hsz, <- Hps. by rewrite map_length.
  - apply (ascending_walk cmp A); [|done|done]. by apply (ascending_Ok cmp (Contract false true false) s).
  - intros e kv He. assert (e ∈ elems A) as Hin. { rewrite <- Hps. apply elem_of_list_fmap. by exists (e, kv). }
    apply elem_of_list_split in Hin as (l1 & l2 & Hl).
    rewrite Forall_forall in HF. specialize (HF _ He). cbn [fst snd] in HF.
    destruct Hr as [t Hr].
    destruct (find_present cmp Hcmp (Contract false true false) _ s A t (fst kv) l1 e l2 Hr (le_n _)) as (s' & a & b & w & Hfind & _).
    { split; [done|]. exists kv. split; [done|]. apply (cmp_refl cmp Hcmp). }
    exists s'. rewrite <- om_get_erase. apply erase_Ok. by exists w.
Qed.

Lemma validate_usable s (alloc : bool) : om_memory s -> om_validate cmp s = Ok true ->
  (alloc = true -> forall ps, om_iter s true = Ok ps -> Forall (fun p => fst p ∈ heap s) ps) ->
  exists A, ascending cmp A /\ shown A (om_size s) (om_iter s true) (om_iter s false) (om_validate cmp s) /\
    vals A = dat s /\
    forall ops rs A', calls cmp (Contract alloc true false) A ops rs A' ->
    exists s' rs', om_run cmp alloc s ops = Ok (s', rs') /\ Forall2 agree rs rs' /\
      shown A' (om_size s') (om_iter s' true) (om_iter s' false) (om_validate cmp s').
Proof.
  intros Hm Hv Hh. destruct (validate_repr s alloc true false Hm Hv Hh) as [A Hr]. exists A. split_and!.
  - by apply (ascending_Ok cmp (Contract alloc true false) s).
  - by apply (shows_Ok cmp Hcmp (Contract alloc true false)).
  - symmetry. by apply (repr_vals cmp (Contract alloc true false)).
  - intros ops rs A' Hc. destruct (run_Ok cmp Hcmp (Contract alloc true false) eq_refl s A ops rs A' eq_refl Hr Hc) as (s' & rs' & ? & ? & Hr').
    exists s', rs'. split_and!; [done|done|..]; by apply (shows_Ok cmp Hcmp (Contract alloc true false)).
Qed.
End valid.
