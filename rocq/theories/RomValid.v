(** What validate of the realtime ordered map is worth in arbitrary memory: the
    search tree, not its balance. *)
From stdpp Require Import base numbers option gmap fin_maps list.
From Coq Require Import Sorting.Sorted.
From Verif Require OmProofs.
From Verif Require Import Common LinkHeap PathLemmas OrderSpec MapOps MapSpec TreeModel TreeProofs MapProofs MapCases
  WavlModel WavlNode WavlProofs WavlRemove RomModel ValidSpec TreeValid.

Local Ltac bind := cbn [mbind outcome_bind obind].

Section valid.
Context {K V : Type} (cmp : K -> K -> comparison) (Hcmp : total_preorder cmp).
Implicit Types (s : rom K V).

(** Memory that holds a realtime ordered map, in whatever state. *)
Definition rom_memory s : Prop :=
  readable nil (fun p => p =? 0) (dat s) (wl (tr s)) /\ is_Some (wp (tr s) !! nil) /\
  (target nil (dat s) (wroot (tr s)) \/ wroot (tr s) = 0).

(** ccc_rom_get_key_val (168-175) whose loop may take [n] iterations. *)
Definition rom_get_in (n : nat) s (k : K) : outcome nat :=
  '(c, x) ← tree_find nil n cmp (dat s) (wl (tr s)) (wroot (tr s)) k; Ok (if hit c then x else 0).

Definition treeT s (t : tree) : Prop :=
  rep nil (wl (tr s)) nil t /\ wroot (tr s) = ptr nil t /\
  sorted cmp (dat s) (nodes t) /\ sz s = Z.of_nat (length (nodes t)) /\
  forall x, is_Some (dat s !! x) -> x <> 0 /\ x <> nil.

Lemma validate_tree s : rom_memory s ->
  exists b, rom_validate cmp s = Ok b /\ (b = true -> exists t, treeT s t).
Proof.
  intros (Hmem & [b Hb] & Hroot). unfold rom_validate, parity. rewrite Hb. bind.
  destruct b; cbn [negb]; [|by exists false]. set (h := wl (tr s)) in *.
  destruct (subtrees_valid_total nil cmp Hcmp (fun p => p =? 0) (dat s) h Hmem (S (S (size (lf h)))) nil (wroot (tr s)) nil)
    as (b1 & -> & Hb1).
  { by left. } { by left. } { destruct Hroot as [?| ->]; [by left|by right]. }
  { pose proof (room_size nil cmp _ (dat s) h Hmem nil nil). lia. }
  bind. destruct b1; cbn [negb]; [|by exists false].
  destruct Hb1 as (t & Hsh & Hpt & Hs & Hk); [done|]. rewrite <- Hpt.
  assert (length (nodes t) <= size (lf h)) as Hlen.
  { apply (sorted_size nil cmp Hcmp _ (dat s) h Hmem); [done|]. intros z Hz. by apply Hk. }
  rewrite (recursive_size_shape nil h t) by (done || lia). bind.
  destruct (Z.eqb_spec (Z.of_nat (length (nodes t))) (sz s)) as [Hz|_]; cbn [negb]; [|by exists false].
  destruct (storing_parent_total nil (fun p => p =? 0) (dat s) h Hmem false nil t (S (S (size (lf h))))) as (b2 & -> & Hb2).
  { done. } { intros z Hz'. by apply Hk. } { lia. }
  exists b2. split; [done|]. intros ->. exists t. split_and!; [by apply Hb2|done| |done|].
  - split; [done|]. apply Forall_forall. intros z Hz'. by apply Hk.
  - intros x Hx. destruct Hmem as [_ H]. destruct (H x Hx) as (? & Hx0 & _). split; [|done]. by apply Nat.eqb_neq.
Qed.

Lemma treeT_known s t z : treeT s t -> z ∈ nodes t -> is_Some (dat s !! z).
Proof. intros (_ & _ & [_ H] & _) Hz. rewrite Forall_forall in H. by apply H. Qed.

Lemma treeT_NoDup s t : treeT s t -> NoDup (nodes t).
Proof. intros (_ & _ & H & _). by apply (sorted_NoDup cmp Hcmp (dat s)). Qed.

Lemma begin_T s t d : treeT s t -> rom_begin s d = Ok (hd 0 (ord d (nodes t))).
Proof.
  intros Ht. pose proof (treeT_NoDup s t Ht) as Hnd. pose proof Ht as (Hr & Hroot & _ & _ & Hx).
  unfold rom_begin. rewrite Hroot. assert (t = E \/ t <> E) as [-> |Hne] by (destruct t; auto).
  - by destruct d.
  - destruct (Nat.eqb_spec (ptr nil t) nil) as [He|_]; [by apply (rep_ptr_nil nil _ _ _ Hr) in He|].
    destruct (edge_Ok nil _ (negb d) t nil Hr Hnd Hne) as (l & x & Ho & ->). bind.
    rewrite ord_negb in Ho. apply (f_equal (@rev nat)) in Ho. rewrite rev_involutive, rev_app_distr in Ho.
    rewrite Ho. cbn [rev app hd].
    destruct (Hx x) as [_ Hxn]. { apply (treeT_known s t); [done|]. apply (elem_of_ord d). rewrite Ho. left. }
    by rewrite (proj2 (Nat.eqb_neq x nil)).
Qed.

Lemma next_T s t d n l1 l2 :
  treeT s t -> ord d (nodes t) = l1 ++ n :: l2 -> rom_next s d n = Ok (hd 0 l2).
Proof.
  intros Ht Ho. pose proof (treeT_NoDup s t Ht) as Hnd. pose proof Ht as (Hr & Hroot & _ & _ & Hx).
  assert (forall y, y ∈ l1 ++ n :: l2 -> y <> 0 /\ y <> nil) as Hne.
  { intros y Hy. rewrite <- Ho in Hy. apply elem_of_ord in Hy. apply Hx. by apply (treeT_known s t). }
  unfold rom_next, rnext. destruct (Hne n) as [Hn0 Hnn]; [rewrite elem_of_app; right; left|].
  rewrite (proj2 (Nat.eqb_neq n 0)), (proj2 (Nat.eqb_neq n nil)) by done. cbn [orb].
  rewrite Hroot. rewrite (tree_next_Ok nil _ d t n l1 l2) by done. bind.
  destruct l2 as [|y l2]; [done|]. change (default nil (head (y :: l2))) with y. cbn [hd].
  destruct (Hne y) as [_ Hyn]; [rewrite elem_of_app; right; right; left|].
  by rewrite (proj2 (Nat.eqb_neq y nil)).
Qed.

Lemma walk_T s t d ps l1 fuel :
  treeT s t -> ord d (nodes t) = l1 ++ map fst ps -> Forall (fun p => dat s !! fst p = Some (snd p)) ps ->
  length ps < fuel -> walk fuel s d (hd 0 (map fst ps)) = Ok ps.
Proof.
  intros Ht. revert ps l1. induction fuel as [|f IH]; intros ps l1 Ho HF Hlen; [lia|].
  destruct ps as [|[x kv] ps]; [done|]. cbn [map fst hd walk].
  apply Forall_cons in HF as [Hx HF]. cbn [fst snd] in Hx. pose proof Ht as (_ & _ & _ & _ & Hne).
  destruct (Hne x) as [Hx0 _]; [by eexists|]. rewrite (proj2 (Nat.eqb_neq x 0)) by done.
  unfold value. rewrite Hx. bind. cbn [map fst] in Ho.
  rewrite (next_T s t d x l1 (map fst ps)) by done. bind.
  rewrite (IH ps (l1 ++ [x])); [done| |done|cbn in Hlen; lia]. by rewrite <- app_assoc.
Qed.

Lemma iter_T s t d ps :
  treeT s t -> map fst ps = ord d (nodes t) -> Forall (fun p => dat s !! fst p = Some (snd p)) ps ->
  rom_iter s d = Ok ps.
Proof.
  intros Ht Hps HF. unfold rom_iter. rewrite (begin_T s t) by done. bind. rewrite <- Hps.
  apply (walk_T s t d ps []); try done. pose proof (treeT_NoDup s t Ht) as Hnd. destruct Ht as (Hr & _).
  pose proof (rep_size nil _ _ _ Hnd Hr) as Hlen. apply (f_equal length) in Hps. rewrite map_length, ord_length in Hps. lia.
Qed.

Lemma get_T s t e kv : treeT s t -> e ∈ nodes t -> dat s !! e = Some kv ->
  rom_get_in (S (length (nodes t))) s (fst kv) = Ok e.
Proof.
  intros Ht He Hkv. pose proof Ht as (Hr & Hroot & Hs & _). unfold rom_get_in. rewrite Hroot.
  by rewrite (tree_find_in nil cmp Hcmp (dat s) (wl (tr s)) nil t e kv).
Qed.

Lemma validate_decides s : rom_memory s -> exists b, rom_validate cmp s = Ok b.
Proof. intros Hm. destruct (validate_tree s Hm) as (b & ? & _). by exists b. Qed.

Lemma validate_consistent s : rom_memory s -> rom_validate cmp s = Ok true ->
  consistent cmp (rom_size s) (rom_iter s true) (rom_iter s false) (fun k e => exists n, rom_get_in n s k = Ok e).
Proof.
  intros Hm Hv. destruct (validate_tree s Hm) as (b & Hv' & Hb). assert (b = true) as -> by congruence.
  destruct (Hb eq_refl) as [t Ht]. pose proof Ht as (_ & _ & Hs & Hsz & _).
  destruct (OmProofs.with_data (dat s) (nodes t)) as (ps & Hps & HF). { intros x Hx. destruct (treeT_known s t x Ht Hx) as [kv ?]. by exists kv. }
  exists ps. split_and!.
  - unfold rom_size. rewrite Hsz, <- Hps. by rewrite map_length.
  - by apply (iter_T s t true).
  - apply (iter_T s t false); [done| |by apply Forall_rev]. by rewrite map_rev, Hps.
  - apply (ascending_walk cmp (View (nodes t) (dat s))); [|done|done]. by destruct Hs.
  - intros e kv He. rewrite Forall_forall in HF. specialize (HF _ He). cbn [fst snd] in HF.
    exists (S (length (nodes t))). apply (get_T s t); [done| |done]. rewrite <- Hps. apply elem_of_list_fmap. by exists (e, kv).
Qed.
End valid.
