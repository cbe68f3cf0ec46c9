(** The counting functions of WavlCostModel.v do what the functions they count do. *)
From stdpp Require Import base numbers option gmap fin_maps list.
From Verif Require Import Common LinkHeap TreeModel WavlModel MapOps RomModel FlatModel FrmModel CostModel CostErase
  OmCostErase WavlCostModel.

Local Ltac bind := cbn [mbind outcome_bind obind].

Create HintDb werase discriminated.
Local Ltac er := repeat first
  [ reflexivity
  | progress rewrite ?erase_cbind, ?erase_bind, ?erase_if, ?erase_still, ?erase_gratis, ?erase_hopping
  | progress (autorewrite with werase)
  | match goal with
    | |- mbind _ ?m = mbind _ ?m => apply obind_ext; intros ?
    | |- (let '(_, _) := ?p in _) = _ => destruct p
    | |- (if ?b then _ else _) = _ => destruct b
    | |- mbind _ ?m = mbind _ ?n => apply obind_ext2; [|intros ?]
    end ].
#[local] Hint Rewrite edge_erase' tree_next_erase' : werase.

Lemma find_loop_c_erase nil {K V} (cmp : K -> K -> comparison) fuel (dat : gmap nat (K * V)) h k p x c :
  erase_count (find_loop_c nil cmp fuel dat h k p x c) = find_loop nil cmp fuel dat h k p x c.
Proof.
  revert p x c. induction fuel as [|f IH]; intros p x c; [done|]. cbn [find_loop find_loop_c].
  destruct (x =? nil); [done|]. destruct (cmpk cmp dat k x) as [o| |]; try done. bind.
  destruct (is_eq o); [done|]. destruct (rd (br h (is_gt o)) x) as [n| |]; try done. bind.
  rewrite <- IH. by destruct (find_loop_c _ _ _ _ _ _ _ _ _) as [[? ?]| |].
Qed.

Section rom.
Context {K V : Type} (cmp : K -> K -> comparison).
Implicit Types (s : rom K V).

Lemma find_c_erase s k : erase_count (find_c cmp s k) = RomModel.find cmp s k.
Proof. apply find_loop_c_erase. Qed.
Lemma rom_begin_erase s d : erase_count (rom_begin_c s d) = rom_begin s d.
Proof. symmetry. unfold rom_begin, rom_begin_c. er. Qed.
Lemma rnext_erase s d n : erase_count (rnext_c s d n) = rnext s d n.
Proof. symmetry. unfold rnext, rnext_c. er. Qed.
Hint Rewrite find_c_erase rnext_erase : werase.
Lemma rom_next_erase s d e : erase_count (rom_next_c s d e) = rom_next s d e.
Proof. symmetry. unfold rom_next, rom_next_c. er. Qed.
Lemma rom_range_erase s d a b : erase_count (rom_range_c cmp s d a b) = rom_range cmp s d a b.
Proof. symmetry. unfold rom_range, rom_range_c. er. Qed.
Lemma rom_walk_erase fuel s d e : erase_count (rom_walk_c fuel s d e) = RomModel.walk fuel s d e.
Proof.
  revert e. induction fuel as [|f IH]; intros e; [done|]. symmetry. cbn [RomModel.walk rom_walk_c].
  rewrite erase_if, erase_still, erase_bind. destruct (e =? 0); [done|]. apply obind_ext. intros kv.
  rewrite erase_cbind, rom_next_erase. apply obind_ext. intros e'. rewrite erase_cbind, IH. apply obind_ext. done.
Qed.
Lemma rom_iter_erase s d : erase_count (rom_iter_c s d) = rom_iter s d.
Proof.
  symmetry. unfold rom_iter, rom_iter_c. rewrite erase_cbind, rom_begin_erase. apply obind_ext. intros e. by rewrite rom_walk_erase.
Qed.
End rom.

Section frm.
Context {K V : Type} (cmp : K -> K -> comparison).
Implicit Types (s : flat K V).

Lemma search_erase s k : erase_count (search_c cmp s k) = search cmp s k.
Proof. apply find_loop_c_erase. Qed.
Lemma flat_begin_erase s d : erase_count (flat_begin_c s d) = flat_begin s d.
Proof. symmetry. unfold flat_begin, flat_begin_c. er. Qed.
Lemma fnext_erase s d n : erase_count (fnext_c s d n) = fnext s d n.
Proof. symmetry. unfold fnext, fnext_c. er. Qed.
Hint Rewrite search_erase fnext_erase : werase.
Lemma flat_next_erase s d e : erase_count (flat_next_c s d e) = flat_next s d e.
Proof. symmetry. unfold flat_next, flat_next_c. er. Qed.
Lemma frm_range_erase s d a b : erase_count (frm_range_c cmp s d a b) = frm_range cmp s d a b.
Proof. symmetry. unfold frm_range, frm_range_c. er. Qed.
Lemma flat_walk_erase fuel s d e : erase_count (flat_walk_c fuel s d e) = FlatModel.walk fuel s d e.
Proof.
  revert e. induction fuel as [|f IH]; intros e; [done|]. symmetry. cbn [FlatModel.walk flat_walk_c].
  rewrite erase_if, erase_still, erase_bind. destruct (e =? 0); [done|]. apply obind_ext. intros kv.
  rewrite erase_cbind, flat_next_erase. apply obind_ext. intros e'. rewrite erase_cbind, IH. apply obind_ext. done.
Qed.
Lemma flat_iter_erase s d : erase_count (flat_iter_c s d) = flat_iter s d.
Proof.
  symmetry. unfold flat_iter, flat_iter_c. rewrite erase_cbind, flat_begin_erase. apply obind_ext. intros e. by rewrite flat_walk_erase.
Qed.
End frm.
