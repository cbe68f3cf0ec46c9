(** What the answer of ccc_fdeq_validate (src/flat_double_ended_queue.c:358-397)
    is worth on a deque in any state. *)
From stdpp Require Import base numbers option list list_numbers.
From Verif Require Import Common BufferModel ArrayLemmas FdeqModel FdeqSpec FdeqProofs.

Section fdeq.
Context {A : Type}.
Implicit Types (d : fdeq A) (l : list A).
Local Ltac bind := cbn [mbind outcome_bind obind].
Local Ltac dd := repeat match goal with
  | H : context [decide ?P] |- _ => destruct (decide P); try lia
  | |- context [decide ?P] => destruct (decide P); try lia
  end.
Local Ltac nb :=
  repeat match goal with
  | |- context [?x <=? ?y] => destruct (Nat.leb_spec x y); try lia
  | |- context [?x <? ?y] => destruct (Nat.ltb_spec x y); try lia
  | |- context [?x =? ?y] => destruct (Nat.eqb_spec x y); try lia
  end.

Local Ltac nbi := dd;
  repeat match goal with
  | |- context [?x <? ?y] => destruct (Nat.ltb_spec x y); try lia
  end;
  repeat match goal with
  | |- context [?x =? ?y] => destruct (Nat.eqb_spec x y); try lia
  | |- context [?x <=? ?y] => destruct (Nat.leb_spec x y); try lia
  end; try done.

(** Front inside the array and no more elements than slots. *)
Definition in_ring d : Prop := d_front d < d_cap d /\ d_sz d <= d_cap d.

(** With more elements than slots the walk ends when it is back at the front. *)
Lemma count_overfull d : d_front d < d_cap d -> d_cap d < d_sz d ->
  forall k i f, i + k = d_cap d -> 0 < k -> k < f ->
  count_walk f (fdeq_next d) d (Some (pos d i)) i = Ok (Some (d_cap d)).
Proof.
  intros Hf Hlt. induction k as [|k IH]; intros i f Hik Hk Hfuel; [lia|].
  destruct f as [|f]; [lia|]. cbn [count_walk].
  destruct (Nat.leb_spec (d_sz d) i); [lia|].
  assert (Hn : fdeq_next d (pos d i) =
    Ok (if decide (S i < d_cap d) then Some (pos d (S i)) else None)).
  { unfold fdeq_next. pose proof (pos_lt d i ltac:(lia)) as Hp.
    destruct (Nat.ltb_spec (pos d i) (d_cap d)); [|lia]. simpl.
    assert (Hinc : increment d (pos d i) = pos d (S i)).
    { unfold increment, pos. rewrite !ring_mod by lia. nb; dd; lia. }
    rewrite Hinc. pose proof (pos_lt d (S i) ltac:(lia)) as Hp'.
    destruct (decide (S i < d_cap d)) as [Hlt'|Hge].
    - assert (((pos d (S i) =? d_front d) ||
        (d_sz d <=? distance d (pos d (S i)) (d_front d))) = false) as ->.
      { unfold distance. unfold pos in *. rewrite ring_mod by lia. nbi. }
      by rewrite buf_at_lt.
    - assert (pos d (S i) = d_front d) as ->.
      { unfold pos. rewrite ring_mod by lia. dd; lia. }
      by rewrite Nat.eqb_refl. }
  rewrite Hn. bind. destruct (decide (S i < d_cap d)).
  - rewrite (IH (S i) f) by lia. done.
  - replace (S i) with (d_cap d) by lia. destruct f; done.
Qed.

Lemma count_ring d : in_ring d -> forall k i f, i + k = d_sz d -> 0 < k -> k < f ->
  count_walk f (fdeq_next d) d (Some (pos d i)) i = Ok (Some (d_sz d)).
Proof.
  intros (Hf & Hle). induction k as [|k IH]; intros i f Hik Hk Hfuel; [lia|].
  destruct f as [|f]; [lia|]. cbn [count_walk].
  destruct (Nat.leb_spec (d_sz d) i); [lia|].
  rewrite next_Ok by lia. bind. destruct (decide (S i < d_sz d)).
  - rewrite (IH (S i) f) by lia. done.
  - replace (S i) with (d_sz d) by lia. destruct f; done.
Qed.

Lemma count_ring_back d : in_ring d -> forall i f n, i + n + 1 = d_sz d -> S i < f ->
  count_walk f (fdeq_rnext d) d (Some (pos d i)) n = Ok (Some (d_sz d)).
Proof.
  intros (Hf & Hle). induction i as [|i IH]; intros f n Hi Hfuel;
  (destruct f as [|f]; [lia|]); cbn [count_walk].
  all: destruct (Nat.leb_spec (d_sz d) n); [lia|].
  all: rewrite rnext_Ok by lia; bind.
  - replace (S n) with (d_sz d) by lia. destruct f; done.
  - apply IH; lia.
Qed.

Lemma fdeq_validate_decides d :
  fdeq_validate d = Ok (bool_decide (d_sz d = 0 \/ d_front d < d_cap d /\ d_sz d <= d_cap d)).
Proof.
  unfold fdeq_validate. destruct (Nat.eqb_spec (d_sz d) 0) as [E|E].
  { by rewrite bool_decide_true by auto. }
  unfold fdeq_begin. destruct (Nat.eqb_spec (d_sz d) 0); [done|].
  destruct (decide (d_front d < d_cap d)) as [Hf|Hf].
  2:{ assert (buf_at (d_buf d) (d_front d) = None) as ->.
      { unfold buf_at. change (b_cap (d_buf d)) with (d_cap d). nb. done. }
      rewrite bool_decide_false by done. cbn [negb].
      rewrite bool_decide_false by tauto. done. }
  assert (Hp0 : pos d 0 = d_front d)
    by (unfold pos; rewrite Nat.add_0_r, Nat.mod_small; done).
  rewrite buf_at_lt by done. rewrite bool_decide_true by done. cbn [negb].
  rewrite <- Hp0 at 1.
  destruct (decide (d_sz d <= d_cap d)) as [Hs|Hs].
  2:{ rewrite (count_overfull d Hf ltac:(lia) (d_cap d) 0) by lia. bind.
      rewrite bool_decide_false by (intros [=]; lia). cbn [negb].
      rewrite bool_decide_false by tauto. done. }
  rewrite (count_ring d ltac:(done) (d_sz d) 0) by lia. bind.
  rewrite bool_decide_true by done. cbn [negb].
  assert (Hl : last_elem_index d = Ok (pos d (d_sz d - 1))).
  { unfold last_elem_index. by rewrite omod_Ok by lia. }
  unfold fdeq_rbegin, fdeq_back. destruct (Nat.eqb_spec (d_sz d) 0); [done|].
  rewrite Hl. bind. rewrite buf_at_lt by (apply pos_lt; lia).
  rewrite bool_decide_true by done. cbn [negb].
  rewrite (count_ring_back d ltac:(done)) by lia. bind.
  by rewrite !bool_decide_true by tauto.
Qed.

Lemma in_ring_rep d l : in_ring d -> fdeq_contents d = Some <$> l ->
  rep d (Deq l (d_cap d) (d_alloc d)).
Proof.
  intros (Hf & Hle) Hc.
  assert (Hlen : d_sz d = length l).
  { apply (f_equal length) in Hc. by rewrite contents_length, fmap_length in Hc. }
  split; [|done]. split; [|split].
  - cbn. change (length (d_slots d)) with (d_cap d). lia.
  - by left.
  - intros i x Hx. pose proof (lookup_lt_Some _ _ _ Hx).
    destruct (contents_get d i Hf Hle ltac:(cbn in *; lia)) as (y & Hy & Hy').
    rewrite Hc, list_lookup_fmap in Hy'. cbn in Hx. rewrite Hx in Hy'. injection Hy' as <-.
    unfold slot_get in Hy. unfold pos in Hy.
    change (length (d_slots d)) with (d_cap d).
    destruct (d_slots d !! _) as [z|]; [by injection Hy as ->|done].
Qed.

Lemma fdeq_validate_usable d l : fdeq_validate d = Ok true ->
  fdeq_contents d = Some <$> l -> l <> [] ->
  forall os q rs, deq_run (Deq l (d_cap d) (d_alloc d)) os = Some (q, rs) ->
  exists d', fdeq_run d os = Ok (d', rs) /\ fdeq_contents d' = Some <$> q_list q /\
    d_sz d' = length (q_list q) /\ fdeq_validate d' = Ok true.
Proof.
  intros Hv Hc Hne os q rs Hr. rewrite fdeq_validate_decides in Hv.
  assert (Hlen : d_sz d = length l).
  { apply (f_equal length) in Hc. by rewrite contents_length, fmap_length in Hc. }
  injection Hv as Hv. apply bool_decide_eq_true in Hv as [Hv|Hv].
  { destruct l; [done|]. simpl in Hlen. lia. }
  destruct (run_refines _ _ _ _ _ (in_ring_rep d l Hv Hc) Hr) as (d' & Hd & Hrep).
  exists d'. rewrite (rep_contents _ _ Hrep), (validate_Ok _ _ Hrep).
  pose proof Hrep as (_ & ? & _). done.
Qed.

End fdeq.
