(** What searching and walking a flat realtime ordered map costs. *)
From stdpp Require Import base numbers option gmap fin_maps list.
From Coq Require Import Arith.
From Verif Require Import Common LinkHeap PathLemmas OrderSpec MapOps MapSpec TreeModel CostModel CostErase TreeProofs
  WalkCost WavlModel WavlProofs WavlRank WavlRemove MapProofs MapCases OmProofs OmCostErase OmWalkCost
  FlatOps FlatSpec FlatModel FlatProofs FlatCalls FlatCases FrmModel FrmProofs FrmHistories
  WavlCostModel WavlCostErase WavlCost FlatWalkCost.

Local Ltac bind := cbn [mbind outcome_bind obind cbind still gratis hopping].

Section walk.
Context {K V : Type} (cmp : K -> K -> comparison) (Hcmp : total_preorder cmp).
Implicit Types (s : flat K V) (A : fview K V).
Local Notation reprT := (FlatProofs.reprT cmp wavl_ok).
Local Notation repr := (FlatProofs.repr cmp wavl_ok).

Lemma frm_tree_rep s A t : reprT s A t -> wroot (tr s) = ptr 0 t /\ (t = E \/ rep 0 (wl (tr s)) 0 t).
Proof.
  intros [_ [(_ & _ & _ & -> & _ & Hroot)|Hrdy]]; [split; [done|by left]|].
  destruct (ready_rep cmp wavl_ok frm_seal frm_tree s A t Hrdy) as (? & ? & _). split; [done|by right].
Qed.

Lemma search_cost s A t k q x w :
  reprT s A t -> search_c cmp s k = Ok ((q, x), w) -> turns w <= height t /\ hops w = 0 /\ (x ∈ nodes t \/ x = 0).
Proof.
  intros Ht. destruct (frm_tree_rep s A t Ht) as [Hroot [-> |Hrep]]; unfold search_c; rewrite Hroot.
  - unfold budget. cbn [find_loop_c ptr Nat.eqb]. intros [= <- <- <-]. cbn. split_and!; [lia|done|by right].
  - by apply (find_loop_cost 0 cmp _ _ _ _ t 0).
Qed.

Lemma frm_range_cost s A t d a b r w :
  reprT s A t -> frm_range_c cmp s d a b = Ok (r, w) -> turns w <= height t + height t /\ hops w <= height t + height t.
Proof.
  intros Ht. unfold frm_range_c. destruct (flat_is_empty s); [intros [= <- <-]; cbn; lia|].
  intros ((c1, x) & w1 & w1' & H1 & (x' & w2 & w2' & H2 & ((c2, y) & w3 & w3' & H3 & (y' & w4 & w4' & H4 & [= <- <-] & ->)%cbind_Ok & ->)%cbind_Ok & ->)%cbind_Ok & ->)%cbind_Ok.
  apply (search_cost s A t) in H1 as (Ht1 & Hh1 & Hx); [|done].
  apply (search_cost s A t) in H3 as (Ht3 & Hh3 & Hy); [|done].
  assert (turns w2 = 0 /\ hops w2 <= height t) as [Ht2 Hh2].
  { destruct (last_is c1 _); [exact (fnext_height cmp wavl_ok frm_seal frm_tree s A t d x x' w2 Ht Hx H2)|].
    injection H2 as <- <-. cbn. lia. }
  assert (turns w4 = 0 /\ hops w4 <= height t) as [Ht4 Hh4].
  { destruct (last_is c2 _); [injection H4 as <- <-; cbn; lia|].
    exact (fnext_height cmp wavl_ok frm_seal frm_tree s A t d y y' w4 Ht Hy H4). }
  cbn [add_work turns hops idle]. lia.
Qed.
End walk.

Section histories.
Context {K V : Type} (cmp : K -> K -> comparison) (Hcmp : total_preorder cmp).
Notation kept := frm_contract.
Implicit Types (ops : list (flat_op K V)) (A : fview K V) (s : flat K V).

Lemma frm_history_begin (alloc : bool) n junk ops rs A d :
  fcalls cmp (kept alloc) (fstart n) ops rs A ->
  exists s rs' x w, frm_run cmp alloc (flat_init n junk) ops = Ok (s, rs') /\ flat_begin_c s d = Ok (x, w) /\
    turns w = 0 /\ 2 ^ hops w <= S (count A) * S (count A).
Proof.
  intros Hc. destruct (frm_history_repr cmp Hcmp alloc n junk ops rs A Hc) as (s & rs' & Hrun & _ & [t Hr]).
  eexists s, rs', _, _. split; [done|]. split; [by apply (flat_begin_cost cmp wavl_ok frm_seal frm_tree s A t)|]. split; [done|].
  eapply pow_once; [by eapply frm_log|]. apply edge_length_height.
Qed.

Lemma frm_history_next (alloc : bool) n junk ops rs A (d : bool) x l1 l2 :
  fcalls cmp (kept alloc) (fstart n) ops rs A -> (if d then elems (fv A) else rev (elems (fv A))) = l1 ++ x :: l2 ->
  exists s rs' w, frm_run cmp alloc (flat_init n junk) ops = Ok (s, rs') /\ flat_next_c s d x = Ok (hd 0 l2, w) /\
    turns w = 0 /\ 2 ^ hops w <= S (count A) * S (count A).
Proof.
  intros Hc Ho. destruct (frm_history_repr cmp Hcmp alloc n junk ops rs A Hc) as (s & rs' & Hrun & _ & [t Hr]).
  destruct (flat_next_cost cmp wavl_ok frm_seal frm_tree s A t d x l1 l2 Hr Ho) as (i & Hi & Hn).
  eexists s, rs', _. split; [done|]. split; [exact Hn|]. split; [done|].
  eapply pow_once; [by eapply frm_log|]. cbn. apply elem_of_list_lookup_2, next_costs_height in Hi; lia.
Qed.

Lemma frm_history_range (alloc : bool) n junk ops rs A (d : bool) a b :
  fcalls cmp (kept alloc) (fstart n) ops rs A ->
  exists s rs' r w, frm_run cmp alloc (flat_init n junk) ops = Ok (s, rs') /\ frm_range_c cmp s d a b = Ok (r, w) /\
    let m := S (count A) in 2 ^ turns w <= m * m * (m * m) /\ 2 ^ hops w <= m * m * (m * m).
Proof.
  intros Hc. destruct (frm_history_repr cmp Hcmp alloc n junk ops rs A Hc) as (s & rs' & Hrun & _ & [t Hr]).
  assert (exists r, frm_range cmp s d a b = Ok r) as [r Hrg].
  { destruct d.
    - destruct (range_exists cmp (Contract true true true) (fv A) a b) as (x & y & Hcall). inversion Hcall; subst.
      eexists. by apply (frm_range_Ok cmp Hcmp s A t true).
    - destruct (rrange_exists cmp (Contract true true true) (fv A) a b) as (x & y & Hcall). inversion Hcall; subst.
      eexists. by apply (frm_range_Ok cmp Hcmp s A t false). }
  rewrite <- frm_range_erase in Hrg. apply erase_Ok in Hrg as [w Hrg].
  exists s, rs', r, w. split_and!; [done|done|]. pose proof (frm_log cmp s A t Hr) as Hlog.
  apply (frm_range_cost cmp s A t) in Hrg as [Ht Hh]; [|done]. split; by eapply pow_twice.
Qed.

Lemma frm_history_iter (alloc : bool) n junk ops rs A d :
  fcalls cmp (kept alloc) (fstart n) ops rs A ->
  exists s rs' ps w, frm_run cmp alloc (flat_init n junk) ops = Ok (s, rs') /\ flat_iter_c s d = Ok (ps, w) /\
    flat_iter s d = Ok ps /\ turns w = 0 /\ hops w <= 2 * length ps.
Proof.
  intros Hc. destruct (frm_history_repr cmp Hcmp alloc n junk ops rs A Hc) as (s & rs' & Hrun & _ & Hr).
  destruct (flat_iter_cost cmp wavl_ok frm_seal frm_tree s A d Hr) as (ps & w & Hi & _ & Ht & Hh).
  exists s, rs', ps, w. split_and!; try done.
  rewrite <- flat_iter_erase. apply erase_Ok. by exists w.
Qed.

Lemma frm_history_search (alloc : bool) n junk ops rs A k :
  fcalls cmp (kept alloc) (fstart n) ops rs A ->
  exists s rs' r w, frm_run cmp alloc (flat_init n junk) ops = Ok (s, rs') /\ search_c cmp s k = Ok (r, w) /\
    hops w = 0 /\ 2 ^ turns w <= S (count A) * S (count A).
Proof.
  intros Hc. destruct (frm_history_repr cmp Hcmp alloc n junk ops rs A Hc) as (s & rs' & Hrun & _ & [t Hr]).
  assert (exists q, search cmp s k = Ok q) as [[c x] Hq].
  { destruct (search_cases cmp Hcmp s A t k Hr) as [(x & l1 & l2 & -> & _)|(Q & l & r & -> & _)]; by eauto. }
  rewrite <- search_erase in Hq. apply erase_Ok in Hq as [w Hq].
  exists s, rs', (c, x), w. apply (search_cost cmp s A t) in Hq as Hb; [|done]. destruct Hb as (Ht & Hh & _).
  split_and!; [done..|]. eapply pow_once; [by eapply frm_log|done].
Qed.
End histories.

(** ** Steps are not O(1) *)

(** A map of [r] slots with the keys 0, 1, ... in slots 1, 2, ... *)
Fixpoint stocked (r m : nat) : fview Z nat :=
  match m with
  | 0 => fstart r
  | S m => let A := stocked r m in pushed A (elems (fv A)) [] (Z.of_nat m, 0) r
  end.
Definition stock (m : nat) : flat_op Z nat := FInsert (Node 0 0 0 false, (Z.of_nat m, 0)) None.

Lemma stocked_elems r m : elems (fv (stocked r m)) = seq 1 m.
Proof.
  induction m as [|m IH]; [done|]. cbn [stocked pushed fv elems set_elems]. unfold count.
  rewrite IH, seq_length. by rewrite seq_S.
Qed.
Lemma stocked_count r m : count (stocked r m) = m.
Proof. unfold count. by rewrite stocked_elems, seq_length. Qed.
Lemma stocked_room r m : room (stocked r m) = r.
Proof. by destruct m. Qed.
Lemma stocked_val r m i : i < m -> vals (fv (stocked r m)) !! S i = Some (Z.of_nat i, 0).
Proof.
  intros Hi. induction m as [|m IH]; [lia|]. cbn [stocked pushed fv vals set_elems set_val]. rewrite stocked_count.
  destruct (decide (i = m)) as [-> |]; [by rewrite lookup_insert|]. rewrite lookup_insert_ne by lia. apply IH. lia.
Qed.

Lemma stocked_call c r m : m + 2 <= r ->
  fcall Z.compare c (stocked r m) (stock m) (XEnt false false None (Some (Z.of_nat m, 0))) (stocked r (S m)).
Proof.
  intros Hr. eapply (fcall_insert_new Z.compare c (stocked r m) (Node 0 0 0 false) (Z.of_nat m, 0) None (elems (fv (stocked r m))) [] (Some (S m))).
  - split; [by rewrite app_nil_r|]. split; [|by constructor]. rewrite stocked_elems. apply Forall_forall. intros x Hx.
    apply elem_of_seq in Hx. destruct x as [|x]; [lia|]. exists (Z.of_nat x, 0). split; [apply stocked_val; lia|].
    cbn [fst]. apply Z.compare_gt_iff. lia.
  - pose proof (fadded_room c (stocked r m) (elems (fv (stocked r m))) [] (Z.of_nat m, 0) None) as H.
    rewrite stocked_room, stocked_count in H. apply H. lia.
Qed.

Lemma stocked_calls c r m : m + 1 <= r -> exists rs, fcalls Z.compare c (fstart r) (map stock (seq 0 m)) rs (stocked r m).
Proof.
  intros Hr.
  assert (forall j, j <= m -> exists rs, fcalls Z.compare c (stocked r (m - j)) (map stock (seq (m - j) j)) rs (stocked r m)) as H.
  { induction j as [|j IH]; intros Hj.
    - rewrite Nat.sub_0_r. exists []. constructor.
    - destruct (IH ltac:(lia)) as [rs Hrs]. eexists (_ :: rs). cbn [seq map].
      replace (S (m - S j)) with (m - j) by lia. econstructor; [apply stocked_call; lia|].
      by replace (S (m - S j)) with (m - j) by lia. }
  destruct (H m (le_n _)) as [rs Hrs]. rewrite Nat.sub_diag in Hrs. by exists rs.
Qed.

Lemma frm_next_dear (d : bool) (c : nat) :
  exists n (ops : list (flat_op Z nat)) rs A s rs' x l1 l2 w,
    fcalls Z.compare (frm_contract false) (fstart n) ops rs A /\
    frm_run Z.compare false (flat_init n (fun _ => Node 0 0 0 false)) ops = Ok (s, rs') /\
    (if d then elems (fv A) else rev (elems (fv A))) = l1 ++ x :: l2 /\ flat_next_c s d x = Ok (hd 0 l2, w) /\ c < hops w.
Proof.
  set (m := 2 ^ (2 * c + 2)). destruct (stocked_calls (frm_contract false) (m + 1) m ltac:(lia)) as [rs Hc].
  destruct (frm_history_repr Z.compare total_preorder_Z false _ (fun _ => Node 0 0 0 false) _ _ _ Hc) as (s & rs' & Hrun & _ & [t Hr]).
  pose proof (reprT_nodes _ _ s _ t Hr) as Hn.
  assert (length (nodes t) = m) as Hlen by (by rewrite Hn, stocked_elems, seq_length).
  destruct (tree_cases d t) as [-> |(a & x & b & ->)]; [by destruct (Nat.pow_nonzero 2 (2 * c + 2))|].
  assert (exists n, ok (wp (tr s)) (mk d a x b) n) as [n Hok].
  { destruct Hr as [_ [(_ & _ & _ & Ht & _)|((_ & _ & _ & (_ & _ & n & Hok) & _) & _)]]; [by destruct d|by exists n]. }
  pose proof (root_next _ _ _ _ _ _ Hok) as He. rewrite Hlen in He. unfold m in He.
  apply Nat.pow_lt_mono_r_iff in He; [|lia].
  assert (b <> E) as Hb by (intros ->; cbn in He; lia).
  assert ((if d then elems (fv (stocked (m + 1) m)) else rev (elems (fv (stocked (m + 1) m)))) = ord d (nodes a) ++ x :: ord d (nodes b)) as Ho.
  { change (ord d (elems (fv (stocked (m + 1) m))) = ord d (nodes a) ++ x :: ord d (nodes b)). by rewrite <- Hn, nodes_mk. }
  destruct (flat_next_cost _ _ _ frm_tree s _ _ d x _ _ Hr Ho) as (i & Hi & Hnx).
  eexists _, _, rs, _, s, rs', x, _, _, _. split_and!; [exact Hc|done|exact Ho|exact Hnx|]. cbn.
  rewrite next_costs_mk, lookup_app_r in Hi by (rewrite next_costs_length, ord_length; lia).
  rewrite next_costs_length, ord_length, Nat.sub_diag in Hi. cbn in Hi.
  assert (i = edge_length (negb d) b) as -> by (destruct b; [done|by injection Hi as <-]). lia.
Qed.
