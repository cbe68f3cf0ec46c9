(** What searching and walking a realtime ordered map costs. *)
From stdpp Require Import base numbers option gmap fin_maps list.
From Coq Require Import Arith.
From Verif Require Import Common LinkHeap PathLemmas OrderSpec MapOps MapSpec TreeModel CostModel CostErase TreeProofs
  WalkCost WavlModel WavlProofs WavlRank WavlRemove MapProofs MapCases OmProofs OmCostErase OmWalkCost
  RomModel RomProofs RomCalls WavlCostModel WavlCostErase WavlCost.

Local Ltac bind := cbn [mbind outcome_bind obind cbind still gratis hopping].

Section walk.
Context {K V : Type} (cmp : K -> K -> comparison) (Hcmp : total_preorder cmp) (c : contract).
Implicit Types (s : rom K V) (A : view K V).
Local Notation reprT := (RomProofs.reprT cmp c).
Local Notation repr := (RomProofs.repr cmp c).

Lemma rom_log s A t : reprT s A t -> 2 ^ height t <= S (length (elems A)) * S (length (elems A)).
Proof. intros ((_ & _ & n & Hok) & <- & _). by apply (ok_log _ _ _ Hok). Qed.

Lemma rom_not_nil s A x : repr s A -> x ∈ elems A -> x <> 0 /\ x <> nil.
Proof.
  intros Hr Hx. destruct (repr_dat cmp c s A x Hr Hx) as [kv Hkv]. by destruct (repr_alive cmp c s A x kv Hr Hkv) as (_ & ? & ?).
Qed.

Lemma rom_begin_cost s A t d :
  reprT s A t -> rom_begin_c s d = Ok (hd 0 (ord d (elems A)), Work 0 (edge_length (negb d) t)).
Proof.
  intros Ht. assert (repr s A) as Hr0 by (by exists t). destruct (reprT_rep cmp c s A t Ht) as (Hroot & Hr & Hnd & _).
  pose proof Ht as (_ & Hn & _). unfold rom_begin_c. rewrite Hroot.
  assert (t = E \/ t <> E) as [-> |Hne] by (destruct t; auto).
  - rewrite <- Hn. by destruct d.
  - rewrite (ptr_eqb nil _ _ _ Hr). destruct (isE_spec t) as [|_]; [done|].
    destruct (edge_cost nil _ (negb d) t nil Hr Hnd Hne) as (l & x & Ho & ->). bind.
    rewrite Hn, ord_negb in Ho. apply (f_equal (@rev nat)) in Ho. rewrite rev_involutive, rev_app_distr in Ho.
    rewrite Ho. cbn [rev app hd].
    assert (x ∈ elems A) as Hx. { apply (elem_of_ord d). rewrite Ho. left. }
    destruct (rom_not_nil s A x Hr0 Hx) as [_ Hxn].
    rewrite (proj2 (Nat.eqb_neq x nil)) by done. by rewrite add_idle.
Qed.

Lemma rom_next_cost s A t d y l1 l2 :
  reprT s A t -> ord d (elems A) = l1 ++ y :: l2 ->
  exists i, next_costs d 1 t !! length l1 = Some i /\ rom_next_c s d y = Ok (hd 0 l2, Work 0 i).
Proof.
  intros Ht Ho. assert (repr s A) as Hr0 by (by exists t). destruct (reprT_rep cmp c s A t Ht) as (Hroot & Hrep & Hnd & _).
  pose proof Ht as (_ & Hn & _). rewrite <- Hn in Ho.
  destruct (tree_next_cost nil _ d t y l1 l2 Hrep Hnd Ho) as (i & Hi & Hnx).
  exists i. split; [done|]. rewrite Hn in Ho.
  assert (y ∈ elems A) as Hy. { apply (elem_of_ord d). rewrite Ho, elem_of_app. right. left. }
  destruct (rom_not_nil s A y Hr0 Hy) as [Hy0 Hyn].
  unfold rom_next_c, rnext_c. rewrite (proj2 (Nat.eqb_neq y 0)), (proj2 (Nat.eqb_neq y nil)) by done. cbn [orb].
  rewrite Hroot, Hnx. bind. rewrite add_idle. destruct l2 as [|z l2]; cbn [hd head default]; [done|].
  unfold id. rewrite (proj2 (Nat.eqb_neq z nil)); [done|].
  apply (rom_not_nil s A z Hr0), (elem_of_ord d). rewrite Ho, elem_of_app. right. right. left.
Qed.

Lemma rom_walk_cost s A t d ps l1 fuel :
  reprT s A t -> ord d (elems A) = l1 ++ map fst ps -> Forall (fun p => vals A !! fst p = Some (snd p)) ps ->
  length ps < fuel ->
  rom_walk_c fuel s d (hd 0 (map fst ps)) = Ok (ps, Work 0 (sum_list (drop (length l1) (next_costs d 1 t)))).
Proof.
  intros Hr. assert (repr s A) as Hr0 by (by exists t).
  assert (length (next_costs d 1 t) = length (elems A)) as Hcosts.
  { rewrite next_costs_length. by destruct Hr as (_ & -> & _). }
  revert ps l1. induction fuel as [|f IH]; intros ps l1 Ho HF Hlen; [lia|].
  destruct ps as [|[x kv] ps]; cbn [map fst hd rom_walk_c].
  { bind. rewrite drop_ge; [done|]. apply (f_equal length) in Ho. rewrite ord_length, app_length in Ho. cbn in Ho. lia. }
  apply Forall_cons in HF as [Hx HF]. cbn [fst snd] in Hx.
  destruct (repr_alive cmp c s A x kv Hr0 Hx) as (_ & Hx0 & _). rewrite (proj2 (Nat.eqb_neq x 0)) by done.
  rewrite (value_Ok cmp c s A x kv) by done. bind. cbn [map fst] in Ho.
  destruct (rom_next_cost s A t d x l1 (map fst ps) Hr Ho) as (i & Hi & ->). bind.
  rewrite (IH ps (l1 ++ [x])); [|by rewrite <- app_assoc|done|cbn in Hlen; lia]. bind.
  rewrite add_idle. unfold add_work. cbn [turns hops]. rewrite app_length. cbn [length].
  rewrite (drop_S _ i (length l1)) by done. cbn [sum_list_with]. unfold id.
  by rewrite (Nat.add_1_r (length l1)).
Qed.

Lemma rom_iter_cost s A d :
  repr s A ->
  exists ps w, rom_iter_c s d = Ok (ps, w) /\ map fst ps = ord d (elems A) /\ turns w = 0 /\ hops w <= 2 * length ps.
Proof.
  intros Hr0. pose proof Hr0 as [t Hr].
  destruct (with_data (vals A) (ord d (elems A))) as (ps & Hps & HF).
  { intros x Hx. apply elem_of_ord in Hx. by apply (repr_dat cmp c s A). }
  assert (length ps = length (elems A)) as Hlen.
  { apply (f_equal length) in Hps. by rewrite map_length, ord_length in Hps. }
  pose proof (repr_length cmp c s A Hr0) as Hroom.
  eexists ps, _. split.
  - unfold rom_iter_c. rewrite (rom_begin_cost s A t d Hr). bind. rewrite <- Hps.
    rewrite (rom_walk_cost s A t d ps []); [|done..|lia]. bind. cbn [length drop]. reflexivity.
  - split; [done|]. cbn [turns hops add_work]. split; [lia|].
    assert (length (nodes t) = length ps) as Hn. { destruct Hr as (_ & -> & _). done. }
    destruct t as [|l x r]; [cbn; lia|].
    pose proof (next_costs_sum d 1 (T l x r) ltac:(done)). rewrite drop_0. lia.
Qed.

(** ** Ranges *)

Lemma rnext_height s A t d x n w :
  reprT s A t -> x ∈ nodes t \/ x = nil -> rnext_c s d x = Ok (n, w) -> turns w = 0 /\ hops w <= height t.
Proof.
  intros Ht Hx. destruct (reprT_rep cmp c s A t Ht) as (Hroot & Hrep & Hnd & _). unfold rnext_c.
  destruct ((x =? 0) || (x =? nil)) eqn:E; [intros [= <- <-]; cbn; lia|].
  apply orb_false_iff in E as [_ E]. apply Nat.eqb_neq in E. destruct Hx as [Hx|]; [|done].
  rewrite Hroot. destruct (step_cost nil _ d t x Hrep Hnd Hx) as (m & i & -> & Hi). bind. intros [= <- <-]. by cbn.
Qed.

Lemma rom_range_cost s A t d a b r w :
  reprT s A t -> rom_range_c cmp s d a b = Ok (r, w) -> turns w <= height t + height t /\ hops w <= height t + height t.
Proof.
  intros Ht. destruct (reprT_rep cmp c s A t Ht) as (Hroot & Hrep & Hnd & _). unfold rom_range_c.
  destruct (RomModel.sz s =? 0)%Z; [intros [= <- <-]; cbn; lia|].
  intros ((c1, x) & w1 & w1' & H1 & (x' & w2 & w2' & H2 & ((c2, y) & w3 & w3' & H3 & (y' & w4 & w4' & H4 & [= <- <-] & ->)%cbind_Ok & ->)%cbind_Ok & ->)%cbind_Ok & ->)%cbind_Ok.
  unfold find_c in H1, H3. rewrite Hroot in H1, H3.
  apply (find_loop_cost nil cmp _ _ _ _ t nil _ _ _ _ _ Hrep) in H1 as (Ht1 & Hh1 & Hx).
  apply (find_loop_cost nil cmp _ _ _ _ t nil _ _ _ _ _ Hrep) in H3 as (Ht3 & Hh3 & Hy).
  assert (turns w2 = 0 /\ hops w2 <= height t) as [Ht2 Hh2].
  { destruct (last_is c1 _); [exact (rnext_height s A t d x x' w2 Ht Hx H2)|]. injection H2 as <- <-. cbn. lia. }
  assert (turns w4 = 0 /\ hops w4 <= height t) as [Ht4 Hh4].
  { destruct (last_is c2 _); [injection H4 as <- <-; cbn; lia|exact (rnext_height s A t d y y' w4 Ht Hy H4)]. }
  cbn [add_work turns hops idle]. lia.
Qed.
End walk.

(** ** Histories *)

Section histories.
Context {K V : Type} (cmp : K -> K -> comparison) (Hcmp : total_preorder cmp).
Notation kept alloc := (Contract alloc true true).
Implicit Types (ops : list (map_op K V)) (A : view K V).

Lemma rom_history_begin (alloc : bool) ops rs A d :
  calls cmp (kept alloc) start ops rs A ->
  exists s rs' x w, rom_run cmp alloc rom_init ops = Ok (s, rs') /\ rom_begin_c s d = Ok (x, w) /\
    turns w = 0 /\ 2 ^ hops w <= S (length (elems A)) * S (length (elems A)).
Proof.
  intros Hc. destruct (history_repr cmp Hcmp alloc ops rs A Hc) as (s & rs' & Hrun & _ & [t Hr]).
  eexists s, rs', _, _. split; [done|]. split; [by apply (rom_begin_cost cmp (kept alloc) s A t)|]. split; [done|].
  eapply pow_once; [by eapply rom_log|]. apply edge_length_height.
Qed.

Lemma rom_history_next (alloc : bool) ops rs A (d : bool) x l1 l2 :
  calls cmp (kept alloc) start ops rs A -> (if d then elems A else rev (elems A)) = l1 ++ x :: l2 ->
  exists s rs' w, rom_run cmp alloc rom_init ops = Ok (s, rs') /\ rom_next_c s d x = Ok (hd 0 l2, w) /\
    turns w = 0 /\ 2 ^ hops w <= S (length (elems A)) * S (length (elems A)).
Proof.
  intros Hc Ho. destruct (history_repr cmp Hcmp alloc ops rs A Hc) as (s & rs' & Hrun & _ & [t Hr]).
  destruct (rom_next_cost cmp (kept alloc) s A t d x l1 l2 Hr Ho) as (i & Hi & Hn).
  eexists s, rs', _. split; [done|]. split; [exact Hn|]. split; [done|].
  eapply pow_once; [by eapply rom_log|]. cbn. apply elem_of_list_lookup_2, next_costs_height in Hi; lia.
Qed.

Lemma rom_history_range (alloc : bool) ops rs A (d : bool) a b :
  calls cmp (kept alloc) start ops rs A ->
  exists s rs' r w, rom_run cmp alloc rom_init ops = Ok (s, rs') /\ rom_range_c cmp s d a b = Ok (r, w) /\
    let n := S (length (elems A)) in 2 ^ turns w <= n * n * (n * n) /\ 2 ^ hops w <= n * n * (n * n).
Proof.
  intros Hc. destruct (history_repr cmp Hcmp alloc ops rs A Hc) as (s & rs' & Hrun & _ & Hr).
  assert (exists r, rom_range cmp s d a b = Ok r) as [r Hrg].
  { destruct d.
    - destruct (range_exists cmp (kept alloc) A a b) as (x & y & Hcall). inversion Hcall; subst.
      eexists. by apply (range_Ok cmp Hcmp (kept alloc) s A true).
    - destruct (rrange_exists cmp (kept alloc) A a b) as (x & y & Hcall). inversion Hcall; subst.
      eexists. by apply (range_Ok cmp Hcmp (kept alloc) s A false). }
  rewrite <- rom_range_erase in Hrg. apply erase_Ok in Hrg as [w Hrg]. destruct Hr as [t Hr].
  exists s, rs', r, w. split_and!; [done|done|]. pose proof (rom_log cmp (kept alloc) s A t Hr) as Hlog.
  apply (rom_range_cost cmp (kept alloc) s A t) in Hrg as [Ht Hh]; [|done].
  split; by eapply pow_twice.
Qed.

Lemma rom_history_iter (alloc : bool) ops rs A d :
  calls cmp (kept alloc) start ops rs A ->
  exists s rs' ps w, rom_run cmp alloc rom_init ops = Ok (s, rs') /\ rom_iter_c s d = Ok (ps, w) /\
    rom_iter s d = Ok ps /\ turns w = 0 /\ hops w <= 2 * length ps.
Proof.
  intros Hc. destruct (history_repr cmp Hcmp alloc ops rs A Hc) as (s & rs' & Hrun & _ & Hr).
  destruct (rom_iter_cost cmp (kept alloc) s A d Hr) as (ps & w & Hi & _ & Ht & Hh). exists s, rs', ps, w. split_and!; try done.
  rewrite <- rom_iter_erase. apply erase_Ok. by exists w.
Qed.

(** The search itself. *)
Lemma rom_history_find (alloc : bool) ops rs A k :
  calls cmp (kept alloc) start ops rs A ->
  exists s rs' r w, rom_run cmp alloc rom_init ops = Ok (s, rs') /\ find_c cmp s k = Ok (r, w) /\
    hops w = 0 /\ 2 ^ turns w <= S (length (elems A)) * S (length (elems A)).
Proof.
  intros Hc. destruct (history_repr cmp Hcmp alloc ops rs A Hc) as (s & rs' & Hrun & _ & [t Hr]).
  assert (exists q, find cmp s k = Ok q) as [[c x] Hq].
  { destruct (find_cases cmp Hcmp (kept alloc) s A t k Hr) as [(x & l1 & l2 & -> & _)|(Q & l & r & -> & _)]; by eauto. }
  rewrite <- find_c_erase in Hq. apply erase_Ok in Hq as [w Hq].
  exists s, rs', (c, x), w. split_and!; [done|done|..].
  all: destruct (reprT_rep cmp (kept alloc) s A t Hr) as (Hroot & Hrep & _).
  all: unfold find_c in Hq; rewrite Hroot in Hq; apply (find_loop_cost nil cmp _ _ _ _ t nil _ _ _ _ _ Hrep) in Hq as (Ht & Hh & _).
  - done.
  - eapply pow_once; [by eapply rom_log|done].
Qed.
End histories.

(** ** Steps are not O(1) *)

Lemma filled_call c m : allocates c = true ->
  call Z.compare c (filled true m) (fill true m) (RPtr (m + 2)) (filled true (S m)).
Proof.
  intros Hc. pose proof (absent_last true m) as Hab. unfold fill.
  eapply call_or_insert_w_new; [apply Z.compare_refl|exact Hab|].
  apply made_new; [done|]. split; [lia|]. split; [lia|]. by apply filled_unused.
Qed.

Lemma filled_calls c m : allocates c = true -> exists rs, calls Z.compare c start (fills true m) rs (filled true m).
Proof.
  intros Hc.
  assert (forall j, j <= m -> exists rs, calls Z.compare c (filled true (m - j)) (map (fill true) (seq (m - j) j)) rs (filled true m)) as H.
  { induction j as [|j IH]; intros Hj.
    - rewrite Nat.sub_0_r. exists []. constructor.
    - destruct (IH ltac:(lia)) as [rs Hrs]. eexists (_ :: rs). cbn [seq map].
      replace (S (m - S j)) with (m - j) by lia. econstructor; [by apply filled_call|].
      by replace (S (m - S j)) with (m - j) by lia. }
  destruct (H m (le_n _)) as [rs Hrs]. rewrite Nat.sub_diag in Hrs. by exists rs.
Qed.

Lemma rom_next_dear (d : bool) (c : nat) :
  exists (ops : list (map_op Z nat)) rs A s rs' x l1 l2 w,
    calls Z.compare (Contract true true true) start ops rs A /\ rom_run Z.compare true rom_init ops = Ok (s, rs') /\
    (if d then elems A else rev (elems A)) = l1 ++ x :: l2 /\ rom_next_c s d x = Ok (hd 0 l2, w) /\ c < hops w.
Proof.
  set (m := 2 ^ (2 * c + 2)). destruct (filled_calls (Contract true true true) m eq_refl) as [rs Hc].
  destruct (history_repr Z.compare total_preorder_Z true _ _ _ Hc) as (s & rs' & Hrun & _ & [t Hr]).
  destruct (reprT_rep _ _ s _ t Hr) as (Hroot & Hrep & Hnd & _).
  pose proof Hr as ((_ & _ & n & Hok) & Hn & _).
  assert (length (nodes t) = m) as Hlen by (by rewrite Hn, filled_length).
  destruct (tree_cases d t) as [-> |(a & x & b & ->)]; [by destruct (Nat.pow_nonzero 2 (2 * c + 2))|].
  pose proof (root_next _ _ _ _ _ _ Hok) as He. rewrite Hlen in He. unfold m in He.
  apply Nat.pow_lt_mono_r_iff in He; [|lia].
  assert (b <> E) as Hb by (intros ->; cbn in He; lia).
  assert ((if d then elems (filled true m) else rev (elems (filled true m))) = ord d (nodes a) ++ x :: ord d (nodes b)) as Ho.
  { change (ord d (elems (filled true m)) = ord d (nodes a) ++ x :: ord d (nodes b)). by rewrite <- Hn, nodes_mk. }
  destruct (rom_next_cost _ _ s _ _ d x _ _ Hr Ho) as (i & Hi & Hnx).
  eexists _, rs, _, s, rs', x, _, _, _. split_and!; [exact Hc|done|exact Ho|exact Hnx|]. cbn.
  rewrite next_costs_mk, lookup_app_r in Hi by (rewrite next_costs_length, ord_length; lia).
  rewrite next_costs_length, ord_length, Nat.sub_diag in Hi. cbn in Hi.
  assert (i = edge_length (negb d) b) as -> by (destruct b; [done|by injection Hi as <-]). lia.
Qed.
