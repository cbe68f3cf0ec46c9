(** What walking an ordered map costs: a whole walk is linear, but a single step
    and a call of begin are linear in the worst case, and stay so. *)
From stdpp Require Import base numbers option gmap fin_maps list.
From Coq Require Import Arith.
From Verif Require Import Common LinkHeap PathLemmas OrderSpec MapOps MapSpec TreeModel CostModel CostErase TreeProofs SplayCost
  CostSpec CostBounds WalkCost MapProofs MapCases OmModel OmCostModel OmCostErase OmProofs OmCalls OmCost.

Local Ltac bind := cbn [mbind outcome_bind obind cbind still gratis hopping].

Lemma add_idle w : add_work w idle = w.
Proof. destruct w as [a b]. unfold add_work. cbn [turns hops idle]. by rewrite !Nat.add_0_r. Qed.

Section walk.
Context {K V : Type} (cmp : K -> K -> comparison) (Hcmp : total_preorder cmp) (c : contract).
Implicit Types (s : om K V) (A : view K V).

Lemma reprT_NoDup s A t : reprT cmp c s A t -> NoDup (nodes t).
Proof. intros Hr. destruct Hr as (? & ? & Hn & Hs & _). rewrite Hn. by apply (sorted_NoDup cmp Hcmp (vals A)). Qed.

Lemma begin_cost s A t d :
  reprT cmp c s A t -> om_begin_c s d = Ok (hd 0 (ord d (elems A)), Work 0 (edge_length (negb d) t)).
Proof.
  intros Hr. pose proof (reprT_NoDup s A t Hr) as Hnd.
  destruct Hr as (Hrep & Hroot & Hn & Hs & Hd & Hsz & _). unfold om_begin_c. rewrite Hsz.
  destruct t as [|l x r] eqn:Ht.
  - cbn in Hn. rewrite <- Hn. by destruct d.
  - rewrite <- Ht in *. assert (t <> E) as HtE by (by rewrite Ht).
    destruct (edge_cost nil (lk s) (negb d) t nil Hrep Hnd HtE) as (l' & y & Hl & He).
    rewrite Hroot, He. rewrite (proj2 (Z.eqb_neq _ _)).
    + bind. rewrite ord_negb, Hn in Hl. apply (f_equal (@rev nat)) in Hl. rewrite rev_involutive, rev_app_distr in Hl.
      by rewrite Hl.
    + rewrite <- Hn, Ht. cbn. rewrite app_length. cbn. lia.
Qed.

Lemma next_cost s A t d y l1 l2 :
  reprT cmp c s A t -> ord d (elems A) = l1 ++ y :: l2 ->
  exists i, next_costs d 1 t !! length l1 = Some i /\ om_next_c s d y = Ok (hd 0 l2, Work 0 i).
Proof.
  intros Hr Ho. pose proof (reprT_NoDup s A t Hr) as Hnd. assert (repr cmp c s A) as Hr0 by (by exists t).
  pose proof Hr as (Hrep & Hroot & Hn & _). rewrite <- Hn in Ho.
  destruct (tree_next_cost nil (lk s) d t y l1 l2 Hrep Hnd Ho) as (i & Hi & Hnx).
  exists i. split; [done|]. rewrite Hn in Ho.
  assert (forall z, z ∈ elems A -> z <> 0 /\ z <> nil) as Hz.
  { intros z Hz. destruct (repr_dat cmp c s A z Hr0 Hz) as [kv Hkv].
    by destruct (repr_live cmp c s A z kv Hr0 Hkv) as (_ & ? & ?). }
  assert (y ∈ elems A) as Hy. { apply (elem_of_ord d). rewrite Ho, elem_of_app. right. left. }
  unfold om_next_c. rewrite (proj2 (Nat.eqb_neq y 0)) by (by apply Hz). rewrite Hroot, Hnx. bind.
  rewrite add_idle. destruct l2 as [|z l2]; cbn [hd head default].
  - by rewrite Nat.eqb_refl.
  - unfold id. rewrite (proj2 (Nat.eqb_neq z nil)); [done|].
    apply Hz, (elem_of_ord d). rewrite Ho, elem_of_app. right. right. left.
Qed.

Lemma walk_cost s A t d ps l1 fuel :
  reprT cmp c s A t -> ord d (elems A) = l1 ++ map fst ps -> Forall (fun p => vals A !! fst p = Some (snd p)) ps ->
  length ps < fuel ->
  walk_c fuel s d (hd 0 (map fst ps)) = Ok (ps, Work 0 (sum_list (drop (length l1) (next_costs d 1 t)))).
Proof.
  intros Hr. assert (repr cmp c s A) as Hr0 by (by exists t).
  assert (length (next_costs d 1 t) = length (elems A)) as Hcosts.
  { rewrite next_costs_length. by destruct Hr as (_ & _ & -> & _). }
  revert ps l1. induction fuel as [|f IH]; intros ps l1 Ho HF Hlen; [lia|].
  destruct ps as [|[x kv] ps]; cbn [map fst hd walk_c].
  { bind. rewrite drop_ge; [done|]. apply (f_equal length) in Ho. rewrite ord_length, app_length in Ho. cbn in Ho. lia. }
  apply Forall_cons in HF as [Hx HF]. cbn [fst snd] in Hx.
  destruct (repr_live cmp c s A x kv Hr0 Hx) as (_ & Hx0 & _). rewrite (proj2 (Nat.eqb_neq x 0)) by done.
  rewrite (value_Ok cmp c s A x kv) by done. bind. cbn [map fst] in Ho.
  destruct (next_cost s A t d x l1 (map fst ps) Hr Ho) as (i & Hi & ->). bind.
  rewrite (IH ps (l1 ++ [x])); [|by rewrite <- app_assoc|done|cbn in Hlen; lia]. bind.
  rewrite add_idle. unfold add_work. cbn [turns hops]. rewrite app_length. cbn [length].
  rewrite (drop_S _ i (length l1)) by done. cbn [sum_list_with]. unfold id.
  by rewrite (Nat.add_1_r (length l1)).
Qed.

(** The whole walk. *)
Lemma iter_cost s A d :
  repr cmp c s A ->
  exists ps w, om_iter_c s d = Ok (ps, w) /\ map fst ps = ord d (elems A) /\ turns w = 0 /\ hops w <= 2 * length ps.
Proof.
  intros Hr0. pose proof Hr0 as [t Hr].
  destruct (with_data (vals A) (ord d (elems A))) as (ps & Hps & HF).
  { intros x Hx. apply elem_of_ord in Hx. by apply (repr_dat cmp c s A). }
  assert (length ps = length (elems A)) as Hlen.
  { apply (f_equal length) in Hps. by rewrite map_length, ord_length in Hps. }
  pose proof (repr_length cmp Hcmp c s A Hr0) as Hroom.
  eexists ps, _. split.
  - unfold om_iter_c. rewrite (begin_cost s A t d Hr). bind. rewrite <- Hps.
    rewrite (walk_cost s A t d ps []); [|done..|lia]. bind. cbn [length drop]. reflexivity.
  - split; [done|]. cbn [turns hops add_work]. split; [lia|].
    assert (length (nodes t) = length ps) as Hn. { destruct Hr as (_ & _ & -> & _). done. }
    destruct t as [|l x r]; [cbn; lia|].
    pose proof (next_costs_sum d 1 (T l x r) ltac:(done)). rewrite drop_0. lia.
Qed.

(** No call of begin or next is worse than linear. *)
Lemma begin_linear s A d : repr cmp c s A -> exists w, om_begin_c s d = Ok (hd 0 (ord d (elems A)), w) /\
  turns w = 0 /\ hops w <= length (elems A).
Proof.
  intros [t Hr]. eexists. split; [by apply (begin_cost s A t)|]. cbn [turns hops]. split; [done|].
  destruct Hr as (_ & _ & <- & _). apply edge_length_le.
Qed.
Lemma next_linear s A d x l1 l2 : repr cmp c s A -> ord d (elems A) = l1 ++ x :: l2 ->
  exists w, om_next_c s d x = Ok (hd 0 l2, w) /\ turns w = 0 /\ hops w <= length (elems A).
Proof.
  intros [t Hr] Ho. destruct (next_cost s A t d x l1 l2 Hr Ho) as (i & Hi & Hn).
  eexists. split; [exact Hn|]. cbn [turns hops]. split; [done|].
  destruct Hr as (_ & _ & <- & _). apply elem_of_list_lookup_2, next_costs_le in Hi; lia.
Qed.
End walk.

Lemma history_iter {K V : Type} (cmp : K -> K -> comparison) (Hcmp : total_preorder cmp) (alloc : bool) (ops : list (map_op K V)) rs A d :
  calls cmp (Contract alloc true false) start ops rs A ->
  exists s rs' ps w, om_run cmp alloc om_init ops = Ok (s, rs') /\ om_iter_c s d = Ok (ps, w) /\
    om_iter s d = Ok ps /\ turns w = 0 /\ hops w <= 2 * length ps.
Proof.
  intros Hc. destruct (history_repr cmp Hcmp alloc ops rs A Hc) as (s & rs' & Hrun & _ & Hr).
  destruct (iter_cost cmp Hcmp _ s A d Hr) as (ps & w & Hi & _ & Ht & Hh). exists s, rs', ps, w. split_and!; try done.
  rewrite <- om_iter_erase. apply erase_Ok. by exists w.
Qed.


Lemma history_begin {K V : Type} (cmp : K -> K -> comparison) (Hcmp : total_preorder cmp) (alloc : bool) (ops : list (map_op K V)) rs A d :
  calls cmp (Contract alloc true false) start ops rs A ->
  exists s rs' x w, om_run cmp alloc om_init ops = Ok (s, rs') /\ om_begin_c s d = Ok (x, w) /\
    turns w = 0 /\ hops w <= length (elems A).
Proof.
  intros Hc. destruct (history_repr cmp Hcmp alloc ops rs A Hc) as (s & rs' & Hrun & _ & Hr).
  destruct (begin_linear cmp Hcmp _ s A d Hr) as (w & Hb & Ht & Hh). by eexists s, rs', _, w.
Qed.

Lemma history_next {K V : Type} (cmp : K -> K -> comparison) (Hcmp : total_preorder cmp) (alloc : bool) (ops : list (map_op K V)) rs A (d : bool) x l1 l2 :
  calls cmp (Contract alloc true false) start ops rs A -> (if d then elems A else rev (elems A)) = l1 ++ x :: l2 ->
  exists s rs' w, om_run cmp alloc om_init ops = Ok (s, rs') /\ om_next_c s d x = Ok (hd 0 l2, w) /\
    turns w = 0 /\ hops w <= length (elems A).
Proof.
  intros Hc Ho. destruct (history_repr cmp Hcmp alloc ops rs A Hc) as (s & rs' & Hrun & _ & Hr).
  destruct (next_linear cmp Hcmp _ s A d x l1 l2 Hr Ho) as (w & Hb & Ht & Hh). by exists s, rs', w.
Qed.

(** ** The worst case *)

Definition signed (d : bool) (i : nat) : Z := if d then Z.of_nat i else (- Z.of_nat i)%Z.

Lemma total_preorder_Z : total_preorder Z.compare.
Proof.
  split.
  - intros a b. apply Z.compare_antisym.
  - intros a b c. rewrite !Z.compare_le_iff. apply Z.le_trans.
Qed.

Fixpoint chain (d : bool) (l : list nat) : tree :=
  match l with [] => E | x :: l => mk d (chain d l) x E end.
Fixpoint down (m : nat) : list nat := match m with 0 => [] | S m => (m + 2) :: down m end.
Fixpoint filled (d : bool) (m : nat) : view Z nat :=
  match m with
  | 0 => start
  | S m => let A := filled d m in
    set_elems (set_val A (m + 2) (signed d m, 0)) (if d then elems A ++ [m + 2] else (m + 2) :: elems A)
  end.
Definition fill (d : bool) (m : nat) : map_op Z nat := MOrInsertW (signed d m) (signed d m) 0 (m + 2).
Definition fills (d : bool) (m : nat) : list (map_op Z nat) := map (fill d) (seq 0 m).

Lemma chain_edge d l : edge_length (negb d) (chain d l) = length l.
Proof. induction l as [|x l IH]; [by destruct d|]. cbn [chain length]. by rewrite edge_length_mk_other, IH. Qed.
Lemma down_length m : length (down m) = m.
Proof. induction m as [|m IH]; [done|]. cbn. by rewrite IH. Qed.
Lemma filled_elems d m : elems (filled d m) = ord d (rev (down m)).
Proof.
  induction m as [|m IH]; [by destruct d|]. cbn [filled down]. cbn [elems set_elems]. rewrite IH. destruct d; [done|].
  cbn. by rewrite rev_app_distr.
Qed.
Lemma filled_length d m : length (elems (filled d m)) = m.
Proof. by rewrite filled_elems, ord_length, rev_length, down_length. Qed.
Lemma filled_val d m i : i < m -> vals (filled d m) !! (i + 2) = Some (signed d i, 0).
Proof.
  intros Hi. induction m as [|m IH]; [lia|]. cbn. destruct (decide (i = m)) as [-> |Hne]; [by rewrite lookup_insert|].
  rewrite lookup_insert_ne by lia. apply IH. lia.
Qed.
Lemma filled_unused d m i : m <= i -> vals (filled d m) !! (i + 2) = None.
Proof.
  intros Hi. induction m as [|m IH]; [done|]. cbn. rewrite lookup_insert_ne by lia. apply IH. lia.
Qed.
Lemma elem_of_down m x : x ∈ down m <-> exists i, i < m /\ x = i + 2.
Proof.
  induction m as [|m IH]; cbn [down].
  - rewrite elem_of_nil. split; [done|]. intros (i & ? & _). lia.
  - rewrite elem_of_cons, IH. split.
    + intros [-> |(i & ? & ->)]; [exists m|exists i]; (split; [lia|done]).
    + intros (i & Hi & ->). destruct (decide (i = m)) as [-> |]; [by left|]. right. exists i. split; [lia|done].
Qed.
Lemma signed_cmp d i j : i < j -> Z.compare (signed d j) (signed d i) = dirc d.
Proof. intros Hij. destruct d; cbn [signed dirc]; [apply Z.compare_gt_iff|apply Z.compare_lt_iff]; lia. Qed.

Lemma absent_last d m : absent Z.compare (filled d m) (signed d m) (if d then elems (filled d m) else []) (if d then [] else elems (filled d m)).
Proof.
  assert (Forall (keyed Z.compare (filled d m) (dirc d) (signed d m)) (elems (filled d m))) as Hall.
  { apply Forall_forall. intros x Hx. rewrite filled_elems in Hx.
    apply elem_of_ord, elem_of_rev, elem_of_down in Hx as (i & Hi & ->).
    exists (signed d i, 0). split; [by apply filled_val|]. by apply signed_cmp. }
  destruct d; split; try done; [by rewrite app_nil_r|by split..].
Qed.

Lemma fill_call d m : call Z.compare (Contract true true false) (filled d m) (fill d m) (RPtr (m + 2)) (filled d (S m)).
Proof.
  pose proof (absent_last d m) as Hab. unfold fill.
  eapply call_or_insert_w_new; [apply Z.compare_refl|exact Hab|].
  replace (filled d (S m)) with (set_elems (set_val (filled d m) (m + 2) (signed d m, 0))
    ((if d then elems (filled d m) else []) ++ (m + 2) :: (if d then [] else elems (filled d m)))).
  - apply made_new; [done|]. split; [lia|]. split; [lia|]. by apply filled_unused.
  - cbn [filled]. by destruct d.
Qed.

(** Down a chain. *)
Lemma mk_inj d a x b a' x' b' : mk d a x b = mk d a' x' b' -> a = a' /\ x = x' /\ b = b'.
Proof. destruct d; by intros [= -> -> ->]. Qed.
Lemma dirc_inj d d' : dirc d = dirc d' -> d = d'.
Proof. by destruct d, d'. Qed.

(** The shape of a splay that starts in direction [d]. *)
Lemma falls_inv g d a x b i l z r :
  falls nil g (mk d a x b) i l z r -> g x = dirc d ->
  (b = E /\ i = 1 /\ T l z r = mk d a x E) \/
  (exists i' l' r', b <> E /\ g (ptr nil b) <> dirc d /\ falls nil g b i' l' z r' /\ i = S i' /\
     T l z r = (if d then T (mk d a x l') z r' else T l' z (mk d a x r'))) \/
  (exists b' y, b = mk d b' y E /\ g y = dirc d /\ i = 1 /\ T l z r = mk d (mk d a x b') y E) \/
  (exists b' y c' i' l' r', b = mk d b' y c' /\ g y = dirc d /\ c' <> E /\ falls nil g c' i' l' z r' /\ i = S i' /\
     T l z r = (if d then T (mk d (mk d a x b') y l') z r' else T l' z (mk d (mk d a x b') y r'))).
Proof.
  intros Hf Hg. remember (mk d a x b) as t eqn:Ht.
  destruct Hf as [a1 x1 b1 Hx|d1 a1 x1 Hx|d1 a1 x1 b1 i l z r Hx Hb Hy Hf|d1 a1 x1 b1 y1 Hx Hy|d1 a1 x1 b1 y1 c1 i l z r Hx Hy Hc Hf];
    pose proof (f_equal (ptr nil) Ht) as Hp; rewrite ?ptr_mk in Hp; cbn [ptr] in Hp; subst x1;
    rewrite Hg in Hx; try (apply dirc_inj in Hx; subst d1); try apply mk_inj in Ht as (-> & _ & Ht); try subst b.
  - by destruct d.
  - left. destruct d; done.
  - right. left. exists i, l, r. split_and!; try done. by destruct d.
  - right. right. left. exists b1, y1. split_and!; try done. by destruct d.
  - right. right. right. exists b1, y1, c1, i, l, r. split_and!; try done. by destruct d.
Qed.

Lemma falls_top g d a x i l z r : falls nil g (mk d a x E) i l z r -> g x = dirc d -> T l z r = mk d a x E.
Proof.
  intros Hf Hg. apply falls_inv in Hf as [(_ & _ & ?)|[(? & ? & ? & ? & _)|[(b' & y & Hb & _)|(b' & y & c & ? & ? & ? & Hb & _)]]]; try done.
  - by destruct d.
  - by destruct d.
Qed.

(** A chain is folded about its middle. *)
Lemma chain_other d x l : chain d (x :: l) = mk (negb d) E x (chain d l).
Proof. by destruct d. Qed.

Lemma falls_chain g d n : forall l y i a z b, length l <= n ->
  (forall x, x ∈ l -> g x = dirc (negb d)) -> g y = Eq -> falls nil g (chain d (l ++ [y])) i a z b ->
  exists u, T a z b = mk d E y u /\ length l <= 2 * edge_length (negb d) u.
Proof.
  induction n as [|n IH]; intros l y i a z b Hlen Hl Hy Hf.
  - destruct l; [|cbn in Hlen; lia]. cbn [app chain] in Hf. exists E. unfold mk in Hf.
    assert (falls nil g (T E y E) i a z b) as Hf' by (by destruct d).
    apply falls_again in Hf' as (_ & -> & -> & ->); [|done]. split; [by destruct d|cbn; lia].
  - destruct l as [|x l].
    { eapply (IH []); [cbn; lia|by intros ? ?%elem_of_nil|done|exact Hf]. }
    cbn [app] in Hf. rewrite chain_other in Hf. cbn in Hlen.
    apply falls_inv in Hf; [|apply Hl; left].
    assert (chain d (l ++ [y]) <> E) as HcE. { destruct l; cbn [app chain]; apply mk_not_E. }
    destruct Hf as [(? & _)|[(i' & l' & r' & _ & Hp & Hf & _ & Ht)|[(b' & y' & Hb & Hy' & _)|(b' & y' & c' & i' & l' & r' & Hb & Hy' & Hc & Hf & _ & Ht)]]].
    + done.
    + destruct l as [|x' l]; [|exfalso; apply Hp; cbn [app chain]; rewrite ptr_mk; apply Hl; right; left].
      apply (IH []) in Hf as (u & Hu & _); [|cbn; lia|by intros ? ?%elem_of_nil|done].
      rewrite Ht. exists (mk (negb d) E x u). split; [|rewrite edge_length_mk; cbn; lia].
      destruct d; cbn [negb mk] in *; injection Hu as -> -> ->; done.
    + exfalso. destruct l as [|x' l]; cbn [app] in Hb; rewrite chain_other in Hb; apply mk_inj in Hb as (_ & <- & Hb).
      * rewrite Hy in Hy'. by destruct d.
      * destruct l; cbn [app chain] in Hb; by apply mk_not_E in Hb.
    + destruct l as [|x' l]; cbn [app] in Hb; rewrite chain_other in Hb; apply mk_inj in Hb as (<- & <- & <-).
      { rewrite Hy in Hy'. by destruct d. }
      apply (IH l) in Hf as (u & Hu & Hlu); [|cbn in Hlen; lia|intros w Hw; apply Hl; by do 2 right|done].
      rewrite Ht. exists (mk (negb d) (mk (negb d) E x E) x' u). split; [|rewrite edge_length_mk; cbn [length]; lia].
      destruct d; cbn [negb mk] in *; injection Hu as -> -> ->; done.
Qed.

Notation kept := (Contract true true false).
Local Notation reprT := (reprT Z.compare kept).

Lemma down_last m : exists l, down (S m) = l ++ [2] /\ length l = m /\ forall x, x ∈ l -> exists i, 0 < i <= m /\ x = i + 2.
Proof.
  induction m as [|m IH].
  - exists []. split_and!; [done..|]. by intros ? ?%elem_of_nil.
  - destruct IH as (l & Hl & Hlen & Hin). exists ((S m + 2) :: l). split; [|split].
    + change (down (S (S m))) with ((S m + 2) :: down (S m)). by rewrite Hl.
    + cbn. by rewrite Hlen.
    + intros x [-> |Hx]%elem_of_cons; [exists (S m); split; [lia|done]|].
      destruct (Hin x Hx) as (i & ? & ->). exists i. split; [lia|done].
Qed.

Lemma keyc_filled d m k i : i < m -> keyc Z.compare (vals (filled d m)) k (i + 2) = Z.compare k (signed d i).
Proof. intros Hi. unfold keyc. by rewrite (filled_val d m i Hi). Qed.

Lemma fill_step s d m :
  reprT s (filled d m) (chain d (down m)) ->
  exists s' w, om_step_c Z.compare true s (fill d m) = Ok ((s', RPtr (m + 2)), w) /\
    reprT s' (filled d (S m)) (chain d (down (S m))).
Proof.
  intros Hr. pose proof (absent_last d m) as Hab. unfold fill. cbn [om_step_c]. unfold om_entry_c.
  assert (exists s1 w1, find_c Z.compare s (signed d m) = Ok ((s1, 0), w1) /\ reprT s1 (filled d m) (chain d (down m)))
    as (s1 & w1 & -> & Hr1).
  { unfold find_c. assert (repr Z.compare kept s (filled d m)) as Hr0 by (by eexists).
    rewrite (root_nil Z.compare kept s (filled d m)) by done. case_bool_decide as Hne; [by exists s, idle|].
    destruct m as [|m]; [done|].
    destruct (splay_root_falls Z.compare total_preorder_Z kept s _ _ (signed d (S m)) Hr Hne)
      as (s1 & a & x & b & kv & i & -> & Hf & Hr1 & _ & Hx & _). bind.
    apply falls_top in Hf as Hsame; [|rewrite keyc_filled by lia; apply signed_cmp; lia].
    rewrite Hsame in Hr1. rewrite (repr_vals Z.compare kept s1 (filled d (S m))) by (by eexists).
    assert (x = m + 2) as ->. { apply (f_equal (ptr nil)) in Hsame. by rewrite ptr_mk in Hsame. }
    rewrite (cmpk_Ok Z.compare _ _ _ (signed d m, 0)) by (apply filled_val; lia). bind. cbn [fst].
    rewrite signed_cmp by lia. eexists s1, _. split; [by destruct d|done]. }
  bind. unfold om_or_insert_w_c. cbn [negb occupied vacant_ent Nat.eqb].
  unfold new_and_insert_c. cbn [andb]. rewrite (proj2 (Nat.eqb_neq (m + 2) 0)) by lia. cbn [negb].
  destruct (insert_shape Z.compare total_preorder_Z kept 0 s1 (filled d m) _ (signed d m, 0) (m + 2) _ _ Hr1 ltac:(split; [lia|]; split; [lia|by apply filled_unused]) Hab)
    as (s2 & i & t & -> & Hg & Hr2).
  bind. eexists s2, _. split; [done|].
  replace (filled d (S m)) with (set_elems (set_val (filled d m) (m + 2) (signed d m, 0))
    ((if d then elems (filled d m) else []) ++ (m + 2) :: (if d then [] else elems (filled d m)))) by (cbn [filled]; by destruct d).
  replace (chain d (down (S m))) with t; [done|]. clear Hr2 Hr1 Hr.
  change (chain d (down (S m))) with (mk d (chain d (down m)) (m + 2) E).
  change (<[m + 2 := (signed d m, 0)]> (vals (filled d m))) with (vals (filled d (S m))) in Hg.
  remember (chain d (down m)) as t0 eqn:Ht0. destruct Hg as [|t0 i a x b kx d' u v Hf Hx Hd Hmk]; [by destruct d|].
  destruct m as [|m].
  { subst t0. by inversion Hf; destruct d0. }
  subst t0. apply falls_top in Hf as Hsame; [|cbn [fst]; rewrite keyc_filled by lia; apply signed_cmp; lia].
  assert (x = m + 2) as ->. { apply (f_equal (ptr nil)) in Hsame. by rewrite ptr_mk in Hsame. }
  rewrite (filled_val d (S (S m)) m) in Hx by lia. injection Hx as <-. cbn [fst] in Hd. rewrite signed_cmp in Hd by lia.
  assert (d' = d) as -> by (by destruct d). rewrite Hsame in Hmk. by apply mk_inj in Hmk as (<- & _ & <-).
Qed.

Lemma fills_run d m : exists s rs w, om_run_c Z.compare true om_init (fills d m) = Ok ((s, rs), w) /\
  reprT s (filled d m) (chain d (down m)).
Proof.
  assert (forall j, j <= m -> forall s, reprT s (filled d (m - j)) (chain d (down (m - j))) ->
    exists s' rs w, om_run_c Z.compare true s (map (fill d) (seq (m - j) j)) = Ok ((s', rs), w) /\
      reprT s' (filled d m) (chain d (down m))) as H.
  { induction j as [|j IH]; intros Hj s Hr.
    - rewrite Nat.sub_0_r in Hr. by exists s, [], idle.
    - destruct (fill_step s d (m - S j) Hr) as (s1 & w1 & H1 & Hr1).
      replace (S (m - S j)) with (m - j) in Hr1 by lia.
      destruct (IH ltac:(lia) s1 Hr1) as (s2 & rs & w2 & H2 & Hr2).
      eexists s2, _, _. split; [|done]. cbn [seq map om_run_c]. rewrite H1. bind.
      replace (S (m - S j)) with (m - j) by lia. rewrite H2. bind. reflexivity. }
  destruct (H m (le_n _) om_init) as (s & rs & w & Hrun & Hr).
  { rewrite Nat.sub_diag. apply reprT_init. }
  rewrite Nat.sub_diag in Hrun. by exists s, rs, w.
Qed.

Lemma fills_calls d n m : m <= n -> exists rs, calls_within Z.compare kept n start (fills d m) rs (filled d m).
Proof.
  intros Hm.
  assert (forall j, j <= m -> exists rs, calls_within Z.compare kept n (filled d (m - j)) (map (fill d) (seq (m - j) j)) rs (filled d m)) as H.
  { induction j as [|j IH]; intros Hj.
    - rewrite Nat.sub_0_r. exists []. apply within_nil. by rewrite filled_length.
    - destruct (IH ltac:(lia)) as [rs Hrs]. eexists (_ :: rs). cbn [seq map].
      replace (S (m - S j)) with (m - j) by lia.
      eapply within_cons; [rewrite filled_length; lia|apply fill_call|].
      by replace (S (m - S j)) with (m - j) by lia. }
  destruct (H m (le_n _)) as [rs Hrs]. rewrite Nat.sub_diag in Hrs. by exists rs.
Qed.

(** Repeating a call that stays as dear as it was. *)
Lemma run_c_app {K V} (cmp : K -> K -> comparison) alloc (s s1 s2 : om K V) os1 os2 rs1 rs2 w1 w2 :
  om_run_c cmp alloc s os1 = Ok ((s1, rs1), w1) -> om_run_c cmp alloc s1 os2 = Ok ((s2, rs2), w2) ->
  exists w, om_run_c cmp alloc s (os1 ++ os2) = Ok ((s2, rs1 ++ rs2), w) /\ hops w = hops w1 + hops w2.
Proof.
  revert s rs1 w1. induction os1 as [|o os1 IH]; intros s rs1 w1 H1 H2.
  - injection H1 as <- <- <-. by exists w2.
  - cbn [om_run_c app] in *. destruct (om_step_c cmp alloc s o) as [[[s' r] w]| |]; try done.
    revert H1. bind. destruct (om_run_c cmp alloc s' os1) as [[[s'' rs] w']| |] eqn:Hrun; try done. bind.
    intros [= <- <- <-]. destruct (IH s' rs w' Hrun H2) as (w'' & -> & Hw). bind.
    eexists. split; [done|]. cbn [hops add_work]. rewrite Hw. cbn [hops idle]. lia.
Qed.

Lemma within_app {K V} (cmp : K -> K -> comparison) c n (A B C : view K V) os1 os2 rs1 rs2 :
  calls_within cmp c n A os1 rs1 B -> calls_within cmp c n B os2 rs2 C ->
  calls_within cmp c n A (os1 ++ os2) (rs1 ++ rs2) C.
Proof.
  intros H1 H2. induction H1; [done|]. cbn. by eapply within_cons; [done|eassumption|auto].
Qed.

Lemma within_repeat {K V} (cmp : K -> K -> comparison) c n (A : view K V) o r m :
  length (elems A) <= n -> call cmp c A o r A -> calls_within cmp c n A (repeat o m) (repeat r m) A.
Proof. intros Hn Hc. induction m as [|m IH]; cbn; [by apply within_nil|by eapply within_cons]. Qed.

Lemma run_repeat {K V} (cmp : K -> K -> comparison) alloc (P : om K V -> Prop) o r h :
  (forall s, P s -> exists s' w, om_step_c cmp alloc s o = Ok ((s', r), w) /\ P s' /\ h <= hops w) ->
  forall m s, P s -> exists s' rs w, om_run_c cmp alloc s (repeat o m) = Ok ((s', rs), w) /\ m * h <= hops w.
Proof.
  intros Hstep. induction m as [|m IH]; intros s Hs; [by exists s, [], idle|].
  destruct (Hstep s Hs) as (s1 & w1 & H1 & Hs1 & Hw1). destruct (IH s1 Hs1) as (s2 & rs & w2 & H2 & Hw2).
  eexists s2, _, _. cbn [repeat om_run_c]. rewrite H1. bind. rewrite H2. bind. split; [done|].
  cbn [hops add_work idle]. lia.
Qed.

Lemma square_pow j : 4 <= j -> j * j <= 2 ^ j.
Proof.
  intros Hj. induction Hj as [|j Hj IH]; [cbn; lia|]. rewrite Nat.pow_succ_r'. nia.
Qed.

Lemma outgrows c : exists m, 1 <= m /\ forall h, m <= 2 * h + 1 -> c * ((m + m) * (1 + Nat.log2_up (m + 1))) < m * h.
Proof.
  set (j := 2 * c + 6). pose proof (square_pow j ltac:(lia)) as Hj.
  exists (2 ^ S j - 1). assert (1 <= 2 ^ j) as H1 by lia. rewrite Nat.pow_succ_r'. split; [lia|]. intros h Hh.
  replace (2 * 2 ^ j - 1 + 1) with (2 ^ S j) by (rewrite Nat.pow_succ_r'; lia).
  rewrite Nat.log2_up_pow2 by lia. set (P := 2 ^ j) in *.
  assert (2 * c * (2 + j) + 1 < P) as Hc by (subst j; nia).
  replace (c * ((2 * P - 1 + (2 * P - 1)) * (1 + S j))) with ((2 * P - 1) * (2 * c * (2 + j))) by ring.
  apply Nat.mul_lt_mono_pos_l; lia.
Qed.

(** A call that walks a folded or unfolded chain. *)
Lemma dear d (o : map_op Z nat) (P : nat -> om Z nat -> Prop) (h : nat -> nat) :
  (forall m s, 1 <= m -> reprT s (filled d m) (chain d (down m)) -> P m s) ->
  (forall m, 1 <= m -> exists r, call Z.compare kept (filled d m) o r (filled d m) /\
     forall s, P m s -> exists s' w, om_step_c Z.compare true s o = Ok ((s', r), w) /\ P m s' /\ h m <= hops w) ->
  (forall m, m <= 2 * h m + 1) ->
  forall c, exists n (ops : list (map_op Z nat)) rs A s rs' w,
    calls_within Z.compare kept n start ops rs A /\ om_run_c Z.compare true om_init ops = Ok ((s, rs'), w) /\
    Forall (fun o' => walks o' = true -> o' = o) ops /\
    c * (length ops * (1 + Nat.log2_up (n + 1))) < hops w.
Proof.
  intros HP Hstep Hh c. destruct (outgrows c) as (m & Hm & Hout). specialize (Hout (h m) (Hh m)).
  destruct (fills_run d m) as (s1 & rs1 & w1 & Hrun1 & Hr1). apply HP in Hr1; [|done].
  destruct (Hstep m Hm) as (r' & Hcall & Hs).
  destruct (run_repeat Z.compare true (P m) o r' (h m) Hs m s1 Hr1) as (s2 & rs2 & w2 & Hrun2 & Hw2).
  destruct (run_c_app _ _ _ _ _ _ _ _ _ _ _ Hrun1 Hrun2) as (w & Hrun & Hw).
  destruct (fills_calls d m m (le_n _)) as [rs Hrs].
  exists m, (fills d m ++ repeat o m). eexists _, (filled d m), s2, _, w. split; [|split; [exact Hrun|split]].
  - eapply within_app; [exact Hrs|]. apply within_repeat; [by rewrite filled_length|exact Hcall].
  - apply Forall_app. split.
    + apply Forall_forall. intros o' Ho'. unfold fills in Ho'. apply elem_of_list_fmap in Ho' as (i & -> & _). done.
    + apply Forall_forall. intros o' Ho' _. by apply elem_of_list_In, repeat_spec in Ho'.
  - rewrite app_length, repeat_length. unfold fills. rewrite map_length, seq_length. lia.
Qed.

(** begin and rbegin. *)
Lemma begin_dear (d : bool) c : exists n (ops : list (map_op Z nat)) rs A s rs' w,
  calls_within Z.compare kept n start ops rs A /\ om_run_c Z.compare true om_init ops = Ok ((s, rs'), w) /\
  Forall (fun o => walks o = true -> o = if d then MBegin else MRBegin) ops /\
  c * (length ops * (1 + Nat.log2_up (n + 1))) < hops w.
Proof.
  apply (dear d _ (fun m s => reprT s (filled d m) (chain d (down m))) (fun m => m)); [done| |lia].
  intros m Hm. exists (RPtr (hd 0 (ord d (elems (filled d m))))). split; [destruct d; constructor|].
  intros s Hr. pose proof (begin_cost Z.compare total_preorder_Z kept s _ _ d Hr) as Hb.
  rewrite chain_edge, down_length in Hb.
  exists s. eexists. split; [|split; [done|]].
  - destruct d; cbn [om_step_c]; rewrite Hb; bind; reflexivity.
  - cbn. lia.
Qed.

(** next and rnext. *)
Lemma chain_climb d l : forall c y, next_costs (negb d) c (chain d (l ++ [y])) !! length l = Some (c + length l).
Proof.
  induction l as [|x l IH]; intros c y; cbn [app length]; rewrite chain_other, next_costs_mk; cbn [next_costs app].
  - cbn. by rewrite Nat.add_0_r.
  - cbn [lookup list_lookup]. rewrite IH. f_equal. lia.
Qed.

Lemma next_dear (d : bool) c : exists n (ops : list (map_op Z nat)) rs A s rs' w,
  calls_within Z.compare kept n start ops rs A /\ om_run_c Z.compare true om_init ops = Ok ((s, rs'), w) /\
  Forall (fun o => walks o = true -> o = if d then MNext 2 else MRNext 2) ops /\
  c * (length ops * (1 + Nat.log2_up (n + 1))) < hops w.
Proof.
  apply (dear (negb d) _ (fun m s => reprT s (filled (negb d) m) (chain (negb d) (down m))) (fun m => m)); [done| |lia].
  intros m Hm. destruct m as [|m]; [lia|]. destruct (down_last m) as (l & Hl & Hlen & _).
  assert (ord d (elems (filled (negb d) (S m))) = l ++ [2]) as Ho.
  { rewrite filled_elems, ord_negb, <- ord_negb, Hl. destruct d; cbn [negb ord]; by rewrite ?rev_involutive. }
  exists (RPtr 0). split.
  - destruct d; cbn [ord negb] in *.
    + by apply (call_next Z.compare kept _ 2 l []).
    + apply (f_equal (@rev nat)) in Ho. rewrite rev_involutive, rev_app_distr in Ho. cbn [rev app] in Ho.
      by apply (call_rnext Z.compare kept _ 2 [] (rev l)).
  - intros s Hr. destruct (next_cost Z.compare total_preorder_Z kept s _ _ d 2 l [] Hr Ho) as (i & Hi & Hn).
    rewrite Hl in Hi. pose proof (chain_climb (negb d) l 1 2) as Hc. rewrite negb_involutive in Hc.
    rewrite Hc in Hi. injection Hi as <-. exists s. eexists. split; [|split; [done|]].
    + destruct d; cbn [om_step_c]; rewrite Hn; bind; reflexivity.
    + cbn [hops add_work idle]. lia.
Qed.

(** equal_range and equal_rrange. *)
Lemma range_dear (d : bool) c : exists n (ops : list (map_op Z nat)) rs A s rs' w,
  calls_within Z.compare kept n start ops rs A /\ om_run_c Z.compare true om_init ops = Ok ((s, rs'), w) /\
  Forall (fun o => walks o = true -> o = if d then MRange 0%Z 0%Z else MRRange 0%Z 0%Z) ops /\
  c * (length ops * (1 + Nat.log2_up (n + 1))) < hops w.
Proof.
  apply (dear d _ (fun m s => exists t, reprT s (filled d m) t /\
    (t = chain d (down m) \/ exists u, t = mk d E 2 u /\ m - 1 <= 2 * edge_length (negb d) u)) (fun m => m / 2)).
  { intros m s _ Hr. exists (chain d (down m)). split; [done|by left]. }
  2:{ intros m. cbn beta. pose proof (Nat.div_mod m 2 ltac:(lia)). pose proof (Nat.mod_upper_bound m 2 ltac:(lia)). lia. }
  intros m Hm. destruct m as [|m]; [lia|]. set (A := filled d (S m)).
  assert (exists r, call Z.compare kept A (if d then MRange 0%Z 0%Z else MRRange 0%Z 0%Z) r A) as [r Hcall].
  { destruct d; [destruct (range_exists Z.compare kept A 0 0)%Z as (x & y & H)|destruct (rrange_exists Z.compare kept A 0 0)%Z as (x & y & H)];
      by eexists. }
  exists r. split; [done|]. intros s (t & Hr & Ht).
  assert (elems A <> []) as Hne.
  { intros He. pose proof (filled_length d (S m)) as Hlen. fold A in Hlen. by rewrite He in Hlen. }
  assert (keyc Z.compare (vals A) 0%Z 2 = Eq) as Hmin.
  { unfold A. etrans; [apply (keyc_filled d (S m) 0%Z 0); lia|]. by destruct d. }
  assert (forall s t, reprT s A t -> (t = chain d (down (S m)) \/ exists u, t = mk d E 2 u /\ S m - 1 <= 2 * edge_length (negb d) u) ->
    exists s' w u, splay_s_c Z.compare s (root s) 0%Z = Ok ((s', 2), w) /\ reprT s' A (mk d E 2 u) /\ m <= 2 * edge_length (negb d) u)
    as Hsplay.
  { clear s t Hr Ht. intros s t Hr Ht.
    destruct (splay_root_falls Z.compare total_preorder_Z kept s A t 0%Z Hr Hne) as (s' & a & x & b & kv & i & Hs & Hf & Hr' & _ & _ & Hroot & _).
    assert (exists u, T a x b = mk d E 2 u /\ m <= 2 * edge_length (negb d) u) as (u & Hu & Hlen).
    { destruct Ht as [-> |(u & -> & Hlen)].
      - destruct (down_last m) as (l & Hl & Hlen & Hin). rewrite Hl in Hf.
        apply (falls_chain _ d (length l)) in Hf as (u & Hu & Hlu); [|done| |done].
        + exists u. split; [done|]. lia.
        + intros z Hz. destruct (Hin z Hz) as (j & Hj & ->). unfold A. rewrite keyc_filled by lia.
          pose proof (signed_cmp d 0 j ltac:(lia)) as Hc. rewrite Z.compare_antisym in Hc.
          replace (signed d 0) with 0%Z in Hc by (by destruct d). destruct (0 ?= signed d j)%Z, d; done.
      - exists u. split; [|lia]. unfold mk in Hf. destruct d; apply falls_again in Hf as (_ & -> & -> & ->); done. }
    exists s', (Work i 0), u. rewrite Hu in Hr'. split; [|done].
    assert (x = 2) as -> by (by destruct d; injection Hu). done. }
  destruct (Hsplay s t Hr Ht) as (s1 & w1 & u1 & Hs1 & Hr1 & Hlen1).
  destruct (Hsplay s1 _ Hr1) as (s2 & w2 & u2 & Hs2 & Hr2 & Hlen2).
  { right. exists u1. split; [done|lia]. }
  assert (repr Z.compare kept s A) as Hrs by (by exists t).
  destruct (step_Ok Z.compare total_preorder_Z kept eq_refl s A _ r A eq_refl Hrs Hcall) as (s' & r' & Hstep & Hag & _).
  rewrite <- om_step_erase in Hstep. apply erase_Ok in Hstep as [w Hstep]. exists s', w.
  assert (exists i xy, om_range_c Z.compare s d 0%Z 0%Z = Ok ((s2, xy), Work (turns w1 + turns w2) (hops w1 + hops w2 + i)) /\
    m <= 2 * i) as (i & xy & Hrange & Hi).
  { unfold om_range_c. pose proof Hr as (_ & _ & _ & _ & _ & Hsz & _). rewrite Hsz.
    rewrite (proj2 (Z.eqb_neq _ _)) by (unfold A; rewrite filled_length; lia).
    assert (vals A !! 2 = Some (signed d 0, 0)) as Hv by (apply (filled_val d (S m) 0); lia).
    assert (cmpk Z.compare (vals A) 0%Z 2 = Ok Eq) as Hcmpk.
    { rewrite (cmpk_Ok Z.compare _ _ _ _ Hv). by destruct d. }
    rewrite Hs1. bind. rewrite (repr_vals Z.compare kept s1 A) by (by eexists). rewrite Hcmpk. bind.
    replace (cmp_is Eq (if d then Gt else Lt)) with false by (by destruct d). bind.
    rewrite Hs2. bind. rewrite (repr_vals Z.compare kept s2 A) by (by eexists). rewrite Hcmpk. bind.
    replace (cmp_is Eq (if negb d then Gt else Lt)) with false by (by destruct d).
    pose proof (reprT_NoDup Z.compare total_preorder_Z kept s2 A _ Hr2) as Hnd.
    destruct Hr2 as (Hrep & Hroot & Hn & _).
    destruct (tree_next_cost nil (lk s2) d (mk d E 2 u2) 2 [] (ord d (nodes u2)) Hrep Hnd) as (i & Hi & Hnx).
    { rewrite nodes_mk. by destruct d. }
    rewrite Hroot, Hnx. bind. exists i. eexists. split; [unfold add_work; cbn [turns hops idle]; do 3 f_equal; lia|].
    rewrite next_costs_mk in Hi. cbn in Hi. destruct u2 as [|ul ux ur]; [cbn in Hlen2; lia|]. injection Hi as <-. done. }
  assert (r = r') as <-. { destruct d; inversion Hcall; subst; exact Hag. }
  assert (s' = s2 /\ hops w = hops w1 + hops w2 + i) as [-> Hw].
  { destruct d; cbn [om_step_c] in Hstep; rewrite Hrange in Hstep; destruct xy; revert Hstep; bind; intros [= <- _ <-];
      (split; [done|]); cbn [hops add_work idle]; lia. }
  split; [done|]. split.
  - exists (mk d E 2 u2). split; [done|]. right. exists u2. split; [done|lia].
  - rewrite Hw. pose proof (Nat.div_mod (S m) 2 ltac:(lia)). lia.
Qed.
