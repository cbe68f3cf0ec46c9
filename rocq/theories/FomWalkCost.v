(** The rest of what calls on a flat ordered map cost: calls that follow links, and
    sequences of calls whose walks are dear. *)
From Coq Require Import Arith.
From stdpp Require Import base numbers option gmap fin_maps list.
From Verif Require Import Common LinkHeap PathLemmas OrderSpec MapOps MapSpec TreeModel CostModel CostErase TreeProofs SplayCost
  WalkCost WavlModel WavlNode WavlRank MapProofs MapCases OmProofs OmCost OmWalkCost FlatOps FlatSpec FlatModel FlatProofs FlatCalls FlatCases
  FlatCostSpec WavlCostModel WavlCostErase FlatWalkCost FomModel FomProofs FomHistories FomCostModel FomCostErase FomCost.

Local Ltac bind := cbn [mbind outcome_bind obind cbind still gratis hopping].

(** ** Sizes *)

Section bounds.
Context {K V : Type} (cmp : K -> K -> comparison) (c : fcontract).
Implicit Types (A : fview K V).

Lemma fadded_le A k l1 l2 kv ans p A' : absent_at cmp A k l1 l2 -> fadded c A l1 l2 kv ans p A' -> count A' <= S (count A).
Proof.
  intros Hab [?|? ? ?|? ?]; [..|lia]; rewrite (pushed_count cmp A k) by done; lia.
Qed.
Lemma fremoved_le A k l1 x l2 : present_at cmp A k l1 x l2 -> count (fremoved A l1 x l2) <= S (count A).
Proof. intros (He & _). unfold count. cbn. rewrite He, map_length, !app_length. cbn. lia. Qed.

Lemma fcall_count A o r A' : fcall cmp c A o r A' -> count A' <= S (count A).
Proof.
  destruct 1; try (by eapply fadded_le); try (by eapply fremoved_le); unfold count; cbn; lia.
Qed.

Lemma fcalls_are_within A os rs A' :
  fcalls cmp c A os rs A' -> fcalls_within cmp c (count A + length os) A os rs A'.
Proof.
  assert (forall n, fcalls cmp c A os rs A' -> count A + length os <= n -> fcalls_within cmp c n A os rs A') as H; [|auto].
  intros n Hc. induction Hc as [A|A o r A1 os rs A2 Hc Hcs IH]; cbn [length]; intros Hn.
  - constructor. lia.
  - pose proof (fcall_count _ _ _ _ Hc). econstructor; [lia|done|]. apply IH. lia.
Qed.
End bounds.

(** ** Calls that follow no link *)

Local Ltac silence := unfold is_Some;
  repeat first [ solve [eauto 2 with silent] | apply silent_still | apply silent_gratis | apply silent_UB | apply silent_Fuel
    | apply silent_cbind; [|intros ?] | apply silent_bind; intros ?
    | match goal with |- silent (if ?b then _ else _) => destruct b end
    | match goal with |- silent (match ?b with _ => _ end) => destruct b end ].

Section silence.
Context {K V : Type} (cmp : K -> K -> comparison) (alloc : bool).
Implicit Types (s : flat K V).

Lemma splay_f_silent s r k : silent (splay_f_c cmp s r k).
Proof. unfold splay_f_c. apply silent_bind. intros [[h r'] n]. by intros a w [= <- <-]. Qed.
Local Hint Resolve splay_f_silent : silent.
Lemma detach_f_silent s x : silent (detach_f_c cmp s x).
Proof. unfold detach_f_c. apply silent_bind. intros [[h r'] n]. by intros a w [= <- <-]. Qed.
Local Hint Resolve detach_f_silent : silent.
Lemma fom_find_silent s k : silent (fom_find_c cmp s k).
Proof. unfold fom_find_c. silence. Qed.
Local Hint Resolve fom_find_silent : silent.
Lemma fom_link_silent s u n : silent (fom_link_c cmp s u n).
Proof. unfold fom_link_c. silence. Qed.
Local Hint Resolve fom_link_silent : silent.
Lemma fom_erase_silent s k : silent (fom_erase_c cmp s k).
Proof. unfold fom_erase_c. silence. Qed.
Local Hint Resolve fom_erase_silent : silent.
Lemma maybe_alloc_insert_silent s h u ans : silent (maybe_alloc_insert_c cmp alloc s h u ans).
Proof. unfold maybe_alloc_insert_c. silence. Qed.
Local Hint Resolve maybe_alloc_insert_silent : silent.
Lemma literal_insert_silent s h u ans : silent (literal_insert_c cmp alloc s h u ans).
Proof. unfold literal_insert_c. silence. Qed.
Local Hint Resolve literal_insert_silent : silent.

Lemma fom_step_silent s o : fwalks o = false -> silent (fom_step_c cmp alloc s o).
Proof.
  intros Ho. destruct o; try discriminate Ho; cbn [fom_step_c];
  unfold fom_contains_c, fom_get_c, fom_insert_c, fom_try_insert_c, fom_insert_or_assign_c, fom_remove_c,
    fom_or_insert_c, fom_insert_entry_c, fom_remove_entry_c, fom_or_insert_w_c, fom_insert_entry_w_c, fom_try_insert_w_c,
    fom_insert_or_assign_w_c, fom_entry_c, fom_remove_at_c; silence.
Qed.

Lemma fom_run_silent s os : Forall (fun o => fwalks o = false) os -> silent (fom_run_c cmp alloc s os).
Proof.
  intros Hos. revert s. induction Hos as [|o os Ho Hos IH]; intros s; cbn [fom_run_c]; [silence|].
  apply silent_cbind; [by apply fom_step_silent|]. intros []. apply silent_cbind; [done|]. intros []. silence.
Qed.
End silence.

(** ** A search repeated, and walks *)

(** The shape of a splay does not depend on the name of the sentinel. *)
Lemma ptr_E p q t : t <> E -> ptr p t = ptr q t.
Proof. by destruct t. Qed.
Lemma falls_sentinel p q g t i a x b : falls p g t i a x b -> falls q g t i a x b.
Proof.
  induction 1 as [| |? ? ? ? ? ? ? ? ? Hne ?| |]; [by constructor..| | |]; try (by constructor).
  constructor; [done..| |done]. by rewrite (ptr_E q p _ Hne).
Qed.

Section walks.
Context {K V : Type} (cmp : K -> K -> comparison) (Hcmp : total_preorder cmp).
Notation kept := fom_contract.
Implicit Types (ops : list (flat_op K V)) (A : fview K V) (s : flat K V).
Local Notation reprT := (FlatProofs.reprT cmp tree_ok).

Lemma fom_get_again s A t k l1 x l2 :
  reprT s A t -> present_at cmp A k l1 x l2 ->
  exists s1 s2 w1, fom_get_c cmp s k = Ok ((s1, Some x), w1) /\ fom_get_c cmp s1 k = Ok ((s2, Some x), Work 1 0).
Proof.
  intros Hr Hp. unfold fom_get_c, fom_find_c.
  rewrite (root_empty cmp s A t Hr), (empty_no cmp s A t Hr (present_ne cmp A k _ _ _ Hp)).
  destruct (splay_present_c cmp Hcmp s A t k l1 x l2 Hr Hp) as (w & a & b & kv & m & -> & _ & Hr' & _ & _ & Hx & Hc). bind.
  set (s1 := set_tr s w) in *. change (dat s1) with (dat s). rewrite Hc. bind. cbn [is_eq].
  exists s1. rewrite (root_empty cmp s1 A _ Hr'), (empty_no cmp s1 A _ Hr' (present_ne cmp A k _ _ _ Hp)).
  destruct (splay_present_c cmp Hcmp s1 A _ k l1 x l2 Hr' Hp) as (w2 & a2 & b2 & kv2 & m2 & -> & Hf & _ & _ & _ & _ & Hc2).
  assert (keyc cmp (dat s1) k x = Eq) as Hkey.
  { unfold keyc. change (dat s1) with (dat s). revert Hc. unfold cmpk, value. destruct (dat s !! x); cbn; [by intros [= ->]|done]. }
  apply (falls_sentinel 0 OmModel.nil) in Hf. apply falls_again in Hf as (-> & _); [|done]. bind.
  change (dat (set_tr s1 w2)) with (dat s1). rewrite Hc2. bind. cbn [is_eq]. by eexists _, _.
Qed.

Lemma fom_history_again (alloc : bool) n junk ops rs A k l1 x l2 :
  fcalls cmp (kept alloc) (fstart n) ops rs A -> present_at cmp A k l1 x l2 ->
  exists s rs' s1 s2 w1, fom_run cmp alloc (flat_init n junk) ops = Ok (s, rs') /\
    fom_get_c cmp s k = Ok ((s1, Some x), w1) /\ fom_get_c cmp s1 k = Ok ((s2, Some x), Work 1 0).
Proof.
  intros Hc Hp. destruct (fom_history_repr cmp Hcmp alloc n junk ops rs A Hc) as (s & rs' & Hrun & _ & [t Hr]).
  destruct (fom_get_again s A t k l1 x l2 Hr Hp) as (s1 & s2 & w1 & ? & ?). by exists s, rs', s1, s2, w1.
Qed.

Lemma fom_history_iter (alloc : bool) n junk ops rs A d :
  fcalls cmp (kept alloc) (fstart n) ops rs A ->
  exists s rs' ps w, fom_run cmp alloc (flat_init n junk) ops = Ok (s, rs') /\ flat_iter_c s d = Ok (ps, w) /\
    flat_iter s d = Ok ps /\ turns w = 0 /\ hops w <= 2 * length ps.
Proof.
  intros Hc. destruct (fom_history_repr cmp Hcmp alloc n junk ops rs A Hc) as (s & rs' & Hrun & _ & Hr).
  destruct (flat_iter_cost cmp tree_ok fom_seal fom_tree s A d Hr) as (ps & w & Hi & _ & Ht & Hh).
  exists s, rs', ps, w. split_and!; try done.
  rewrite <- flat_iter_erase. apply erase_Ok. by exists w.
Qed.

Lemma fom_history_begin (alloc : bool) n junk ops rs A d :
  fcalls cmp (kept alloc) (fstart n) ops rs A ->
  exists s rs' x w, fom_run cmp alloc (flat_init n junk) ops = Ok (s, rs') /\ flat_begin_c s d = Ok (x, w) /\
    turns w = 0 /\ hops w <= count A.
Proof.
  intros Hc. destruct (fom_history_repr cmp Hcmp alloc n junk ops rs A Hc) as (s & rs' & Hrun & _ & [t Hr]).
  eexists s, rs', _, _. split; [done|]. split; [by apply (flat_begin_cost cmp tree_ok fom_seal fom_tree s A t)|]. split; [done|].
  cbn [hops]. unfold count. rewrite <- (reprT_nodes cmp tree_ok s A t Hr). apply edge_length_le.
Qed.

Lemma fom_history_next (alloc : bool) n junk ops rs A (d : bool) x l1 l2 :
  fcalls cmp (kept alloc) (fstart n) ops rs A -> (if d then elems (fv A) else rev (elems (fv A))) = l1 ++ x :: l2 ->
  exists s rs' w, fom_run cmp alloc (flat_init n junk) ops = Ok (s, rs') /\ flat_next_c s d x = Ok (hd 0 l2, w) /\
    turns w = 0 /\ hops w <= count A.
Proof.
  intros Hc Ho. destruct (fom_history_repr cmp Hcmp alloc n junk ops rs A Hc) as (s & rs' & Hrun & _ & [t Hr]).
  destruct (flat_next_cost cmp tree_ok fom_seal fom_tree s A t d x l1 l2 Hr Ho) as (i & Hi & Hn).
  eexists s, rs', _. split; [done|]. split; [exact Hn|]. split; [done|].
  cbn [hops]. unfold count. rewrite <- (reprT_nodes cmp tree_ok s A t Hr).
  apply elem_of_list_lookup_2, next_costs_le in Hi; lia.
Qed.
End walks.

(** ** Insertions in order make a chain *)

(** A map of [r] slots filled with [m] elements in ascending ([d]) or descending
    order. *)
Fixpoint laden (d : bool) (r m : nat) : fview Z nat :=
  match m with
  | 0 => fstart r
  | S m => let A := laden d r m in
           pushed A (if d then elems (fv A) else []) (if d then [] else elems (fv A)) (signed d m, 0) r
  end.
Definition load (d : bool) (m : nat) : flat_op Z nat := FInsert (Node 0 0 0 false, (signed d m, 0)) None.
Definition loads (d : bool) (m : nat) : list (flat_op Z nat) := map (load d) (seq 0 m).

Lemma laden_elems d r m : elems (fv (laden d r m)) = ord d (seq 1 m).
Proof.
  induction m as [|m IH]; [by destruct d|]. cbn [laden pushed fv elems set_elems]. unfold count.
  rewrite IH, ord_length, seq_length, seq_S. destruct d; cbn [ord]; [done|]. by rewrite rev_app_distr.
Qed.
Lemma laden_count d r m : count (laden d r m) = m.
Proof. unfold count. by rewrite laden_elems, ord_length, seq_length. Qed.
Lemma laden_room d r m : room (laden d r m) = r.
Proof. by destruct m. Qed.
Lemma laden_val d r m i : i < m -> vals (fv (laden d r m)) !! S i = Some (signed d i, 0).
Proof.
  intros Hi. induction m as [|m IH]; [lia|]. cbn [laden pushed fv vals set_elems set_val]. rewrite laden_count.
  destruct (decide (i = m)) as [-> |]; [by rewrite lookup_insert|]. rewrite lookup_insert_ne by lia. apply IH. lia.
Qed.

Lemma laden_absent d r m : absent_at Z.compare (laden d r m) (signed d m)
  (if d then elems (fv (laden d r m)) else []) (if d then [] else elems (fv (laden d r m))).
Proof.
  assert (forall x, x ∈ elems (fv (laden d r m)) -> keyed Z.compare (fv (laden d r m)) (dirc d) (signed d m) x) as H.
  { intros x Hx. rewrite laden_elems in Hx. apply elem_of_ord, elem_of_seq in Hx. destruct x as [|x]; [lia|].
    exists (signed d x, 0). split; [apply laden_val; lia|]. cbn [fst]. apply signed_cmp. lia. }
  destruct d; (split; [by rewrite ?app_nil_r|]); (split; [|]); try (by constructor); apply Forall_forall; exact H.
Qed.

Lemma laden_call c d r m : m + 2 <= r ->
  fcall Z.compare c (laden d r m) (load d m) (XEnt false false None (Some (signed d m, 0))) (laden d r (S m)).
Proof.
  intros Hr. eapply (fcall_insert_new Z.compare c (laden d r m) (Node 0 0 0 false) (signed d m, 0) None
    (if d then elems (fv (laden d r m)) else []) (if d then [] else elems (fv (laden d r m))) (Some (S m))).
  - apply laden_absent.
  - pose proof (fadded_room c (laden d r m) (if d then elems (fv (laden d r m)) else [])
      (if d then [] else elems (fv (laden d r m))) (signed d m, 0) None) as H.
    rewrite laden_room, laden_count in H. apply H. lia.
Qed.

Lemma loads_calls c d r n m : m + 1 <= r -> m <= n ->
  exists rs, fcalls_within Z.compare c n (fstart r) (loads d m) rs (laden d r m).
Proof.
  intros Hr Hn.
  assert (forall j, j <= m -> exists rs, fcalls_within Z.compare c n (laden d r (m - j)) (map (load d) (seq (m - j) j)) rs (laden d r m)) as H.
  { induction j as [|j IH]; intros Hj.
    - rewrite Nat.sub_0_r. exists []. apply fwithin_nil. by rewrite laden_count.
    - destruct (IH ltac:(lia)) as [rs Hrs]. eexists (_ :: rs). cbn [seq map].
      replace (S (m - S j)) with (m - j) by lia.
      eapply fwithin_cons; [rewrite laden_count; lia|apply laden_call; lia|].
      by replace (S (m - S j)) with (m - j) by lia. }
  destruct (H m (le_n _)) as [rs Hrs]. rewrite Nat.sub_diag in Hrs. by exists rs.
Qed.

Notation bare := (fom_contract false).
Local Notation reprT := (FlatProofs.reprT Z.compare tree_ok).

Fixpoint downf (m : nat) : list nat := match m with 0 => [] | S m => S m :: downf m end.
Lemma downf_length m : length (downf m) = m.
Proof. induction m; cbn; congruence. Qed.
Lemma downf_rev m : rev (downf m) = seq 1 m.
Proof. induction m as [|m IH]; [done|]. cbn [downf rev]. by rewrite IH, seq_S. Qed.
Lemma downf_last m : exists l, downf (S m) = l ++ [1] /\ length l = m /\ forall x, x ∈ l -> exists i, 0 < i <= m /\ x = S i.
Proof.
  induction m as [|m IH].
  - exists []. split_and!; [done..|]. by intros ? ?%elem_of_nil.
  - destruct IH as (l & Hl & Hlen & Hin). exists (S (S m) :: l). split; [|split].
    + change (downf (S (S m))) with (S (S m) :: downf (S m)). by rewrite Hl.
    + cbn. by rewrite Hlen.
    + intros x [-> |Hx]%elem_of_cons; [exists (S m); split; [lia|done]|].
      destruct (Hin x Hx) as (i & ? & ->). exists i. split; [lia|done].
Qed.

Lemma reprT_dat (s : flat Z nat) A t x : reprT s A t -> x ∈ elems (fv A) -> dat s !! x = vals (fv A) !! x.
Proof. intros Hr Hx. destruct (reprT_born Z.compare tree_ok s A t x Hr Hx) as ((_ & _ & Hd & _) & _). by apply Hd. Qed.

Lemma laden_dat (s : flat Z nat) d r m t i : reprT s (laden d r m) t -> i < m -> dat s !! S i = Some (signed d i, 0).
Proof.
  intros Hr Hi. rewrite (reprT_dat s _ t) by (try done; rewrite laden_elems; apply elem_of_ord, elem_of_seq; lia).
  by apply laden_val.
Qed.

Lemma falls_top0 g d a x i l z r : falls 0 g (mk d a x E) i l z r -> g x = dirc d -> T l z r = mk d a x E.
Proof. intros Hf. by apply (falls_top g d a x i l z r), (falls_sentinel 0). Qed.

Lemma load_step (s : flat Z nat) d r m :
  m + 2 <= r -> reprT s (laden d r m) (chain d (downf m)) ->
  exists s' r' w, fom_step_c Z.compare false s (load d m) = Ok ((s', r'), w) /\
    reprT s' (laden d r (S m)) (chain d (downf (S m))).
Proof.
  intros Hroom Hr. pose proof (laden_absent d r m) as Hab. unfold load. cbn [fom_step_c]. unfold fom_insert_c. cbn [fst snd].
  set (A := laden d r m) in *.
  assert (exists s1 w1, fom_find_c Z.compare s (signed d m) = Ok ((s1, None, tt), w1) /\ reprT s1 A (chain d (downf m)))
    as (s1 & w1 & -> & Hr1).
  { unfold fom_find_c. rewrite (root_empty Z.compare s A _ Hr), (empty_elems Z.compare s A _ Hr).
    destruct (bool_decide_reflect (elems (fv A) = [])) as [He|Hne]; [by exists s, idle|].
    destruct m as [|m]; [by destruct Hne; destruct d|].
    destruct (splay_absent_c Z.compare total_preorder_Z s A _ _ _ _ Hr Hab Hne) as (w & a & x & b & cr & i & -> & Hf & Hr1 & Hc & Hcr).
    apply falls_top0 in Hf as Hsame.
    - rewrite Hsame in Hr1. bind. cbn [dat set_tr]. rewrite Hc. bind. rewrite is_eq_ne by done. by eexists _, _.
    - unfold keyc. rewrite (laden_dat s d r (S m) _ m Hr) by lia. cbn [fst]. apply signed_cmp. lia. }
  bind. unfold maybe_alloc_insert_c.
  assert (allowed bare A None) as Hal. { left. unfold A. rewrite laden_room, laden_count. lia. }
  destruct (alloc_allowed Z.compare bare tree_ok fom_seal fom_tree s1 A _ None Hr1 Hal) as (s2 & Hback & Hcore & Hsz & Hle & Hd).
  cbn [grows fom_contract] in Hback. rewrite Hback. bind.
  destruct (linked_c_Ok Z.compare total_preorder_Z (S (count A)) s2 A _ _ _ (Node 0 0 0 false) (signed d m, 0) _ Hcore Hab Hsz Hle ltac:(lia))
    as (s3 & s4 & t' & w & Hw & Hl & _ & Hr' & Hg).
  replace (sz s2 - 1) with (S (count A)) by lia. unfold cell_of. cbn [fst snd]. rewrite Hw. bind. rewrite Hl. bind. cbn [look fp focc ferr cell_of fst snd]. bind.
  eexists s4, _, _. split; [done|].
  replace (room_for A) with r in Hr' by (unfold room_for, A; rewrite laden_room, laden_count; by rewrite (proj2 (Nat.ltb_ge r (S (S m)))) by lia).
  replace (chain d (downf (S m))) with t'; [done|].
  change (chain d (downf (S m))) with (mk d (chain d (downf m)) (S m) E).
  remember (chain d (downf m)) as t0 eqn:Ht0. replace (S (count A)) with (S m) in Hg by (by unfold A; rewrite laden_count).
  destruct Hg as [|t0 i a x b kx u v Hf Hx Hmk]; [by destruct d|].
  destruct m as [|m].
  { subst t0. by inversion Hf; destruct d0. }
  subst t0. assert (forall i, i < S m -> (<[S (S m) := (signed d (S m), 0)]> (dat s2)) !! S i = Some (signed d i, 0)) as Hdat.
  { intros j Hj. rewrite lookup_insert_ne by lia. rewrite Hd. by apply (laden_dat s1 d r (S m) _ j Hr1). }
  apply falls_top0 in Hf as Hsame.
  2:{ unfold keyc. change (fst (signed d (S m), 0)) with (signed d (S m)). rewrite Hdat by lia. apply signed_cmp. lia. }
  assert (x = S m) as ->. { apply (f_equal (ptr 0)) in Hsame. by rewrite ptr_mk in Hsame. }
  rewrite Hdat in Hx by lia. injection Hx as <-. cbn [fst] in Hmk |- *. rewrite signed_cmp in Hmk |- * by lia.
  assert (is_gt (dirc d) = d) as Hdd by (by destruct d). rewrite Hdd in *.
  rewrite Hsame in Hmk. by apply mk_inj in Hmk as (<- & _ & <-).
Qed.

Definition blank (_ : nat) : fnode := Node 0 0 0 false.

Lemma loads_run d r m : m + 1 <= r -> exists s rs w, fom_run_c Z.compare false (flat_init r blank) (loads d m) = Ok ((s, rs), w) /\
  reprT s (laden d r m) (chain d (downf m)).
Proof.
  intros Hm.
  assert (forall j, j <= m -> forall s, reprT s (laden d r (m - j)) (chain d (downf (m - j))) ->
    exists s' rs w, fom_run_c Z.compare false s (map (load d) (seq (m - j) j)) = Ok ((s', rs), w) /\
      reprT s' (laden d r m) (chain d (downf m))) as H.
  { induction j as [|j IH]; intros Hj s Hr.
    - rewrite Nat.sub_0_r in Hr. by exists s, [], idle.
    - destruct (load_step s d r (m - S j) ltac:(lia) Hr) as (s1 & r1 & w1 & H1 & Hr1).
      replace (S (m - S j)) with (m - j) in Hr1 by lia.
      destruct (IH ltac:(lia) s1 Hr1) as (s2 & rs & w2 & H2 & Hr2).
      eexists s2, _, _. split; [|done]. cbn [seq map fom_run_c]. rewrite H1. bind.
      replace (S (m - S j)) with (m - j) by lia. rewrite H2. bind. reflexivity. }
  destruct (H m (le_n _) (flat_init r blank)) as (s & rs & w & Hrun & Hr).
  { rewrite Nat.sub_diag. destruct (@repr_init Z nat Z.compare tree_ok r blank) as [t Hs].
    apply reprT_nodes in Hs as Hn. destruct t as [|u ? ?]; [done|]. cbn in Hn. by destruct (nodes u). }
  rewrite Nat.sub_diag in Hrun. by exists s, rs, w.
Qed.

(** Repeating a call that stays as dear as it was. *)
Lemma frun_c_app {K V} (cmp : K -> K -> comparison) alloc (s s1 s2 : flat K V) os1 os2 rs1 rs2 w1 w2 :
  fom_run_c cmp alloc s os1 = Ok ((s1, rs1), w1) -> fom_run_c cmp alloc s1 os2 = Ok ((s2, rs2), w2) ->
  exists w, fom_run_c cmp alloc s (os1 ++ os2) = Ok ((s2, rs1 ++ rs2), w) /\ hops w = hops w1 + hops w2.
Proof.
  revert s rs1 w1. induction os1 as [|o os1 IH]; intros s rs1 w1 H1 H2.
  - injection H1 as <- <- <-. by exists w2.
  - cbn [fom_run_c app] in *. destruct (fom_step_c cmp alloc s o) as [[[s' r] w]| |]; try done.
    revert H1. bind. destruct (fom_run_c cmp alloc s' os1) as [[[s'' rs] w']| |] eqn:Hrun; try done. bind.
    intros [= <- <- <-]. destruct (IH s' rs w' Hrun H2) as (w'' & -> & Hw). bind.
    eexists. split; [done|]. cbn [hops add_work]. rewrite Hw. cbn [hops idle]. lia.
Qed.

Lemma fwithin_app {K V} (cmp : K -> K -> comparison) c n (A B C : fview K V) os1 os2 rs1 rs2 :
  fcalls_within cmp c n A os1 rs1 B -> fcalls_within cmp c n B os2 rs2 C ->
  fcalls_within cmp c n A (os1 ++ os2) (rs1 ++ rs2) C.
Proof.
  intros H1 H2. induction H1; [done|]. cbn. by eapply fwithin_cons; [done|eassumption|auto].
Qed.

Lemma fwithin_repeat {K V} (cmp : K -> K -> comparison) c n (A : fview K V) o r m :
  count A <= n -> fcall cmp c A o r A -> fcalls_within cmp c n A (repeat o m) (repeat r m) A.
Proof. intros Hn Hc. induction m as [|m IH]; cbn; [by apply fwithin_nil|by eapply fwithin_cons]. Qed.

Lemma frun_repeat {K V} (cmp : K -> K -> comparison) alloc (P : flat K V -> Prop) o h :
  (forall s, P s -> exists s' r w, fom_step_c cmp alloc s o = Ok ((s', r), w) /\ P s' /\ h <= hops w) ->
  forall m s, P s -> exists s' rs w, fom_run_c cmp alloc s (repeat o m) = Ok ((s', rs), w) /\ m * h <= hops w.
Proof.
  intros Hstep. induction m as [|m IH]; intros s Hs; [by exists s, [], idle|].
  destruct (Hstep s Hs) as (s1 & r & w1 & H1 & Hs1 & Hw1). destruct (IH s1 Hs1) as (s2 & rs & w2 & H2 & Hw2).
  eexists s2, _, _. cbn [repeat fom_run_c]. rewrite H1. bind. rewrite H2. bind. split; [done|].
  cbn [hops add_work idle]. lia.
Qed.

(** A call that walks a folded or unfolded chain. *)
Definition dearly (o : flat_op Z nat) (c : nat) : Prop :=
  exists r n (ops : list (flat_op Z nat)) rs A s rs' w,
    fcalls_within Z.compare bare n (fstart r) ops rs A /\
    fom_run_c Z.compare false (flat_init r (fun _ => Node 0 0 0 false)) ops = Ok ((s, rs'), w) /\
    Forall (fun o' => fwalks o' = true -> o' = o) ops /\
    c * (length ops * (1 + Nat.log2_up (n + 1))) < hops w.

Lemma fdear d (o : flat_op Z nat) (P : nat -> flat Z nat -> Prop) (h : nat -> nat) :
  (forall m s, 1 <= m -> reprT s (laden d (m + 1) m) (chain d (downf m)) -> P m s) ->
  (forall m, 1 <= m -> exists r, fcall Z.compare bare (laden d (m + 1) m) o r (laden d (m + 1) m)) ->
  (forall m, 1 <= m -> 
     forall s, P m s -> exists s' r w, fom_step_c Z.compare false s o = Ok ((s', r), w) /\ P m s' /\ h m <= hops w) ->
  (forall m, m <= 2 * h m + 1) ->
  forall c, dearly o c.
Proof.
  intros HP Hcall Hstep Hh c. destruct (outgrows c) as (m & Hm & Hout). specialize (Hout (h m) (Hh m)).
  destruct (loads_run d (m + 1) m (le_n _)) as (s1 & rs1 & w1 & Hrun1 & Hr1). apply HP in Hr1; [|done].
  destruct (Hcall m Hm) as (r' & Hr').
  destruct (frun_repeat Z.compare false (P m) o (h m) (Hstep m Hm) m s1 Hr1) as (s2 & rs2 & w2 & Hrun2 & Hw2).
  destruct (frun_c_app _ _ _ _ _ _ _ _ _ _ _ Hrun1 Hrun2) as (w & Hrun & Hw).
  destruct (loads_calls bare d (m + 1) m m (le_n _) (le_n _)) as [rs Hrs].
  exists (m + 1), m, (loads d m ++ repeat o m). eexists _, (laden d (m + 1) m), s2, _, w. split; [|split; [exact Hrun|split]].
  - eapply fwithin_app; [exact Hrs|]. apply fwithin_repeat; [by rewrite laden_count|exact Hr'].
  - apply Forall_app. split.
    + apply Forall_forall. intros o' Ho'. unfold loads in Ho'. apply elem_of_list_fmap in Ho' as (i & -> & _). done.
    + apply Forall_forall. intros o' Ho' _. by apply elem_of_list_In, repeat_spec in Ho'.
  - rewrite app_length, repeat_length. unfold loads. rewrite map_length, seq_length. lia.
Qed.

(** begin and rbegin. *)
Lemma fbegin_dear (d : bool) c : dearly (if d then FBegin else FRBegin) c.
Proof.
  apply (fdear d _ (fun m s => reprT s (laden d (m + 1) m) (chain d (downf m))) (fun m => m)); [done|..|lia].
  - intros m Hm. destruct d; eexists; constructor.
  - intros m Hm s Hr. pose proof (flat_begin_cost Z.compare tree_ok fom_seal fom_tree s _ _ d Hr) as Hb.
    rewrite chain_edge, downf_length in Hb. exists s.
    destruct d; cbn [fom_step_c]; rewrite Hb; bind; (eexists _, _; split; [reflexivity|split; [done|cbn; lia]]).
Qed.

(** next and rnext. *)
Lemma fnext_dear (d : bool) c : dearly (if d then FNext 1 else FRNext 1) c.
Proof.
  apply (fdear (negb d) _ (fun m s => reprT s (laden (negb d) (m + 1) m) (chain (negb d) (downf m))) (fun m => m)); [done|..|lia];
    intros m Hm; (destruct m as [|m]; [lia|]); destruct (downf_last m) as (l & Hl & Hlen & _);
    assert (ord d (elems (fv (laden (negb d) (S m + 1) (S m)))) = l ++ [1]) as Ho
      by (rewrite laden_elems, <- downf_rev, ord_negb, <- ord_negb, Hl; destruct d; cbn [negb ord]; by rewrite ?rev_involutive).
  - destruct d; cbn [ord negb] in *.
    + eexists. by apply (fcall_next Z.compare bare _ 1 l []).
    + apply (f_equal (@rev nat)) in Ho. rewrite rev_involutive, rev_app_distr in Ho. cbn [rev app] in Ho.
      eexists. by apply (fcall_rnext Z.compare bare _ 1 [] (rev l)).
  - intros s Hr. destruct (flat_next_cost Z.compare tree_ok fom_seal fom_tree s _ _ d 1 l [] Hr Ho) as (i & Hi & Hn).
    rewrite Hl in Hi. pose proof (chain_climb (negb d) l 1 1) as Hc. rewrite negb_involutive in Hc.
    rewrite Hc in Hi. injection Hi as <-. exists s.
    destruct d; cbn [fom_step_c]; rewrite Hn; bind; (eexists _, _; split; [reflexivity|split; [done|cbn; lia]]).
Qed.

(** equal_range and equal_rrange. *)
Lemma frange_dear (d : bool) c : dearly (if d then FRange 0%Z 0%Z else FRRange 0%Z 0%Z) c.
Proof.
  apply (fdear d _ (fun m s => exists t, reprT s (laden d (m + 1) m) t /\
    (t = chain d (downf m) \/ exists u, t = mk d E 1 u /\ m - 1 <= 2 * edge_length (negb d) u)) (fun m => m / 2)).
  { intros m s _ Hr. exists (chain d (downf m)). split; [done|by left]. }
  3:{ intros m. cbn beta. pose proof (Nat.div_mod m 2 ltac:(lia)). pose proof (Nat.mod_upper_bound m 2 ltac:(lia)). lia. }
  { intros m Hm. destruct d.
    - destruct (range_exists Z.compare (Contract true true true) (fv (laden true (m + 1) m)) 0 0)%Z as (x & y & H). inversion H; subst.
      eexists. by constructor.
    - destruct (rrange_exists Z.compare (Contract true true true) (fv (laden false (m + 1) m)) 0 0)%Z as (x & y & H). inversion H; subst.
      eexists. by constructor. }
  intros m Hm. destruct m as [|m]; [lia|]. set (A := laden d (S m + 1) (S m)). intros s (t & Hr & Ht).
  assert (elems (fv A) <> []) as Hne.
  { intros He. pose proof (laden_count d (S m + 1) (S m)) as Hlen. unfold count in Hlen. fold A in Hlen. by rewrite He in Hlen. }
  assert (forall s t, reprT s A t -> keyc Z.compare (dat s) 0%Z 1 = Eq /\ cmpk Z.compare (dat s) 0%Z 1 = Ok Eq) as Hmin.
  { intros s0 t0 Hr0. pose proof (laden_dat s0 d _ _ _ 0 Hr0 ltac:(lia)) as Hv. split.
    - unfold keyc. rewrite Hv. by destruct d.
    - rewrite (cmpk_Ok Z.compare _ _ _ _ Hv). by destruct d. }
  assert (forall s t, reprT s A t -> (t = chain d (downf (S m)) \/ exists u, t = mk d E 1 u /\ S m - 1 <= 2 * edge_length (negb d) u) ->
    exists s' i u, splay_f_c Z.compare s (wroot (tr s)) 0%Z = Ok ((s', 1), Work i 0) /\ reprT s' A (mk d E 1 u) /\ m <= 2 * edge_length (negb d) u)
    as Hsplay.
  { clear s t Hr Ht. intros s t Hr Ht. destruct (Hmin s t Hr) as [Hm1 _].
    destruct (splay_repr_c Z.compare total_preorder_Z s A t 0%Z Hr Hne) as (w & a & x & b & kv & i & Hs & Hf & Hr' & _).
    apply (falls_sentinel 0 OmModel.nil) in Hf.
    assert (exists u, T a x b = mk d E 1 u /\ m <= 2 * edge_length (negb d) u) as (u & Hu & Hlen).
    { destruct Ht as [-> |(u & -> & Hlen)].
      - destruct (downf_last m) as (l & Hl & Hlen & Hin). rewrite Hl in Hf.
        apply (falls_chain _ d (length l)) in Hf as (u & Hu & Hlu); [|done| |done].
        + exists u. split; [done|]. lia.
        + intros z Hz. destruct (Hin z Hz) as (j & Hj & ->). unfold keyc.
          rewrite (laden_dat s d _ _ _ j Hr) by lia. cbn [fst].
          pose proof (signed_cmp d 0 j ltac:(lia)) as Hc. rewrite Z.compare_antisym in Hc.
          replace (signed d 0) with 0%Z in Hc by (by destruct d). destruct (0 ?= signed d j)%Z, d; done.
      - exists u. split; [|lia]. unfold mk in Hf. destruct d; apply falls_again in Hf as (_ & -> & -> & ->); done. }
    exists (set_tr s w), i, u. rewrite Hu in Hr'. split; [|done].
    assert (x = 1) as -> by (by destruct d; injection Hu). done. }
  destruct (Hsplay s t Hr Ht) as (s1 & i1 & u1 & Hs1 & Hr1 & Hlen1).
  destruct (Hsplay s1 _ Hr1) as (s2 & i2 & u2 & Hs2 & Hr2 & Hlen2).
  { right. exists u1. split; [done|lia]. }
  assert (exists i y, fom_range_c Z.compare s d 0%Z 0%Z = Ok ((s2, Some 1, Some y), Work (i1 + i2) i) /\ m <= 2 * i) as (i & y & Hrange & Hi).
  { unfold fom_range_c. rewrite (empty_elems Z.compare s A t Hr), bool_decide_eq_false_2 by done.
    rewrite Hs1. bind. destruct (Hmin s1 _ Hr1) as [_ ->]. bind.
    replace (cmp_is Eq (if d then Gt else Lt)) with false by (by destruct d). bind.
    rewrite Hs2. bind. destruct (Hmin s2 _ Hr2) as [_ ->]. bind.
    replace (cmp_is Eq (if negb d then Gt else Lt)) with false by (by destruct d).
    assert (ord d (elems (fv A)) = [] ++ 1 :: ord d (nodes u2)) as Ho.
    { rewrite <- (reprT_nodes Z.compare tree_ok s2 A _ Hr2), nodes_mk. by destruct d. }
    destruct (flat_next_cost Z.compare tree_ok fom_seal fom_tree s2 A _ d 1 _ _ Hr2 Ho) as (i & Hi & Hnx).
    assert (fnext_c s2 d 1 = Ok (hd 0 (ord d (nodes u2)), Work 0 i)) as ->.
    { destruct (reprT_born Z.compare tree_ok s2 A _ 1 Hr2) as (_ & Hsz & _).
      { apply (elem_of_ord d). rewrite Ho. left. }
      revert Hnx. unfold flat_next_c. by rewrite Hsz. }
    bind. exists i. eexists. split; [unfold add_work; cbn [turns hops idle]; do 3 f_equal; lia|].
    rewrite next_costs_mk in Hi. cbn in Hi. destruct u2 as [|ul ux ur]; [cbn in Hlen2; lia|]. injection Hi as <-. done. }
  exists s2, (XRange (Some 1) (Some y)), (add_work (Work (i1 + i2) i) idle).
  split; [destruct d; cbn [fom_step_c]; rewrite Hrange; by bind|]. split.
  - exists (mk d E 1 u2). split; [done|]. right. exists u2. split; [done|lia].
  - cbn [hops add_work idle]. pose proof (Nat.div_mod (S m) 2 ltac:(lia)). lia.
Qed.
