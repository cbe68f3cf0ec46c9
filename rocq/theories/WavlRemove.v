(** Removal from, insertion into and search of a WAVL tree in memory. *)
From stdpp Require Import base numbers option gmap fin_maps list.
From Coq Require Import Sorting.Sorted.
From Verif Require Import Common LinkHeap PathLemmas OrderSpec TreeModel TreeProofs WavlModel Counting WavlProofs WavlRank.

Local Ltac bind := cbn [mbind outcome_bind obind].
Local Ltac neq := first [done | apply not_eq_sym; done | dj | apply not_eq_sym; dj].
Local Ltac lookp := rewrite ?lookup_insert; repeat (rewrite lookup_insert_ne by neq; rewrite ?lookup_insert).
Local Ltac okp := repeat first [apply ok_insert; [dj|] | apply zok_insert; [dj|]].
Local Ltac keep := repeat first [apply kept_br; [dj|] | apply kept_pa; [dj|]].
Local Ltac lookc :=
  repeat first
    [ rewrite br_set_pa | rewrite pa_set_br | rewrite br_set_br_eq | rewrite pa_set_pa_eq
    | rewrite br_set_br_ne by (first [left; done | left; apply negb_ne | left; apply not_eq_sym, negb_ne | right; dj | right; apply not_eq_sym; dj])
    | rewrite pa_set_pa_ne by (first [dj | apply not_eq_sym; dj]) ].
Local Ltac carry :=
  repeat first [apply rep_set_pa; [dj|] | apply rep_set_br; [dj|] | apply zrep_set_pa; [dj|] | apply zrep_set_br; [dj|]].

Section removal.
Context (nil : nat).
Notation ptr := (ptr nil).
Notation rep := (rep nil).
Notation zrep := (zrep nil).
Notation zptr := (zptr nil).
Notation zin := (zin nil).
Notation wavl_ok := (wavl_ok nil).
Notation local := (local nil).

Lemma zin_at h root Q t : zin h root Q t <-> zin h root [] (plug Q t).
Proof. rewrite !zin_plug. done. Qed.

Lemma local_refl X s : local X s s.
Proof. split; [apply kept_refl|apply same_parity_refl]. Qed.
Lemma local_trans X s s1 s2 : local X s s1 -> local X s1 s2 -> local X s s2.
Proof. intros [? ?] [? ?]. split; [by eapply kept_trans|by eapply same_parity_trans]. Qed.
Lemma local_mono X Y s s' : local X s s' -> (forall w, w ∈ X -> w ∈ Y) -> local Y s s'.
Proof.
  intros [Hk Hp] Hsub. split; [apply (kept_mono _ _ _ _ Hk)|by apply (same_parity_mono _ _ _ _ Hp)].
  intros w. rewrite !elem_of_cons. intros [?|?]; auto.
Qed.
Lemma local_parity X s P : same_parity X (wp s) P -> local X s (with_parity s P).
Proof. intros H. split; [apply kept_refl|done]. Qed.

Lemma rebalance_Ok fuel s Q d u z t m b :
  length Q < fuel -> zin (wl s) (wroot s) Q (mk d u z t) -> wp s !! nil = Some true ->
  wp s !! z = Some (Z.odd m) -> ok (wp s) t (m - 3) -> ok (wp s) u b -> gap m b -> zok (wp s) Q m ->
  exists s' t', rebalance_3_child nil fuel s z (ptr t) = Ok s' /\ wavl_ok s' t' /\
    nodes t' = nodes (plug Q (mk d u z t)) /\ local (nodes t') s s'.
Proof.
  revert s Q d u z t m b. induction fuel as [|f IH]; intros s Q d u z t m b Hf Hz Hnil Hm Ht Hu Hg HQ; [lia|].
  pose proof (zin_cnt _ _ _ _ _ Hz) as Hc. setoid_rewrite cnt_mk in Hc.
  assert (z <> nil) as Hzn by dj. pose proof (ok_ge _ _ _ Ht) as Hge.
  assert (u <> E) as Hune. { intros ->. cbn in Hu. destruct Hg; lia. }
  cbn [rebalance_3_child]. rewrite (proj2 (Nat.eqb_neq _ _)) by done. cbn [negb oassert]. bind.
  assert (rep (wl s) (zptr Q) (mk d u z t)) as Hr by (by destruct Hz as (_ & ? & _)).
  pose proof Hr as (Hzu & Hzt & Hzp & _ & Hru & Hrt)%rep_mk.
  rewrite (up_Ok _ _ _ Hzp). bind.
  destruct (look_dir nil s (zptr Q) d u z t) as (l & r & -> & _ & Hd & _); try done.
  { apply zin_NoDup in Hz. apply NoDup_cons in Hz as [_ Hz]. by apply NoDup_app in Hz as (_ & _ & ?). }
  bind. rewrite Hd. clear l r Hd. rewrite (child_Ok _ _ _ _ Hzu). bind.
  assert (even_child nil s (zptr Q) z = Ok (match Q with [] => false | (_, p, _) :: _ =>
     match wp s !! p with Some a => Bool.eqb a (Z.odd m) | None => false end end)) as ->.
  { destruct Q as [|[[d1 p] u1] Q]; cbn [WavlProofs.zptr].
    - unfold even_child. by rewrite Nat.eqb_refl.
    - destruct HQ as (m1 & b1 & Hp & _). rewrite Hp. cbn [znodes] in Hc.
      eapply even_child_Ok; [|done..]. dj. }
  bind. erewrite even_child_Ok; [|done|exact Hm|by apply ok_ptr]. bind. rewrite gap_eqb by done.
  (* the tail of an iteration that does not stop *)
  assert (forall s1 u', wl s1 = wl s -> wroot s1 = wroot s -> wp s1 !! nil = Some true -> same_parity (z :: nodes u) (wp s) (wp s1) ->
     ok (wp s1) (mk d u' z t) (m - 1) -> u' = u ->
     exists s' t', (if negb (zptr Q =? nil) && match Q with [] => false | (_, p, _) :: _ =>
     match wp s !! p with Some a => Bool.eqb a (Z.odd m) | None => false end end then rebalance_3_child nil f s1 (zptr Q) z else Ok s1) = Ok s' /\ wavl_ok s' t' /\
    nodes t' = nodes (plug Q (mk d u z t)) /\ local (nodes t') s s') as Htail.
  { intros s1 ? Hl1 Hr1 Hn1 Hsp Hok ->.
    assert (local (nodes (plug Q (mk d u z t))) s s1) as Hloc.
    { split; [rewrite Hl1; apply kept_refl|]. apply (same_parity_mono _ _ _ _ Hsp). intros w.
      rewrite elem_of_cons, elem_of_plug, elem_of_mk. tauto. }
    assert (zok (wp s1) Q m) as HQ1.
    { apply (zok_ext (wp s)); [|done]. intros w Hw. apply Hsp. dj. }
    destruct Q as [|[[d1 p] u1] Q]; cbn [WavlProofs.zptr].
    - rewrite Nat.eqb_refl. cbn [negb andb]. eexists _, _. split; [done|]. split_and!; [|done|done].
      apply (wavl_ok_plug _ _ [] _ (m - 1)); [by rewrite Hl1, Hr1|done|done|done].
    - destruct HQ as (m1 & b1 & Hp & _). destruct HQ1 as (m2 & b2 & Hp2 & Hleaf & Hu1 & Hg2 & Hgb & HQ1).
      cbn [znodes] in Hc. cbn [length] in Hf.
      assert (p <> nil) as Hpn by dj. rewrite (proj2 (Nat.eqb_neq _ _)) by done. cbn [negb andb].
      rewrite <- (Hsp p) by dj. rewrite Hp2, gap_eqb by done.
      destruct (bool_decide_reflect (m2 - m = 2)%Z) as [Hm2|Hm2].
      + destruct (IH s1 Q d1 u1 p (mk d u z t) m2 b2) as (s' & t' & Hrun & Hok' & Hnodes & Hloc'); try done.
        { lia. } { rewrite Hl1, Hr1. by apply zin_up. }
        { replace (m2 - 3)%Z with (m - 1)%Z by lia. done. }
        rewrite ptr_mk in Hrun. exists s', t'. split; [done|]. split_and!; [done|done|].
        rewrite Hnodes in *. eapply local_trans; [exact Hloc|exact Hloc'].
      + eexists _, _. split; [done|]. split_and!; [|done|done].
        apply (wavl_ok_plug _ _ ((d1, p, u1) :: Q) _ (m - 1)); [by rewrite Hl1, Hr1|done| |done].
        exists m2, b2. split_and!; try done.
        * intros -> Hm1. assert (m = 0)%Z by lia. lia.
        * destruct Hg2; [right; lia|lia]. }
  destruct (bool_decide_reflect (m - b = 2)%Z) as [Hb|Hb].
  - unfold demote. erewrite promote_Ok; [|done|exact Hm]. bind. rewrite <- odd_pred.
    apply Htail with u; try done; cbn [wp with_parity].
    + by lookp.
    + apply same_parity_insert; [done|left].
    + apply ok_mk. split_and!; [by lookp|done|].
      exists b, (m - 3)%Z. split_and!; [by okp|by okp|left; lia|right; lia].
  - assert (b = m - 1)%Z as -> by (destruct Hg; lia). clear Hb Hg.
    destruct (mk_mk d u Hune) as (W & y & V & ->). rewrite ptr_mk.
    apply ok_mk in Hu as (Hy & Hleaf & i & j & HW & HV & Hgi & Hgj). setoid_rewrite cnt_mk in Hc.
    assert (y <> nil) as Hyn by dj.
    pose proof (look_22 nil s z d W y V (m - 1) i j Hru Hnil Hy HW HV Hgi Hgj) as H22.
    assert (forall F : bool -> outcome (wavl * bool),
      (yl ← child s false y; yr ← child s true y; b ← even_parent nil s yl y yr; F b) =
      F (bool_decide (m - 1 - i = 2)%Z && bool_decide (m - 1 - j = 2)%Z)) as Hlook.
    { intros F. destruct (child s false y) as [a| |]; [|done..]. destruct (child s true y) as [b| |]; [|done..].
      revert H22. bind. intros ->. done. }
    rewrite Hlook. clear H22 Hlook.
    destruct (bool_decide_reflect (m - 1 - i = 2)%Z) as [Hi|Hi]; [destruct (bool_decide_reflect (m - 1 - j = 2)%Z) as [Hj|Hj]|]; cbn [andb].
    + unfold demote. erewrite promote_Ok; [|done|exact Hm]. bind. rewrite <- odd_pred.
      erewrite promote_Ok; [|done|cbn [wp with_parity]; by lookp]. bind. rewrite <- odd_pred.
      apply Htail with (mk d W y V); try done; cbn [wp with_parity].
      * by lookp.
      * repeat (apply same_parity_insert; [|rewrite elem_of_cons, elem_of_mk; tauto]). done.
      * apply ok_mk. split_and!; [by lookp|intros Hf'; by apply mk_not_E in Hf'|].
        exists (m - 2)%Z, (m - 3)%Z. split_and!; [|by okp|left; lia|right; lia].
        apply ok_mk. split_and!; [lookp; do 2 f_equal; lia| |].
        -- intros -> ->. specialize (Hleaf eq_refl eq_refl). cbn in HW. lia.
        -- exists i, j. split_and!; [by okp|by okp|left; lia|left; lia].
    + destruct (rotate_3_Ok nil s Q d W y V z t m i j) as (s' & t' & -> & Hrest); try done; [lia|].
      bind. eauto.
    + destruct (rotate_3_Ok nil s Q d W y V z t m i j) as (s' & t' & -> & Hrest); try done; [lia|].
      bind. eauto.
Qed.

(** A node with at most one child gives way to it. *)
Definition only (a b : tree) : tree := if isE a then b else a.
Definition two_of (P : gmap nat bool) (Q : zip) (b : bool) : bool :=
  match Q with [] => false | (_, p, _) :: _ => match P !! p with Some a => Bool.eqb a b | None => false end end.

Lemma only_ok P a y b n : ok P (T a y b) n -> a = E \/ b = E -> ok P (only a b) (n - 1).
Proof.
  intros (Hy & Hleaf & i & j & Ha & Hb & Hgi & Hgj) Hone. unfold only.
  assert (exists k, ok P (only a b) k /\ (k = n - 1)%Z) as (k & ? & <-); [|done].
  pose proof (ok_ge _ _ _ Ha). pose proof (ok_ge _ _ _ Hb). unfold only.
  destruct Hone as [-> | ->]; cbn [isE].
  - exists j. split; [done|]. cbn in Ha. subst i. destruct b.
    + cbn in Hb. rewrite Hleaf by done. lia.
    + pose proof (ok_ge0 _ _ _ Hb ltac:(done)). destruct Hgi, Hgj; lia.
  - cbn in Hb. subst j. destruct a; cbn [isE].
    + cbn in Ha. exists (-1)%Z. split; [done|]. rewrite Hleaf by done. lia.
    + exists i. split; [done|]. pose proof (ok_ge0 _ _ _ Ha ltac:(done)). destruct Hgi, Hgj; lia.
Qed.

Lemma only_nodes a b x : a = E \/ b = E -> nodes (T a x b) = nodes a ++ x :: nodes b /\ nodes (only a b) = nodes a ++ nodes b.
Proof. intros H. split; [done|]. unfold only. destruct a; [done|]. cbn [isE]. destruct H as [?| ->]; [done|]. cbn. by rewrite app_nil_r. Qed.

Lemma splice_Ok s Q a y b n :
  zin (wl s) (wroot s) Q (T a y b) -> a = E \/ b = E -> zok (wp s) Q n -> wp s !! y = Some (Z.odd n) ->
  exists h r, splice nil s y = Ok (Wavl h (wp s) r, ptr (only a b), zptr Q, two_of (wp s) Q (Z.odd n)) /\
    zin h r Q (only a b) /\ kept (nil :: znodes Q ++ nodes (only a b)) (wl s) h.
Proof.
  intros Hz Hone HQ Hy. pose proof (zin_cnt _ _ _ _ _ Hz) as Hc.
  assert (forall w, cnt w (nodes (T a y b)) = eqn w y + cnt w (nodes (only a b))) as Hcn.
  { intros w. destruct (only_nodes a b y Hone) as [-> ->]. cnt_norm. lia. }
  setoid_rewrite Hcn in Hc. clear Hcn.
  destruct Hz as (Hzr & (Hya & Hyb & Hyp & Hyn & Hra & Hrb) & _ & Hln). cbn [TreeProofs.ptr] in Hzr.
  assert (rep (wl s) y (only a b)) as Hrx by (unfold only; by destruct (isE a)).
  assert (live (wl s) (ptr (only a b))) as Hlx.
  { destruct (ptr_cases nil (only a b)) as [-> |Hi]; [done|]. by eapply rep_live. }
  unfold splice. rewrite (up_Ok _ _ _ Hyp). bind. rewrite (child_Ok _ false _ _ Hya). bind.
  rewrite (ptr_eqb _ _ _ _ Hra).
  assert (child s (isE a) y = Ok (ptr (only a b))) as ->.
  { unfold only. destruct (isE a); by apply child_Ok. }
  bind. set (X := only a b) in *. clearbody X.
  rewrite wup_Ok by done. bind. set (h1 := set_pa (wl s) (ptr X) (zptr Q)).
  pose proof (cnt_ptr nil X) as HcX. set (x := ptr X) in *.
  destruct Q as [|[[d p] u] Q]; cbn [WavlProofs.zptr].
  - rewrite Nat.eqb_refl. unfold even_child. rewrite Nat.eqb_refl. bind.
    assert (live h1 nil) as Hln1 by (by apply live_set_pa).
    assert (exists r, br h1 true !! nil = Some r) as (r & Hr) by (by apply live_br).
    rewrite (child_Ok _ _ _ r) by done. bind. rewrite wchild_Ok by done. bind.
    eexists _, _. split; [done|]. split.
    + apply zin_intro; [done| | |].
      * apply rep_set_br; [dj|]. unfold h1. eapply rep_reparent; [dj|exact Hrx].
      * intros w. cnt_at w.
      * by apply live_set_br, live_set_pa.
    + assert (forall w, w ∈ [x; nil] -> w ∈ nil :: znodes [] ++ nodes X) as Hsub by (intros w ?; dj).
      apply (kept_mono [x; nil]); [|done]. cbn [wl with_links with_root]. unfold h1. keep. apply kept_refl.
  - cbn [znodes] in Hc |- *. assert (p <> nil) as Hpn by dj. rewrite (proj2 (Nat.eqb_neq _ _)) by done.
    destruct HQ as (m & b1 & Hp & _). cbn [two_of]. rewrite Hp.
    erewrite even_child_Ok; [|done|exact Hp|exact Hy]. bind.
    destruct Hzr as (Hpq & Hpu & Hpp & _ & Hru & HzQ).
    pose proof (cnt_ptr nil u) as Hcu.
    assert (exists r, br h1 true !! p = Some r /\ (r =? y) = d) as (r & Hr & Hd).
    { unfold h1. rewrite br_set_pa. destruct d; [exists y; by rewrite Nat.eqb_refl|].
      exists (ptr u). split; [done|]. apply Nat.eqb_neq, not_eq_sym. set (pu := ptr u) in *. dj. }
    rewrite (child_Ok _ _ _ r) by done. bind. rewrite Hd.
    assert (live (wl s) p) as Hlp.
    { repeat split; [destruct d..|]; eauto. }
    rewrite wchild_Ok by (by apply live_set_pa). bind. cbn [wl with_links].
    eexists _, _. split; [done|]. cbn [wl with_links wroot].
    split.
    + apply zin_intro.
      * cbn [WavlProofs.zrep]. unfold h1. lookc. split_and!; try done; carry; done.
      * cbn [WavlProofs.zptr]. apply rep_set_br; [dj|]. unfold h1. eapply rep_reparent; [dj|exact Hrx].
      * intros w. cbn [znodes]. cnt_at w.
      * by apply live_set_br, live_set_pa.
    + assert (forall w, w ∈ [x; p] -> w ∈ nil :: (p :: nodes u ++ znodes Q) ++ nodes X) as Hsub by (intros w ?; dj).
      apply (kept_mono [x; p]); [|done]. unfold h1. keep. apply kept_refl.
Qed.

Lemma transplant_Ok s Q l r R y b :
  zin (wl s) (wroot s) Q (T l r R) -> wp s !! r = Some b -> live (wl s) y -> is_Some (wp s !! y) -> y <> nil ->
  y ∉ znodes Q -> y ∉ nodes (T l r R) ->
  exists h t, transplant nil s r y = Ok (Wavl h (<[y := b]> (wp s)) t) /\ zin h t Q (T l y R) /\
    kept (nil :: znodes Q ++ nodes (T l y R)) (wl s) h.
Proof.
  intros Hz Hb Hly [b0 Hb0] Hyn HyQ HyT.
  pose proof (zin_cnt _ _ _ _ _ Hz) as Hc. cbn [nodes] in Hc, HyT. rewrite cnt_in in HyQ. rewrite cnt_in in HyT.
  assert (forall w, eqn w nil + eqn w y + cnt w (znodes Q) + (eqn w r + cnt w (nodes l) + cnt w (nodes R)) <= 1) as Hcc.
  { intros w. specialize (Hc w). cnt_norm. destruct (decide (w = y)) as [-> |Hne].
    - rewrite eqn_refl, (eqn_ne y nil) by done. lia.
    - rewrite (eqn_ne w y) by done. lia. }
  clear Hc HyQ HyT.
  destruct Hz as (Hzr & (Hrl & HrR & Hrp & Hrn & Hl & HR) & _ & Hln). cbn [TreeProofs.ptr] in Hzr.
  assert (live (wl s) r) as Hlr by (repeat split; eauto).
  assert (forall t p, rep (wl s) p t -> live (wl s) (ptr t)) as Hlp.
  { intros t p Ht. destruct (ptr_cases nil t) as [-> |Hi]; [done|]. by eapply rep_live. }
  apply Hlp in Hl as Hll. apply Hlp in HR as HlR. clear Hlp.
  unfold transplant. rewrite !(proj2 (Nat.eqb_neq _ _)) by done. cbn [negb oassert]. bind.
  rewrite (up_Ok _ _ _ Hrp). bind. rewrite wup_Ok by done. bind.
  set (h1 := set_pa (wl s) y (zptr Q)).
  rewrite (up_Ok _ r (zptr Q)) by (cbn [wl with_links]; unfold h1; by lookc). bind.
  destruct (replace_child_Ok nil (with_links s h1) Q r y) as (h2 & t & -> & Hz2 & [Hf2 Hl2]).
  { cbn [wl with_links wroot]. unfold h1. by carry. }
  { dj. } { done. } { dj. }
  bind. cbn [wl with_links wp wroot] in *.
  assert (br h2 true !! r = Some (ptr R)) as HrR2.
  { rewrite (frame_br _ _ _ _ _ Hf2) by dj. unfold h1. by lookc. }
  assert (br h2 false !! r = Some (ptr l)) as Hrl2.
  { rewrite (frame_br _ _ _ _ _ Hf2) by dj. unfold h1. by lookc. }
  pose proof (cnt_ptr nil l) as Hcl. pose proof (cnt_ptr nil R) as HcR.
  set (pl := ptr l) in *. set (pR := ptr R) in *.
  assert (live h2 pl) as Hll2 by (by apply Hl2, live_set_pa).
  assert (live h2 pR) as HlR2 by (by apply Hl2, live_set_pa).
  assert (live h2 y) as Hly2 by (by apply Hl2, live_set_pa).
  rewrite (child_Ok _ true r pR) by done. bind. rewrite wup_Ok by done. bind. cbn [wl with_links].
  rewrite (child_Ok _ false r pl) by (cbn [wl with_links]; by lookc). bind. 
  rewrite wup_Ok by (cbn [wl with_links]; by apply live_set_pa). bind. cbn [wl with_links].
  rewrite (child_Ok _ true r pR) by (cbn [wl with_links]; by lookc). bind.
  rewrite wchild_Ok by (cbn [wl with_links]; by apply live_set_pa, live_set_pa). bind. cbn [wl with_links].
  rewrite (child_Ok _ false r pl) by (cbn [wl with_links]; by lookc). bind.
  rewrite wchild_Ok by (cbn [wl with_links]; by apply live_set_br, live_set_pa, live_set_pa). bind. cbn [wl with_links].
  unfold wparity, parity. cbn [wp with_links]. rewrite Hb. bind. rewrite Hb0. bind. cbn [wl wroot].
  set (h3 := set_br _ false y pl). eexists h3, t. split; [done|].
  assert (forall p t, rep (wl s) p t -> (forall w, cnt w (nodes t) <= cnt w (nodes l) + cnt w (nodes R)) -> rep h2 p t) as Hrr.
  { intros p u Hu Hsub. apply (rep_frame _ (znodes Q) h1); [done| |].
    - intros w ?. dj.
    - apply rep_set_pa; [|done]. dj. }
  apply Hrr in Hl; [|intros; lia]. apply Hrr in HR; [|intros; lia].
  split; [apply zin_intro|].
  - cbn [TreeProofs.ptr]. unfold h3. by carry.
  - cbn [TreeProofs.rep]. fold pl pR. change (lf h3) with (br h3 false). change (rt h3) with (br h3 true). split_and!.
    + unfold h3. by lookc.
    + unfold h3. by lookc.
    + unfold h3. lookc. rewrite (frame_pa _ _ _ _ Hf2) by dj. unfold h1. by lookc.
    + done.
    + unfold h3. carry. apply (rep_reparent _ _ r); [dj|]. by carry.
    + unfold h3. carry. apply (rep_reparent _ _ r); [dj|]. by carry.
  - intros w. cbn [nodes]. cnt_at w.
  - unfold h3. by apply live_set_br, live_set_br, live_set_pa, live_set_pa, Hl2, live_set_pa.
  - assert (forall w, w ∈ [y; pl; pR] ++ znodes Q -> w ∈ nil :: znodes Q ++ nodes (T l y R)) as Hsub.
    { intros w Hw. cbn [nodes]. dj. }
    apply (kept_mono ([y; pl; pR] ++ znodes Q)); [|done].
    unfold h3. keep. apply (kept_trans _ _ h1); [apply kept_set_pa; dj|].
    apply (kept_mono (znodes Q)); [done|intros w ?; dj].
Qed.

(** The parity of a leaf of a ranked tree. *)
Lemma leaf_parity s t p :
  wavl_ok s t -> p ∈ nodes t ->
  exists lf b, is_leaf nil s p = Ok lf /\ parity s p = Ok b /\ negb lf || negb b = true.
Proof.
  intros (Hz & Hnil & n & Hok) Hp. destruct (find_zip _ _ Hp) as (Q & a & b & ->).
  apply ok_unplug in Hok as (k & _ & Hpk & Hleaf & _).
  assert (zin (wl s) (wroot s) Q (T a p b)) as (_ & Hrr & _).
  { by apply zin_at. }
  pose proof (look_leaf nil s (zptr Q) true a p b Hrr) as Hl.
  eexists _, _. split; [exact Hl|]. split; [by apply parity_Ok|].
  destruct (isE_spec a) as [-> |], (isE_spec b) as [-> |]; try done. by rewrite Hleaf.
Qed.

Lemma plug_height Q t : length Q + height t <= height (plug Q t).
Proof.
  revert t. induction Q as [|[[d x] u] Q IH]; intros t; [done|]. cbn [plug length].
  etrans; [|apply IH]. destruct d; cbn [mk height]; lia.
Qed.

Lemma settle_Ok steps s Q X n :
  length Q <= steps -> zin (wl s) (wroot s) Q X -> wp s !! nil = Some true -> ok (wp s) X (n - 1) -> zok (wp s) Q n ->
  exists s' t', settle nil steps s (ptr X) (zptr Q) (two_of (wp s) Q (Z.odd n)) = Ok s' /\ wavl_ok s' t' /\
    nodes t' = nodes (plug Q X) /\ local (nodes t') s s'.
Proof.
  intros Hsteps Hz Hnil HX HQ. cbn [length] in Hsteps. unfold settle.
  destruct Q as [|[[d p] u] Q]; cbn [WavlProofs.zptr].
  { rewrite Nat.eqb_refl. eexists _, _. split; [done|]. split_and!; [|done|apply local_refl].
    by apply (wavl_ok_plug _ _ [] _ (n - 1)). }
  pose proof (zin_cnt _ _ _ _ _ Hz) as Hc. cbn [znodes] in Hc.
  assert (p <> nil) as Hpn by dj. rewrite (proj2 (Nat.eqb_neq _ _)) by done.
  pose proof HQ as (m & b & Hm & Hleaf & Hu & Hg & Hgb & HQ'). cbn [two_of]. rewrite Hm, gap_eqb by done.
  apply zin_up in Hz as Hzp.
  match goal with |- context [mbind _ ?A] => assert (exists s' t', A = Ok s' /\ wavl_ok s' t' /\
    nodes t' = nodes (plug Q (mk d u p X)) /\ local (nodes t') s s') as (s' & t' & -> & Hok & Hnodes & Hloc) end.
  2:{ bind. destruct (leaf_parity s' t' p Hok) as (lf & pb & -> & -> & Hl).
      { rewrite Hnodes. apply elem_of_plug. right. apply elem_of_mk. by left. }
      bind. rewrite Hl. cbn [oassert]. bind. eauto 6. }
  destruct (bool_decide_reflect (m - n = 2)%Z) as [Hmn|Hmn].
  { apply rebalance_Ok with m b; try done. replace (m - 3)%Z with (n - 1)%Z by lia. done. }
  assert (m = n + 1)%Z as -> by (destruct Hg; lia). clear Hmn Hg.
  assert (rep (wl s) (zptr Q) (mk d u p X)) as Hr by (by destruct Hzp as (_ & ? & _)).
  pose proof Hr as (Hpu & HpX & Hpp & _ & Hru & HrX)%rep_mk.
  assert (forall F : bool -> outcome wavl,
    (a ← child s false p; b ← child s true p; F ((ptr X =? nil) && (a =? b))) = F (isE X && isE u)) as Hlook.
  { intros F. destruct (look_side nil s _ _ _ _ _ Hr) as [H1 H2].
    rewrite (ptr_eqb _ _ _ _ HrX). destruct (isE_spec X) as [HX0|].
    - rewrite <- (ptr_eqb _ _ _ _ Hru). subst X. cbn [TreeProofs.ptr] in *.
      destruct d; cbn [negb] in *; rewrite H1, H2; bind; [done|]. by rewrite Nat.eqb_sym.
    - destruct d; cbn [negb] in *; by rewrite H1, H2. }
  rewrite (Hlook (fun t => if t then _ else _)). clear Hlook.
  destruct (isE_spec X) as [-> |HXne]; [destruct (isE_spec u) as [-> |Hune]|]; cbn [andb].
  - cbn in HX, Hu. subst b. assert (n = 0)%Z as -> by lia. cbn [Z.add] in *.
    rewrite (up_Ok _ _ _ Hpp). bind.
    assert (even_child nil s (zptr Q) p = Ok (two_of (wp s) Q (Z.odd 1))) as ->.
    { destruct Q as [|[[d1 pp] u1] Q]; cbn [WavlProofs.zptr two_of].
      - unfold even_child. by rewrite Nat.eqb_refl.
      - destruct HQ' as (m1 & b1 & Hp1 & _). rewrite Hp1. cbn [znodes] in Hc.
        eapply even_child_Ok; [|done..]. dj. }
    bind. unfold demote. erewrite promote_Ok; [|done|exact Hm]. bind. rewrite <- odd_pred. change (1 - 1)%Z with 0%Z.
    set (s1 := with_parity s _).
    assert (ok (wp s1) (mk d E p E) 0) as Hok1.
    { apply ok_mk. split_and!; [unfold s1; cbn [wp with_parity]; by lookp|done|].
      exists (-1)%Z, (-1)%Z. split_and!; [done..|left; lia|left; lia]. }
    assert (zok (wp s1) Q 1) as HQ1 by (unfold s1; cbn [wp with_parity]; by okp).
    assert (wp s1 !! nil = Some true) as Hnil1 by (unfold s1; cbn [wp with_parity]; by lookp).
    assert (local (nodes (plug Q (mk d E p E))) s s1) as Hloc1.
    { apply local_parity. apply same_parity_insert; [done|]. apply elem_of_plug. right. apply elem_of_mk. by left. }
    assert (zin (wl s1) (wroot s1) Q (mk d E p E)) as Hz1 by exact Hzp.
    assert (two_of (wp s) Q (Z.odd 1) = two_of (wp s1) Q (Z.odd 1)) as ->.
    { destruct Q as [|[[d1 pp] u1] Q]; [done|]. cbn [two_of znodes] in *. unfold s1. cbn [wp with_parity]. by lookp. }
    destruct Q as [|[[d1 pp] u1] Q]; cbn [two_of].
    + eexists _, _. split; [done|]. split_and!; [|done|done]. by apply (wavl_ok_plug _ _ [] _ 0).
    + destruct HQ1 as (m1 & b1 & Hp1 & Hleaf1 & Hu1 & Hg1 & Hgb1 & HQ1). rewrite Hp1, gap_eqb by done.
      destruct (bool_decide_reflect (m1 - 1 = 2)%Z) as [Hm1|Hm1].
      * rewrite (up_Ok s1 p pp) by done. bind.
        destruct (rebalance_Ok steps s1 Q d1 u1 pp (mk d E p E) m1 b1)
          as (s' & t' & Hrun & Hok & Hnodes & Hloc); try done.
        { cbn [length] in Hsteps. lia. }
        { by apply zin_up. }
        { replace (m1 - 3)%Z with 0%Z by lia. exact Hok1. }
        rewrite ptr_mk in Hrun. exists s', t'. split; [exact Hrun|]. split_and!; [done|done|].
        rewrite Hnodes in *. by apply (local_trans _ _ s1).
      * eexists _, _. split; [done|]. split_and!; [|done|done].
        apply (wavl_ok_plug _ _ ((d1, pp, u1) :: Q) _ 0); [done..| |done].
        exists m1, b1. split_and!; try done. destruct Hg1; [right; lia|lia].
  - eexists _, _. split; [done|]. split_and!; [|done|apply local_refl].
    apply (wavl_ok_plug _ _ Q _ (n + 1)); [done..|]. apply ok_mk. split_and!; [done|done|].
    exists b, (n - 1)%Z. split_and!; try done. right; lia.
  - eexists _, _. split; [done|]. split_and!; [|done|apply local_refl].
    apply (wavl_ok_plug _ _ Q _ (n + 1)); [done..|]. apply ok_mk. split_and!; [done|done|].
    exists b, (n - 1)%Z. split_and!; try done. right; lia.
Qed.

(** ** The whole removal *)
Lemma plug_app Q Q' t : plug (Q ++ Q') t = plug Q' (plug Q t).
Proof. revert t. induction Q as [|[[d x] u] Q IH]; intros t; cbn; [done|]. apply IH. Qed.
Lemma znodes_app Q Q' : znodes (Q ++ Q') = znodes Q ++ znodes Q'.
Proof. induction Q as [|[[d x] u] Q IH]; cbn; [done|]. by rewrite IH, <- app_assoc. Qed.

Lemma leftmost t : t <> E -> exists Q y c, t = plug Q (T E y c) /\ nodes t = y :: nodes (plug Q c).
Proof.
  induction t as [|l IHl x r _]; intros H; [done|]. destruct (isE_spec l) as [-> |Hl].
  - by exists [], x, r.
  - destruct (IHl Hl) as (Q & y & c & -> & Hn). exists (Q ++ [(false, x, r)]), y, c.
    rewrite !plug_app. cbn [plug mk]. split; [done|]. cbn [nodes]. by rewrite Hn.
Qed.

Lemma zok_rename P Q d r u Q0 n b y :
  y ∉ znodes (Q ++ (d, r, u) :: Q0) -> P !! r = Some b ->
  zok P (Q ++ (d, r, u) :: Q0) n -> zok (<[y := b]> P) (Q ++ (d, y, u) :: Q0) n.
Proof.
  revert n. induction Q as [|[[d1 x] u1] Q IH]; intros n; cbn [app znodes]; intros Hy Hb (m & b1 & Hm & Hleaf & Hu & Hg & Hgb & HQ).
  - rewrite cnt_in in Hy. cnt_norm. exists m, b1. split_and!; try done.
    + rewrite lookup_insert. congruence.
    + apply ok_insert; [rewrite cnt_in; lia|done].
    + apply zok_insert; [rewrite cnt_in; lia|done].
  - exists m, b1. rewrite cnt_in in Hy. cnt_norm. split_and!; try done.
    + rewrite lookup_insert_ne; [done|]. intros ->. rewrite eqn_refl in Hy. lia.
    + apply ok_insert; [|done]. rewrite cnt_in. lia.
    + apply IH; [rewrite cnt_in; lia|done|done].
Qed.

Lemma unlink_parity steps s t r :
  wavl_ok s t -> height t <= steps -> r ∈ nodes t ->
  exists s' t' l1 l2, unlink nil steps s r = Ok s' /\ wavl_ok s' t' /\ nodes t = l1 ++ r :: l2 /\ nodes t' = l1 ++ l2 /\
    local (nodes t) s s' /\ same_parity (nodes t') (wp s) (wp s').
Proof.
  intros (Hz & Hnil & k & Hok) Hsteps Hr. destruct (find_zip _ _ Hr) as (Q & a & b & ->). clear Hr.
  apply ok_unplug in Hok as (n & HQ & Hok).
  assert (zin (wl s) (wroot s) Q (T a r b)) as Hzq.
  { by apply zin_at. }
  clear Hz. destruct (plug_split Q) as (q1 & q2 & Hsplit).
  pose proof Hzq as (_ & (Hra & Hrb & Hrp & Hrn & Ha & Hb) & _ & Hln).
  unfold unlink. rewrite (child_Ok _ false _ _ Hra). bind. rewrite (child_Ok _ true _ _ Hrb). bind.
  rewrite (ptr_eqb _ _ _ _ Ha), (ptr_eqb _ _ _ _ Hb).
  pose proof (zin_cnt _ _ _ _ _ Hzq) as Hc.
  assert (wp s !! r = Some (Z.odd n)) as Hpr by (by destruct Hok).
  assert ((isE a || isE b = true /\ (a = E \/ b = E)) \/ (isE a || isE b = false /\ a <> E /\ b <> E)) as [[-> Hone]|(-> & Hane & Hbne)].
  { destruct a, b; cbn; auto. }
  - destruct (splice_Ok s Q a r b n Hzq Hone HQ Hpr) as (h & rt & -> & Hz1 & Hk). bind.
    apply only_ok in Hok; [|done].
    destruct (settle_Ok steps (Wavl h (wp s) rt) Q (only a b) n) as (s' & t' & Hrun & Hok' & Hnodes & Hloc); try done.
    { pose proof (plug_height Q (T a r b)) as Hh. lia. }
    exists s', t', (q1 ++ nodes a), (nodes b ++ q2). split; [exact Hrun|]. split; [done|].
    destruct (only_nodes a b r Hone) as [Hn1 Hn2].
    split_and!.
    + rewrite Hsplit, Hn1. by rewrite <- !app_assoc.
    + rewrite Hnodes, Hsplit, Hn2. by rewrite <- !app_assoc.
    + apply (local_mono (nodes t')).
      2:{ intros w. rewrite Hnodes, !elem_of_plug, Hn1, Hn2, !elem_of_app, elem_of_cons. tauto. }
      destruct Hloc as [Hk' Hp']. split; [|done]. eapply kept_trans; [|exact Hk'].
      apply (kept_mono _ _ _ _ Hk). intros w. rewrite !elem_of_cons, Hnodes, elem_of_plug, elem_of_app. tauto.
    + by destruct Hloc.
  - destruct (leftmost b Hbne) as (Z1 & y & c & Hbz & Hbn).
    assert (edge nil (wl s) false (ptr b) = Ok y) as ->.
    { assert (NoDup (nodes b)) as Hndb. { cbn [nodes] in Hc. dj. }
      destruct (edge_Ok nil (wl s) false b r) as (l & x & Hl & He); try done.
      rewrite He. f_equal. rewrite Hbn in Hl. cbn [ord rev] in Hl. by apply app_inj_tail in Hl as [_ ->]. }
    bind. subst b. set (Q1 := Z1 ++ (true, r, a) :: Q).
    assert (zin (wl s) (wroot s) Q1 (T E y c)) as Hz1.
    { apply zin_plug. unfold Q1. rewrite plug_app. cbn [plug mk]. by apply zin_plug in Hzq. }
    assert (exists k, zok (wp s) Q1 k /\ ok (wp s) (T E y c) k) as (k1 & HQ1 & Hok1).
    { destruct (ok_plug _ _ _ _ HQ Hok) as [m Hm]. apply (ok_unplug _ _ _ m). unfold Q1. by rewrite plug_app. }
    assert (wp s !! y = Some (Z.odd k1)) as Hpy by (by destruct Hok1).
    pose proof Hz1 as (_ & (_ & _ & Hyp & Hyn & _) & _).
    rewrite (up_Ok _ _ _ Hyp). bind.
    pose proof (zin_cnt _ _ _ _ _ Hz1) as Hc1. unfold Q1 in Hc1. setoid_rewrite znodes_app in Hc1. cbn [znodes nodes] in Hc1.
    assert (zptr Q1 <> nil) as Hpn.
    { unfold Q1. destruct Z1 as [|[[? ?] ?] ?]; cbn [WavlProofs.zptr znodes app] in *; dj. }
    rewrite (proj2 (Nat.eqb_neq _ _)) by done. cbn [negb oassert]. bind.
    destruct (splice_Ok s Q1 E y c k1 Hz1 (or_introl eq_refl) HQ1 Hpy) as (h & rt & -> & Hz2 & Hk). bind.
    unfold only in *. cbn [isE] in *.
    assert (zin h rt Q (T a r (plug Z1 c))) as Hz3.
    { apply zin_plug. apply zin_plug in Hz2. unfold Q1 in Hz2. rewrite plug_app in Hz2. done. }
    assert (forall w, cnt w (nodes (plug Z1 c)) = cnt w (znodes Z1) + cnt w (nodes c)) as Hpc.
    { intros w. by rewrite (cnt_perm _ _ _ (plug_perm Z1 c)), cnt_app. }
    destruct (transplant_Ok (Wavl h (wp s) rt) Q a r (plug Z1 c) y (Z.odd n)) as (h' & rt' & -> & Hz4 & Hk'); try done.
    { apply Hk. apply (zin_live _ _ _ _ _ _ Hz1). right. cbn. left. }
     { dj. }
    { cbn [nodes]. intros Hin%cnt_in. cnt_norm. rewrite Hpc in Hin. cnt_at y. }
    bind. cbn [wp] in *.
    set (Q2 := Z1 ++ (true, y, a) :: Q).
    assert ((if r =? zptr Q1 then y else zptr Q1) = zptr Q2) as ->.
    { unfold Q1, Q2. destruct Z1 as [|[[d1 x1] u1] Z1]; cbn [app WavlProofs.zptr]; [by rewrite Nat.eqb_refl|].
      rewrite (proj2 (Nat.eqb_neq _ _)); [done|]. cbn [znodes] in Hc1. dj. }
    assert (two_of (wp s) Q1 (Z.odd k1) = two_of (<[y := Z.odd n]> (wp s)) Q2 (Z.odd k1)) as ->.
    { unfold Q1, Q2. destruct Z1 as [|[[d1 x1] u1] Z1]; cbn [app two_of].
      - by rewrite lookup_insert, Hpr.
      - rewrite lookup_insert_ne; [done|]. cbn [znodes] in Hc1. dj. }
    destruct (settle_Ok steps (Wavl h' (<[y := Z.odd n]> (wp s)) rt') Q2 c k1) as (s' & t' & Hrun & Hok' & Hnodes & Hloc).
    { pose proof (plug_height Q1 (T E y c)) as Hh. unfold Q1 in Hh. rewrite plug_app in Hh.
      unfold Q2. rewrite app_length in *. cbn [plug mk length] in *. lia. }
    { apply zin_plug. unfold Q2. rewrite plug_app. cbn [plug mk]. by apply zin_plug in Hz4. }
    { cbn [wp]. by rewrite lookup_insert_ne. }
    { cbn [wp]. apply ok_insert; [dj|]. by apply (only_ok _ E y c); [|left]. }
    { cbn [wp]. apply (zok_rename _ _ _ r); [|done|done]. rewrite znodes_app. cbn [znodes]. dj. }
    assert (nodes (plug Q2 c) = q1 ++ nodes a ++ y :: nodes (plug Z1 c) ++ q2) as Hn2.
    { unfold Q2. rewrite plug_app. cbn [plug mk]. rewrite Hsplit. cbn [nodes]. by rewrite <- !app_assoc. }
    exists s', t', (q1 ++ nodes a), (y :: nodes (plug Z1 c) ++ q2). split; [exact Hrun|]. split; [done|].
    split_and!.
    + rewrite Hsplit. cbn [nodes]. rewrite Hbn. by rewrite <- !app_assoc.
    + rewrite Hnodes, Hn2. by rewrite <- !app_assoc.
    + assert (forall w, w ∈ nodes t' -> w ∈ nodes (plug Q (T a r (plug Z1 (T E y c))))) as Hsub.
      { intros w. rewrite Hnodes. unfold Q2. rewrite !elem_of_plug, znodes_app. cbn [znodes nodes].
        rewrite !elem_of_app, !elem_of_cons, !elem_of_app, elem_of_plug. cbn [nodes].
        rewrite elem_of_app, elem_of_cons. tauto. }
      destruct Hloc as [Hk2 Hp2]. cbn [wl wp] in *. split.
      * apply (kept_trans _ _ h).
        { apply (kept_mono _ _ _ _ Hk). intros w. unfold Q1. rewrite znodes_app. cbn [znodes].
          rewrite !elem_of_cons, !elem_of_app, !elem_of_cons, !elem_of_app, elem_of_plug. cbn [nodes].
          rewrite elem_of_app, elem_of_cons, elem_of_plug. cbn [nodes]. rewrite elem_of_app, elem_of_cons. tauto. }
        apply (kept_trans _ _ h').
        { apply (kept_mono _ _ _ _ Hk'). intros w. rewrite !elem_of_cons, !elem_of_app, elem_of_plug. cbn [nodes].
          rewrite !elem_of_app, !elem_of_cons, !elem_of_plug. cbn [nodes]. rewrite elem_of_app, elem_of_cons. tauto. }
        apply (kept_mono _ _ _ _ Hk2). intros w. rewrite !elem_of_cons. intros [?|?]; auto.
      * eapply same_parity_trans; [|apply (same_parity_mono _ _ _ _ Hp2 Hsub)]. apply same_parity_insert; [done|].
        apply Hsub. rewrite Hnodes, Hn2, !elem_of_app, elem_of_cons. tauto.
    + destruct Hloc as [_ Hp2]. eapply same_parity_trans; [|exact Hp2]. apply same_parity_insert; [done|].
      rewrite Hnodes, Hn2, !elem_of_app, elem_of_cons. tauto.
Qed.
Lemma unlink_Ok steps s t r :
  wavl_ok s t -> height t <= steps -> r ∈ nodes t ->
  exists s' t' l1 l2, unlink nil steps s r = Ok s' /\ wavl_ok s' t' /\ nodes t = l1 ++ r :: l2 /\ nodes t' = l1 ++ l2 /\
    local (nodes t) s s'.
Proof.
  intros Hw Hsteps Hr. destruct (unlink_parity steps s t r Hw Hsteps Hr) as (s' & t' & l1 & l2 & ? & ? & ? & ? & ? & _).
  by exists s', t', l1, l2.
Qed.

(** ** Insertion at a hole *)
Definition dir_of (Q : zip) : option comparison :=
  match Q with [] => None | (d, _, _) :: _ => Some (if d then Gt else Lt) end.
Definition top (Q : zip) : bool := match Q with [] => true | _ => false end.

Lemma attach_Ok steps s Q e :
  length Q <= steps ->
  wavl_ok s (plug Q E) -> live (wl s) e -> is_Some (wp s !! e) -> e <> nil -> e ∉ znodes Q ->
  exists s' t', attach nil steps s (top Q) (zptr Q) (dir_of Q) e = Ok s' /\ wavl_ok s' t' /\
    nodes t' = nodes (plug Q (T E e E)) /\ local (nodes t') s s'.
Proof.
  intros Hsteps (Hz & Hnil & k & Hok) Hle [b0 Hb0] Hen HeQ.
  apply zin_at in Hz. apply ok_unplug in Hok as (n & HQ & Hn). cbn in Hn. subst n.
  pose proof (zin_cnt _ _ _ _ _ Hz) as Hc. cbn [nodes] in Hc.
  rewrite cnt_in in HeQ.
  assert (forall w, eqn w nil + eqn w e + cnt w (znodes Q) <= 1) as Hcc.
  { intros w. specialize (Hc w). rewrite cnt_nil in Hc. destruct (decide (w = e)) as [-> |Hne].
    - rewrite eqn_refl, (eqn_ne e nil) by done. lia.
    - rewrite (eqn_ne w e) by done. lia. }
  clear Hc HeQ.
  destruct Hz as (Hzr & _ & _ & Hln). cbn [TreeProofs.ptr] in Hzr.
  unfold attach. assert (set_links (wl s) e nil = Ok (put_links (wl s) e nil nil nil)) as -> by (by rewrite set_links_Ok).
  bind.
  unfold wparity, parity. cbn [wp with_links]. rewrite Hb0. bind. cbn [wl wroot with_links].
  match goal with |- context [Wavl ?a _ _] => set (h1 := a) end.
  assert (lf h1 !! e = Some nil /\ rt h1 !! e = Some nil /\ pa h1 !! e = Some nil) as (He1 & He2 & He3).
  { unfold h1, put_links. cbn [lf rt pa]. by rewrite !lookup_insert. }
  assert (frame [e] (wl s) h1) as Hf.
  { intros z Hz. apply not_elem_of_cons in Hz as [Hz _]. unfold h1, put_links. cbn. by rewrite !lookup_insert_ne by done. }
  assert (forall z, live (wl s) z -> live h1 z) as Hl1.
  { intros z Hz. destruct (decide (z = e)) as [-> |Hne]; [by repeat split; eexists|].
    apply (frame_live [e] (wl s)); [done| |done]. by intros ->%elem_of_list_singleton. }
  clearbody h1. set (P1 := <[e := false]> (wp s)).
  assert (P1 !! nil = Some true) as Hnil1 by (unfold P1; by rewrite lookup_insert_ne).
  assert (ok P1 (T E e E) 0) as Hoke.
  { cbn. unfold P1. rewrite lookup_insert. split_and!; [done|done|]. exists (-1)%Z, (-1)%Z. split_and!; [done..|left; lia|left; lia]. }
  assert (zok P1 Q (-1)) as HQ1 by (unfold P1; apply zok_insert; [dj|done]).
  assert (forall X, e ∈ X -> same_parity X (wp s) P1) as Hsp1.
  { intros X HX. by apply same_parity_insert. }
  assert (zrep h1 (wroot s) Q nil) as Hzr1.
  { apply (zrep_frame _ [e] (wl s)); [done| |done]. intros z Hz ->%elem_of_list_singleton. apply cnt_in in Hz. cnt_at e. }
  assert (kept [e] (wl s) h1) as Hk1 by (by split).
  destruct Q as [|[[d p] u] Q]; cbn [top WavlProofs.zptr dir_of].
  - eexists _, (T E e E). split; [done|]. split_and!; [|done|].
    + split_and!; [|done|by exists 0%Z]. apply zin_intro; [done| | |by apply Hl1].
      * cbn. split_and!; done.
      * intros w. cbn [znodes nodes]. cnt_at w.
    + split; [|cbn [wp with_root]; apply Hsp1; cbn; left].
      apply (kept_mono [e]); [done|]. intros w ->%elem_of_list_singleton. right. cbn. left.
  - assert ((match Some (if d then Gt else Lt) with Some Gt => Ok true | Some Lt => Ok false | _ => UB end) = Ok d) as ->
      by (by destruct d).
    bind. cbn [WavlProofs.zrep] in Hzr1. destruct Hzr1 as (Hpq & Hpu & Hpp & Hpn & Hru & HzQ).
    cbn [znodes] in *.
    assert (live h1 p) as Hlp. { repeat split; [destruct d..|]; eauto. }
    assert (forall F : bool -> outcome wavl,
      (l ← child (Wavl h1 P1 (wroot s)) false p; r ← child (Wavl h1 P1 (wroot s)) true p; F ((l =? nil) && (r =? nil))) =
      F (isE u)) as Hlook.
    { intros F. rewrite <- (ptr_eqb _ _ _ _ Hru).
      destruct d; cbn [negb] in *.
      - rewrite (child_Ok _ true p nil), (child_Ok _ false p (ptr u)) by done. bind. by rewrite Nat.eqb_refl, andb_true_r.
      - rewrite (child_Ok _ false p nil), (child_Ok _ true p (ptr u)) by done. bind. by rewrite Nat.eqb_refl. }
    rewrite (Hlook (fun b => s2 ← wchild _ _ _ _; s3 ← wup s2 _ _; if b then insert_fixup nil steps s3 p else Ok s3)). clear Hlook.
    rewrite wchild_Ok by done. bind. rewrite wup_Ok by (cbn [wl with_links]; by apply live_set_br, Hl1). bind.
    cbn [wl with_links]. set (h2 := set_pa _ e p).
    destruct HQ1 as (m & b & Hm & Hleaf & Hu & Hg & Hgb & HQ1).
    pose proof (ok_ge _ _ _ Hu) as Hge.
    set (s3 := with_links _ _).
    assert (zin (wl s3) (wroot s3) Q (mk d u p (T E e E))) as Hz3.
    { apply zin_up. unfold s3. cbn [wl wroot with_links]. apply zin_intro.
      - cbn [WavlProofs.zrep TreeProofs.ptr]. unfold h2. lookc. split_and!; try done; carry; done.
      - cbn [WavlProofs.zptr TreeProofs.rep TreeProofs.ptr].
        change (lf h2) with (br h2 false). change (rt h2) with (br h2 true). unfold h2. split_and!; try done; by lookc.
      - intros w. cbn [znodes nodes]. cnt_at w.
      - unfold h2. by apply live_set_pa, live_set_br, Hl1. }
    assert (forall X, e ∈ X -> p ∈ X -> local X s s3) as Hloc3.
    { intros X HeX HpX. split; [|by apply Hsp1]. unfold s3. cbn [wl with_links]. unfold h2.
      apply kept_pa; [by right|]. apply kept_br; [by right|]. apply (kept_mono [e]); [done|].
      intros w ->%elem_of_list_singleton. by right. }
    assert (forall t, nodes t = nodes (plug Q (mk d u p (T E e E))) -> local (nodes t) s s3) as Hloc4.
    { intros t ->. apply Hloc3; apply elem_of_plug; right; apply elem_of_mk; [right; right; cbn; left|by left]. }
    destruct (isE_spec u) as [-> |Hune].
    + cbn in Hu. subst b. assert (m = 0)%Z as -> by (by apply Hleaf).
      destruct (insert_fixup_Ok nil steps s3 Q d E p (T E e E) 0) as (s' & t' & Hrun & Hok & Hnodes & Hloc); try done.
      exists s', t'. split; [done|]. split_and!; [done|done|]. apply (local_trans _ _ s3); [by apply Hloc4|done].
    + pose proof (ok_ge0 _ _ _ Hu Hune) as Hb. assert (m = 1)%Z as -> by (destruct Hg, Hgb; lia).
      eexists _, _. split; [done|]. split_and!; [|done|by apply Hloc4].
      apply (wavl_ok_plug _ _ Q _ 1); [done..|]. apply ok_mk. split_and!; [done|done|].
      exists b, 0%Z. split_and!; try done. left. lia.
Qed.

(** ** Search *)
Context {K V : Type} (cmp : K -> K -> comparison) (Hcmp : total_preorder cmp).
Context (dat : gmap nat (K * V)).
Notation sorted := (sorted cmp dat).
Notation side := (side cmp dat).

(** The search ends at the node with the key, or at the place where it belongs. *)
Lemma find_loop_Ok fuel h q k Q t last l r :
  rep h q t -> height t < fuel -> sorted (nodes (plug Q t)) ->
  (forall u, nodes (plug Q u) = l ++ nodes u ++ r) ->
  (forall z, z ∈ l -> side true k z) -> (forall z, z ∈ r -> side false k z) -> last = dir_of Q ->
  (exists x kv, find_loop nil cmp fuel dat h k (zptr Q) (ptr t) last = Ok (Some Eq, x) /\ x ∈ nodes t /\
     dat !! x = Some kv /\ cmp k (fst kv) = Eq) \/
  (exists Q' l' r', find_loop nil cmp fuel dat h k (zptr Q) (ptr t) last = Ok (dir_of Q', zptr Q') /\
     plug Q' E = plug Q t /\ (forall u, nodes (plug Q' u) = l' ++ nodes u ++ r') /\
     (forall z, z ∈ l' -> side true k z) /\ (forall z, z ∈ r' -> side false k z)).
Proof.
  revert q Q t last l r. induction fuel as [|f IH]; intros q Q t last l r Hr Hf Hs Hsp Hl Hrr ->; [lia|].
  cbn [find_loop]. rewrite (ptr_eqb _ _ _ _ Hr). destruct t as [|a x b]; cbn [isE].
  - right. by exists Q, l, r.
  - cbn [TreeProofs.ptr]. destruct Hr as (Hxa & Hxb & Hxp & Hxn & Hra & Hrb).
    rewrite Hsp in Hs. cbn [nodes] in Hs.
    assert (is_Some (dat !! x)) as [kx Hkx].
    { destruct Hs as [_ Hs]. rewrite Forall_forall in Hs. apply Hs. rewrite !elem_of_app, elem_of_cons. tauto. }
    rewrite (cmpk_Ok cmp dat k x kx) by done. bind.
    assert (sorted (nodes a ++ x :: nodes b)) as Hsx.
    { apply sorted_app in Hs as (_ & Hs & _). by apply sorted_app in Hs as (Hs & _). }
    assert (forall d z, side d k x -> kdir cmp dat d z x -> side d k z) as Hside by (intros d z; by apply side_trans).
    destruct (cmp k (fst kx)) eqn:Ec; cbn [is_eq is_gt].
    + left. exists x, kx. split_and!; [done| |done|done]. cbn. rewrite elem_of_app. right. left.
    + cbn [br]. rewrite (rd_Ok _ _ _ Hxa). bind.
      destruct (IH x ((false, x, b) :: Q) a (Some Lt) l (x :: nodes b ++ r)) as [Hfound|Hmiss]; try done.
      * cbn [height] in Hf. lia.
      * cbn [plug mk]. by rewrite Hsp.
      * intros u. cbn [plug mk]. rewrite Hsp. cbn [nodes]. by rewrite <- !app_assoc.
      * intros z. rewrite elem_of_cons, elem_of_app. intros [-> |[Hz|Hz]]; [by exists kx| |by apply Hrr].
        apply Hside; [by exists kx|]. change (x :: nodes b) with ([x] ++ nodes b) in Hsx. rewrite app_assoc in Hsx.
        apply sorted_app in Hsx as (_ & _ & Hsx). apply Hsx; [|done]. rewrite elem_of_app. right. left.
      * left. destruct Hfound as (y & ky & Hrun & Hy & Hrest). exists y, ky. split; [exact Hrun|]. split; [|done].
        cbn. rewrite elem_of_app. by left.
      * right. exact Hmiss.
    + cbn [br]. rewrite (rd_Ok _ _ _ Hxb). bind.
      destruct (IH x ((true, x, a) :: Q) b (Some Gt) (l ++ nodes a ++ [x]) r) as [Hfound|Hmiss]; try done.
      * cbn [height] in Hf. lia.
      * cbn [plug mk]. by rewrite Hsp.
      * intros u. cbn [plug mk]. rewrite Hsp. cbn [nodes]. by rewrite <- !app_assoc.
      * intros z. rewrite !elem_of_app, elem_of_list_singleton. intros [Hz|[Hz| ->]]; [by apply Hl| |by exists kx].
        apply Hside; [by exists kx|]. apply sorted_app in Hsx as (_ & _ & Hsx). apply Hsx; [done|]. left.
      * left. destruct Hfound as (y & ky & Hrun & Hy & Hrest). exists y, ky. split; [exact Hrun|]. split; [|done].
        cbn. rewrite elem_of_app, elem_of_cons. tauto.
      * right. exact Hmiss.
Qed.

Lemma height_size t : height t <= length (nodes t).
Proof. induction t as [|a IHa x b IHb]; cbn; [lia|]. rewrite app_length. cbn. lia. Qed.

Lemma find_Ok fuel s k t :
  wavl_ok s t -> sorted (nodes t) -> height t < fuel ->
  (exists x kv, find_loop nil cmp fuel dat (wl s) k nil (wroot s) None = Ok (Some Eq, x) /\ x ∈ nodes t /\
     dat !! x = Some kv /\ cmp k (fst kv) = Eq) \/
  (exists Q l r, find_loop nil cmp fuel dat (wl s) k nil (wroot s) None = Ok (dir_of Q, zptr Q) /\
     plug Q E = t /\ (forall u, nodes (plug Q u) = l ++ nodes u ++ r) /\
     (forall z, z ∈ l -> side true k z) /\ (forall z, z ∈ r -> side false k z)).
Proof.
  intros (Hz & _) Hs Hf. pose proof Hz as (Hroot & Hr & _). cbn in Hroot. rewrite Hroot.
  apply (find_loop_Ok fuel (wl s) nil k [] t None [] []); try done.
  - intros u. cbn. by rewrite app_nil_r.
  - intros z Hin. by apply elem_of_nil in Hin.
  - intros z Hin. by apply elem_of_nil in Hin.
Qed.

Lemma wavl_size s t : wavl_ok s t -> length (nodes t) <= size (lf (wl s)).
Proof. intros ((_ & Hr & Hnd & _) & _). by apply (rep_size nil _ nil). Qed.
End removal.
