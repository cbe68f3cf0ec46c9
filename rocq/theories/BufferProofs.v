(** Proofs about the buffer model. *)
From stdpp Require Import base numbers option list.
From Verif Require Import Common BufferModel BufferSpec.

Section proofs.
Context {A : Type}.
Implicit Types (b : buf A) (v : vec A).

Lemma slot_get_Ok {X} (l : list X) i x : l !! i = Some x -> slot_get l i = Ok x.
Proof. unfold slot_get. by intros ->. Qed.
Lemma slot_set_Ok {X} (l : list X) i x : i < length l -> slot_set l i x = Ok (<[i:=x]> l).
Proof.
  intros H. unfold slot_set.
  destruct (Nat.ltb_spec i (length l)); [done|lia].
Qed.

Lemma realloc_length (l : slots A) c : length (realloc l c) = c.
Proof. unfold realloc. rewrite app_length, take_length, replicate_length. lia. Qed.
Lemma realloc_lookup (l : slots A) c i :
  i < c -> i < length l -> realloc l c !! i = l !! i.
Proof.
  intros H1 H2. unfold realloc. rewrite lookup_app_l; [|rewrite take_length; lia].
  by rewrite lookup_take.
Qed.
Lemma take_realloc (l : slots A) c n :
  n <= c -> n <= length l -> take n (realloc l c) = take n l.
Proof.
  intros H1 H2. unfold realloc. rewrite take_app_le; [|rewrite take_length; lia].
  rewrite take_take. f_equal. lia.
Qed.

(** [b] represents [v]. *)
Definition rep (b : buf A) (v : vec A) : Prop :=
  buf_contents b = Some <$> v_list v /\ b_sz b <= b_cap b /\
  b_cap b = v_cap v /\ b_alloc b = v_grow v.

Lemma rep_sz b v : rep b v -> b_sz b = length (v_list v).
Proof.
  intros (Hc & Hle & _). unfold buf_contents in Hc. unfold b_cap in Hle.
  apply (f_equal length) in Hc. rewrite fmap_length, take_length in Hc. lia.
Qed.

Lemma rep_lookup b v i : rep b v -> i < length (v_list v) ->
  b_slots b !! i = Some <$> (v_list v !! i).
Proof.
  intros Hr Hi. pose proof (rep_sz _ _ Hr) as Hs. destruct Hr as (Hc & Hle & _).
  unfold buf_contents in Hc.
  rewrite <- list_lookup_fmap, <- Hc, lookup_take; [done|lia].
Qed.

Lemma rep_get b v i x : rep b v -> v_list v !! i = Some x ->
  slot_get (b_slots b) i = Ok (Some x).
Proof.
  intros Hr Hx. apply slot_get_Ok. rewrite (rep_lookup _ _ _ Hr).
  - by rewrite Hx.
  - by eapply lookup_lt_Some.
Qed.

Lemma take_insert_ge {X} (l : list X) n i x : n <= i -> take n (<[i:=x]> l) = take n l.
Proof.
  intros. apply list_eq. intros j. destruct (decide (j < n)).
  - rewrite !lookup_take by done. rewrite list_lookup_insert_ne; [done|lia].
  - rewrite !lookup_take_ge by lia. done.
Qed.
Lemma take_insert_lt' {X} (l : list X) n i x :
  i < n -> take n (<[i:=x]> l) = <[i:=x]> (take n l).
Proof. intros. by rewrite take_insert_lt. Qed.
Lemma take_S_insert {X} (l : list X) n x :
  n < length l -> take (S n) (<[n:=x]> l) = take n l ++ [x].
Proof.
  intros. rewrite (take_S_r _ _ x); [|by apply list_lookup_insert].
  by rewrite take_insert_ge.
Qed.

(** Writing below the size (or above it) updates the abstract list. *)
Lemma rep_insert b v i x :
  rep b v -> i < b_cap b ->
  rep (Buf (<[i := Some x]> (b_slots b)) (b_sz b) (b_alloc b))
      (Vec (<[i := x]> (v_list v)) (v_cap v) (v_grow v)).
Proof.
  intros Hr Hi. pose proof (rep_sz _ _ Hr) as Hs.
  destruct Hr as (Hc & Hle & Hcap & Hg).
  split; [|split; [|split]]; simpl.
  - unfold buf_contents in *; simpl. destruct (decide (i < b_sz b)).
    + rewrite take_insert_lt' by done. rewrite Hc.
      by rewrite list_fmap_insert.
    + rewrite take_insert_ge by lia. rewrite Hc.
      by rewrite (list_insert_ge (v_list v)) by lia.
  - unfold b_cap in *; simpl; rewrite insert_length; done.
  - unfold b_cap in *; simpl; rewrite insert_length; done.
  - done.
Qed.

Ltac nb :=
  repeat match goal with
  | |- context [?x <=? ?y] => destruct (Nat.leb_spec x y); try lia
  | |- context [?x <? ?y] => destruct (Nat.ltb_spec x y); try lia
  | |- context [?x =? ?y] => destruct (Nat.eqb_spec x y); try lia
  end.

Lemma alloc_back_spec b v ok : rep b v ->
  exists b', buf_alloc_back b ok =
    (if decide (length (v_list v) < v_cap v)
     then (b', Some (length (v_list v)))
     else if v_grow v && ok then (b', Some (length (v_list v)))
     else (b, None)) /\
   ((length (v_list v) < v_cap v \/ v_grow v && ok = true) ->
     b_sz b' = S (b_sz b) /\ b_sz b < b_cap b' /\
     take (b_sz b) (b_slots b') = take (b_sz b) (b_slots b) /\
     b_alloc b' = b_alloc b /\
     b_cap b' = (if decide (length (v_list v) < v_cap v) then b_cap b
                 else grown (b_cap b))).
Proof.
  intros Hr. pose proof (rep_sz _ _ Hr) as Hs.
  destruct Hr as (Hc & Hle & Hcap & Hg).
  unfold buf_alloc_back. rewrite <- Hs, <- Hcap, <- Hg.
  destruct (decide (b_sz b < b_cap b)) as [Hlt|Hlt].
  - destruct (Nat.eqb_spec (b_sz b) (b_cap b)) as [E|E]; [lia|].
    eexists. split; [reflexivity|].
    intros _. simpl. unfold b_cap in *; simpl. split_and!; try done; lia.
  - destruct (Nat.eqb_spec (b_sz b) (b_cap b)) as [E|E]; [|lia].
    destruct (b_alloc b) eqn:Ea; simpl.
    2: { exists b. unfold buf_alloc; simpl.
         split; [|intros [?|?]; [lia|done]].
         destruct (b_cap b =? 0); reflexivity. }
    destruct ok; simpl.
    2: { exists b. split; [|intros [?|?]; [lia|done]].
         unfold buf_alloc, start_capacity; simpl.
         destruct (Nat.eqb_spec (b_cap b) 0); simpl; [done|].
         destruct (Nat.eqb_spec (b_cap b * 2) 0); simpl; [lia|done]. }
    unfold buf_alloc, start_capacity; simpl.
    destruct (Nat.eqb_spec (b_cap b) 0) as [E0|E0]; simpl.
    + eexists. split; [reflexivity|]. intros _. cbn [b_sz b_slots b_alloc].
      unfold b_cap at 1 2; cbn [b_slots]. rewrite realloc_length, E0 in *. simpl.
      split_and!; try done; try lia.
      rewrite take_realloc; [done|lia|unfold b_cap in *; lia].
    + destruct (Nat.eqb_spec (b_cap b * 2) 0); simpl; [lia|].
      eexists. split; [reflexivity|]. intros _. cbn [b_sz b_slots b_alloc].
      change (b_cap (Buf ?s _ _)) with (length s).
      unfold b_cap at 2 3. cbn [b_slots]. rewrite !realloc_length.
      split_and!; try done; try (unfold b_cap in *; lia).
      * rewrite take_realloc; [done|unfold b_cap in *; lia|unfold b_cap in *; lia].
      * unfold grown, b_cap in *. destruct (length (b_slots b)); lia.
Qed.

Lemma step_refines b v o v' r :
  rep b v -> vec_step v o = Some (v', r) ->
  exists b', buf_step b o = Ok (b', r) /\ rep b' v'.
Proof.
  intros Hr. pose proof (rep_sz _ _ Hr) as Hs. pose proof Hr as Hr0.
  destruct Hr0 as (Hc & Hle & Hcap & Hg).
  destruct v as [l cap g]; simpl in *.
  destruct o as [x ok| |n|i j|i x|d s|c h ok| | | |]; simpl.
  - (* push *)
    destruct (alloc_back_spec b _ ok Hr) as (b1 & Heq & Hpost); simpl in *.
    unfold buf_push_back. rewrite Heq.
    assert (Hgo : forall cap', b_cap b1 = cap' ->
      (length l < cap \/ g && ok = true) ->
      exists b', (let '(b', r0) := (b1, Some (length l)) in
         match r0 with None => Ok (b', None)
         | Some i => s ← slot_set (b_slots b') i (Some x);
                     Ok (Buf s (b_sz b') (b_alloc b'), Some i) end) =
         Ok (b', Some (length l)) /\ rep b' (Vec (l ++ [x]) cap' g)).
    { intros cap' Hcap' Hor. destruct (Hpost Hor) as (Hs1 & Hlt & Htk & Ha & _).
      eexists. rewrite slot_set_Ok by (unfold b_cap in *; lia). split; [reflexivity|].
      split_and!; simpl.
      - unfold buf_contents; simpl. rewrite Hs1, <- Hs.
        rewrite take_S_insert by (unfold b_cap in *; lia).
        rewrite Htk. unfold buf_contents in Hc. rewrite Hc, fmap_app. done.
      - unfold b_cap in *; simpl. rewrite insert_length. lia.
      - unfold b_cap in *; simpl. rewrite insert_length. lia.
      - congruence. }
    destruct (decide (length l < cap)).
    + intros [= <- <-]. destruct (Hgo cap) as (b' & E & Hr'); [|by left|].
      { destruct Hpost as (_&_&_&_&->); [by left|]. done. }
      rewrite E. simpl. eauto.
    + destruct (g && ok) eqn:Eg; intros [= <- <-].
      * destruct (Hgo (grown cap)) as (b' & E & Hr'); [|by right|].
        { destruct Hpost as (_&_&_&_&->); [by right|]. by rewrite Hcap. }
        rewrite E. simpl. eauto.
      * simpl. eauto.
  - (* pop *)
    unfold buf_pop_back, buf_pop_back_n.
    destruct (length l) eqn:El; intros [= <- <-].
    + nb. eexists. split; [reflexivity|]. done.
    + nb. eexists. split; [reflexivity|].
      split_and!; simpl; try done.
      2: { unfold b_cap in *; simpl. lia. }
      unfold buf_contents in *; simpl. rewrite fmap_take, <- Hc, take_take.
      f_equal. lia.
  - (* popn *)
    unfold buf_pop_back_n. rewrite Hs. destruct (decide (n <= length l)).
    + intros [= <- <-]. nb. eexists. split; [reflexivity|].
      split_and!; simpl; try done.
      2: { unfold b_cap in *; simpl. lia. }
      unfold buf_contents in *; simpl. rewrite fmap_take, <- Hc, take_take.
      f_equal. lia.
    + intros [= <- <-]. nb. eauto.
  - (* swap *)
    unfold buf_swap. rewrite Hcap.
    destruct (decide (cap <= i \/ cap <= j \/ i = j)) as [H|H].
    + intros [= <- <-].
      assert ((cap <=? i) || (cap <=? j) || (j =? i) = true) as ->.
      { rewrite !orb_true_iff, !Nat.leb_le, Nat.eqb_eq. intuition. }
      eauto.
    + assert ((cap <=? i) || (cap <=? j) || (j =? i) = false) as ->.
      { rewrite !orb_false_iff, !Nat.leb_gt, Nat.eqb_neq. lia. }
      destruct (l !! i) as [x|] eqn:Ei; [|done].
      destruct (l !! j) as [y|] eqn:Ej; [|done]. intros [= <- <-].
      pose proof (lookup_lt_Some _ _ _ Ei). pose proof (lookup_lt_Some _ _ _ Ej).
      rewrite (rep_get _ _ _ _ Hr Ei).
      simpl.
      rewrite (rep_get _ _ _ _ Hr Ej).
      simpl. rewrite slot_set_Ok by (unfold b_cap in *; lia). simpl.
      rewrite slot_set_Ok by (rewrite insert_length; unfold b_cap in *; lia). simpl.
      eexists. split; [reflexivity|].
      rewrite list_insert_commute by lia.
      assert (i < b_cap b) by lia. assert (j < b_cap b) by lia.
      pose proof (rep_insert _ _ j x Hr ltac:(done)) as Hr1.
      refine (rep_insert _ _ i y Hr1 _). unfold b_cap in *; simpl. rewrite insert_length. lia.
  - (* write *)
    unfold buf_write, buf_at. rewrite Hcap.
    destruct (decide (cap <= i)); intros [= <- <-].
    + destruct (cap =? 0); [eauto|]. nb. eauto.
    + nb. rewrite slot_set_Ok by (unfold b_cap in *; lia). simpl.
      eexists. split; [reflexivity|]. by apply (rep_insert _ _ i x Hr); lia.
  - (* copy *)
    unfold buf_copy. rewrite Hcap.
    destruct (decide (cap <= d \/ cap <= s)) as [H|H].
    + intros [= <- <-].
      assert ((cap <=? d) || (cap <=? s) = true) as ->.
      { rewrite !orb_true_iff, !Nat.leb_le. intuition. }
      eauto.
    + assert ((cap <=? d) || (cap <=? s) = false) as ->.
      { rewrite !orb_false_iff, !Nat.leb_gt. lia. }
      destruct (l !! s) as [x|] eqn:Es; [|done]. intros [= <- <-].
      pose proof (lookup_lt_Some _ _ _ Es).
      destruct (Nat.eqb_spec d s) as [->|].
      * rewrite list_insert_id by done. simpl. eauto.
      * rewrite (rep_get _ _ _ _ Hr Es).
        simpl. rewrite slot_set_Ok by (unfold b_cap in *; lia). simpl.
        eexists. split; [reflexivity|]. apply (rep_insert _ _ d x Hr). lia.
  - (* reserve *)
    unfold buf_alloc. destruct h; simpl; [|intros [= <- <-]; eauto].
    destruct (decide (c <> 0 /\ ok = false)) as [[H1 ->]|H].
    + intros [= <- <-]. nb. simpl. eauto.
    + destruct (decide (length l <= c)); [|done]. intros [= <- <-].
      assert (negb (c =? 0) && negb ok = false) as ->.
      { destruct (Nat.eqb_spec c 0), ok; simpl; try done. exfalso; auto. }
      eexists. split; [reflexivity|].
      split_and!; simpl; try done.
      * unfold buf_contents in *; simpl. rewrite take_realloc by (unfold b_cap in *; lia). done.
      * unfold b_cap; simpl. rewrite realloc_length. lia.
      * unfold b_cap; simpl. by rewrite realloc_length.
  - intros [= <- <-]. unfold buf_back, buf_at. rewrite Hs.
    destruct (length l); [eauto|]. nb. eauto.
  - unfold buf_front, buf_at. rewrite Hcap.
    destruct (decide (cap = 0)); intros [= <- <-]; nb; eauto.
  - intros [= <- <-]. unfold buf_size. rewrite Hs. eauto.
  - intros [= <- <-]. rewrite Hcap. eauto.
Qed.

Lemma run_refines b v os v' rs :
  rep b v -> vec_run v os = Some (v', rs) ->
  exists b', buf_run b os = Ok (b', rs) /\ rep b' v'.
Proof.
  revert b v rs. induction os as [|o os IH]; intros b v rs Hr; simpl.
  - intros [= <- <-]. eauto.
  - destruct (vec_step v o) as [[v1 r]|] eqn:E1; [|done]. simpl.
    destruct (vec_run v1 os) as [[v2 rs']|] eqn:E2; [|done]. simpl.
    intros [= <- <-].
    destruct (step_refines _ _ _ _ _ Hr E1) as (b1 & -> & Hr1). simpl.
    destruct (IH _ _ _ Hr1 E2) as (b2 & -> & Hr2). simpl. eauto.
Qed.

Lemma rep_fresh cap g : rep (fresh_buf cap g) (Vec [] cap g).
Proof.
  split_and!; simpl; try done; unfold b_cap; simpl; rewrite ?replicate_length; lia.
Qed.

Lemma history_refines cap g os v rs :
  vec_run (Vec [] cap g) os = Some (v, rs) ->
  exists b, buf_run (fresh_buf cap g) os = Ok (b, rs) /\
    buf_contents b = Some <$> v_list v /\
    buf_size b = length (v_list v) /\
    b_cap b = v_cap v /\ buf_size b <= b_cap b.
Proof.
  intros H. destruct (run_refines _ _ _ _ _ (rep_fresh cap g) H) as (b & Hb & Hr).
  exists b. split; [done|]. pose proof (rep_sz _ _ Hr). destruct Hr as (?&?&?&?).
  unfold buf_size. auto.
Qed.

(** Insert. *)
Lemma insert_at_end b x ok : b_cap b <> 0 ->
  buf_insert b (b_sz b) x ok = buf_push_back b x ok.
Proof. intros H. unfold buf_insert. nb. done. Qed.

Lemma insert_mid b i x ok : i < b_sz b -> b_sz b < b_cap b ->
  exists b', buf_insert b i x ok = Ok (b', Some i) /\
    b_sz b' = S (b_sz b) /\
    (exists y, buf_contents b' = take i (buf_contents b) ++ y :: drop i (buf_contents b)).
Proof.
  intros Hi Hc. unfold buf_insert.
  nb; simpl. unfold memmove. unfold b_cap in *.
  nb; simpl. eexists. split; [reflexivity|]. split; [simpl; lia|].
  unfold buf_contents; simpl.
  destruct (lookup_lt_is_Some_2 (b_slots b) i) as [y Hy]; [lia|].
  exists y.
  replace (i + 1) with (S i) by lia.
  rewrite (take_S_r _ _ _ Hy). rewrite <- !app_assoc.
  rewrite take_take. replace (i `min` b_sz b) with i by lia.
  rewrite take_app_ge by (rewrite take_length; lia).
  f_equal. rewrite take_length.
  replace (b_sz b + 1 - i `min` length (b_slots b)) with (S (b_sz b - i)) by lia.
  simpl. f_equal. rewrite take_app_alt.
  2: { rewrite take_length, drop_length. lia. }
  rewrite take_drop_commute. f_equal. f_equal. lia.
Qed.

(** Erase. *)
Lemma erase_last b i : b_sz b <= b_cap b -> i < b_sz b -> b_sz b <= i + 2 ->
  exists b', buf_erase b i = Ok (b', OK) /\
    buf_contents b' = delete i (buf_contents b) /\ b_sz b' = b_sz b - 1.
Proof.
  intros Hle Hi Hn. unfold buf_erase.
  destruct (Nat.eqb_spec (b_sz b) 0); [lia|].
  destruct (Nat.leb_spec (b_sz b) i); [lia|]. simpl.
  destruct (Nat.eqb_spec (b_sz b) 1) as [E|].
  { eexists. split; [reflexivity|]. unfold buf_contents; simpl. rewrite E.
    assert (i = 0) as -> by lia. split; [|lia].
    destruct (b_slots b); done. }
  destruct (Nat.eqb_spec i (b_sz b - 1)) as [E|].
  { eexists. split; [reflexivity|]. unfold buf_contents; simpl. split; [|done].
    rewrite delete_take_drop. rewrite take_take, (drop_ge (take _ _)).
    2: { rewrite take_length. lia. }
    rewrite app_nil_r. f_equal. lia. }
  unfold memcpy, overlap, memmove. unfold b_cap in *. nb; simpl.
  eexists. split; [reflexivity|]. split; [|done]. unfold buf_contents; simpl.
  rewrite delete_take_drop, take_take. replace (i `min` b_sz b) with i by lia.
  rewrite take_app_ge by (rewrite take_length; lia).
  f_equal. rewrite take_length. replace (i + 1) with (S i) by lia.
  rewrite take_app_alt by (rewrite take_length, drop_length; lia).
  rewrite take_drop_commute. f_equal. f_equal. lia.
Qed.

Lemma erase_overlap b i : i + 2 < b_sz b -> buf_erase b i = UB.
Proof.
  intros. unfold buf_erase. nb; simpl.
  unfold memcpy, overlap. nb; simpl; done.
Qed.

Lemma erase_bad b i : b_sz b <= i -> buf_erase b i = Ok (b, INPUT_ERR).
Proof. intros. unfold buf_erase. nb; simpl; done. Qed.

(** Iteration. *)
Lemma walk_forward b k i :
  b_cap b <> 0 -> b_sz b <= b_cap b -> i + k = b_sz b ->
  forall f, k <= f ->
  buf_walk f (buf_next b) b (Some (Z.of_nat i)) (buf_end b)
  = Ok (drop i (buf_contents b)).
Proof.
  intros Hc Hle. revert i. induction k as [|k IH]; intros i Hik f Hf.
  - assert (i = b_sz b) as -> by lia. unfold buf_end.
    destruct (Nat.eqb_spec (b_cap b) 0); [done|].
    replace (drop (b_sz b) (buf_contents b)) with (@nil (option A)).
    2: { symmetry. apply drop_ge. unfold buf_contents. rewrite take_length. lia. }
    destruct f; cbn [buf_walk]; by rewrite decide_True.
  - destruct f as [|f]; [lia|]. simpl. unfold buf_end.
    destruct (Nat.eqb_spec (b_cap b) 0); [done|].
    rewrite decide_False by (intros [=]; lia).
    destruct (Z.ltb_spec (Z.of_nat i) 0); [lia|].
    rewrite Nat2Z.id.
    destruct (lookup_lt_is_Some_2 (b_slots b) i) as [y Hy]; [unfold b_cap in *; lia|].
    rewrite (slot_get_Ok _ _ _ Hy). simpl.
    specialize (IH (S i) ltac:(lia) f ltac:(lia)).
    unfold buf_end in IH. destruct (Nat.eqb_spec (b_cap b) 0); [done|].
    replace (buf_next b (Z.of_nat i)) with (Some (Z.of_nat (S i))).
    2: { unfold buf_next. destruct (Nat.eqb_spec (b_cap b) 0); [done|].
         destruct (Z.leb_spec (Z.of_nat (b_cap b)) (Z.of_nat i)); [lia|].
         f_equal. lia. }
    rewrite IH. simpl. f_equal. symmetry. apply drop_S.
    unfold buf_contents. rewrite lookup_take by lia. done.
Qed.

(** The reverse walk from the last stored element, as documented. *)
Lemma walk_backward b k :
  b_cap b <> 0 -> b_sz b <= b_cap b -> k <= b_cap b ->
  forall f, k <= f ->
  buf_walk f (buf_rnext b) b (Some (Z.of_nat k - 1)%Z) (buf_rend b)
  = Ok (reverse (take k (b_slots b))).
Proof.
  intros Hc Hle. induction k as [|k IH]; intros Hk f Hf.
  - unfold buf_rend.
    destruct (Nat.eqb_spec (b_cap b) 0); [done|].
    destruct f; cbn [buf_walk]; by rewrite decide_True.
  - destruct f as [|f]; [lia|]. simpl buf_walk. unfold buf_rend.
    destruct (Nat.eqb_spec (b_cap b) 0); [done|].
    rewrite decide_False by (intros [=]; lia).
    destruct (Z.ltb_spec (Z.of_nat (S k) - 1) 0); [lia|].
    replace (Z.to_nat (Z.of_nat (S k) - 1)) with k by lia.
    destruct (lookup_lt_is_Some_2 (b_slots b) k) as [y Hy]; [unfold b_cap in *; lia|].
    rewrite (slot_get_Ok _ _ _ Hy). simpl.
    specialize (IH ltac:(lia) f ltac:(lia)).
    unfold buf_rend in IH. destruct (Nat.eqb_spec (b_cap b) 0); [done|].
    replace (buf_rnext b (Z.of_nat (S k) - 1)) with (Some (Z.of_nat k - 1)%Z).
    2: { unfold buf_rnext. destruct (Nat.eqb_spec (b_cap b) 0); [done|].
         destruct (Z.leb_spec (Z.of_nat (S k) - 1) (-1)); [lia|].
         f_equal. lia. }
    rewrite IH. simpl. f_equal.
    rewrite (take_S_r _ _ _ Hy). by rewrite reverse_app.
Qed.

(** Sizes. *)
Lemma size_plus_nowrap b n :
  b_sz b <= b_cap b -> (N.of_nat (b_sz b) + n < 2 ^ 64)%N ->
  let '(b', r) := buf_size_plus b n in
  b_sz b' <= b_cap b' /\
  (r = OK <-> (N.of_nat (b_sz b) + n <= N.of_nat (b_cap b))%N) /\
  (r = OK -> N.of_nat (b_sz b') = (N.of_nat (b_sz b) + n)%N).
Proof.
  intros Hle Hn. unfold buf_size_plus, size_t_mod.
  rewrite N.mod_small by done.
  destruct (N.ltb_spec (N.of_nat (b_cap b)) (N.of_nat (b_sz b) + n)); unfold b_cap in *; simpl.
  - split; [done|]. split; [|done]. split; [done|lia].
  - split; [lia|]. split; [done|]. intros _. lia.
Qed.

Lemma size_le_cap_ops b (n : N) :
  b_sz b <= b_cap b -> (N.of_nat (b_cap b) < 2^64)%N ->
  b_sz (fst (buf_size_plus b n)) <= b_cap b /\
  b_sz (fst (buf_size_minus b n)) <= b_cap b /\
  b_sz (fst (buf_size_set b n)) <= b_cap b.
Proof.
  intros Hle _. unfold buf_size_plus, buf_size_minus, buf_size_set.
  split_and!.
  - case_match; simpl; [done|]. apply N.ltb_ge in H. lia.
  - case_match; simpl; [lia|]. lia.
  - case_match; simpl; [done|]. apply N.ltb_ge in H. lia.
Qed.

End proofs.
