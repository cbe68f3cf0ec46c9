(** Proofs about the flat priority queue model. *)
From stdpp Require Import base numbers option list list_numbers.
From Verif Require Import Common BufferModel ArrayLemmas OrderSpec FpqModel FpqSpec.
From Coq Require Import ZifyNat.
Ltac Zify.zify_post_hook ::= Z.div_mod_to_equations.

Section proofs.
Context {A : Type} (cmp : A -> A -> comparison) (order : comparison).
Context (Hcmp : total_preorder cmp) (Hord : order <> Eq).
Implicit Types (b : buf A) (c : list A) (x y z : A).

Notation par j := ((j - 1) / 2).
(** [x] does not beat [y]. *)
Definition nb x y := cmp x y <> order.

Lemma is_order_true r : is_order order r = true <-> r = order.
Proof. unfold is_order. destruct r, order; split; congruence. Qed.

Lemma nb_refl x : nb x x.
Proof.
  unfold nb. pose proof (tp_opp _ Hcmp x x). destruct (cmp x x), order; simpl in *; congruence.
Qed.
Lemma beats_nb x y : cmp x y = order -> nb y x.
Proof.
  unfold nb. rewrite (tp_opp _ Hcmp x y). intros ->. destruct order; simpl in *; congruence.
Qed.
Lemma nb_trans x y z : nb x y -> nb y z -> nb x z.
Proof.
  unfold nb. pose proof (tp_trans _ Hcmp) as T. pose proof (tp_opp _ Hcmp) as O.
  destruct order eqn:E; [congruence| |].
  - intros H1 H2 H3. apply (T z y x); rewrite (O _ _); [| |rewrite H3; done].
    + destruct (cmp y z) eqn:E2; simpl; congruence.
    + destruct (cmp x y) eqn:E2; simpl; congruence.
  - apply T.
Qed.

(** The array holds the list [c]; slot [length c] and beyond are free. *)
Definition arr b c : Prop :=
  b_sz b = length c /\ length c <= b_cap b /\
  forall i x, c !! i = Some x -> b_slots b !! i = Some (Some x).

Lemma arr_contents b c : arr b c <-> buf_contents b = Some <$> c /\ b_sz b = length c.
Proof.
  unfold arr, buf_contents. split.
  - intros (Hs & Hle & H). split; [|done]. apply list_eq. intros i.
    rewrite list_lookup_fmap. destruct (decide (i < length c)).
    + rewrite lookup_take by lia. destruct (lookup_lt_is_Some_2 c i) as [x Hx]; [done|].
      rewrite Hx. by apply H.
    + rewrite lookup_take_ge by lia. by rewrite (lookup_ge_None_2 c) by lia.
  - intros (Hc & Hs). split_and!; [done| |].
    + pose proof (f_equal length Hc) as Hl. rewrite take_length, fmap_length in Hl.
      unfold b_cap. lia.
    + intros i x Hx. pose proof (lookup_lt_Some _ _ _ Hx).
      assert (take (b_sz b) (b_slots b) !! i = Some (Some x)) as H1
        by (rewrite Hc, list_lookup_fmap, Hx; done).
      rewrite lookup_take in H1 by lia. done.
Qed.

Lemma rd_Ok b c i x : arr b c -> c !! i = Some x -> rd b i = Ok x.
Proof. intros (_ & _ & H) Hx. unfold rd, slot_get. rewrite (H _ _ Hx). done. Qed.

Lemma wins_Ok b c i j x y : arr b c -> c !! i = Some x -> c !! j = Some y ->
  wins cmp order b i j = Ok (is_order order (cmp x y)).
Proof. intros Ha Hx Hy. unfold wins. rewrite (rd_Ok _ _ _ _ Ha Hx). simpl. by rewrite (rd_Ok _ _ _ _ Ha Hy). Qed.

(** Exchange two list elements. *)
Definition xchg c i j x y : list A := <[i := y]> (<[j := x]> c).

Lemma xchg_lookup c i j x y k : i < length c -> j < length c -> i <> j ->
  xchg c i j x y !! k = if decide (k = i) then Some y else if decide (k = j) then Some x else c !! k.
Proof.
  intros Hi Hj Hne. unfold xchg. destruct (decide (k = i)) as [->|].
  - rewrite list_lookup_insert; [done|]. by rewrite insert_length.
  - rewrite list_lookup_insert_ne by done. destruct (decide (k = j)) as [->|].
    + by rewrite list_lookup_insert.
    + by rewrite list_lookup_insert_ne.
Qed.
Lemma xchg_length c i j x y : length (xchg c i j x y) = length c.
Proof. unfold xchg. by rewrite !insert_length. Qed.

Lemma insert_perm c i x y : c !! i = Some y -> x :: c ≡ₚ y :: <[i := x]> c.
Proof.
  revert i. induction c as [|z c IH]; intros [|i] H; simplify_eq/=; try done.
  - apply perm_swap.
  - rewrite perm_swap, (IH _ H). apply perm_swap.
Qed.

Lemma xchg_perm c i j x y : c !! i = Some x -> c !! j = Some y -> i <> j ->
  xchg c i j x y ≡ₚ c.
Proof.
  intros Hi Hj Hne. unfold xchg.
  assert (H1 : x :: c ≡ₚ y :: <[j := x]> c) by by apply insert_perm.
  assert (H2 : y :: <[j := x]> c ≡ₚ x :: <[i := y]> (<[j := x]> c)).
  { apply insert_perm. rewrite list_lookup_insert_ne by done. done. }
  rewrite H2 in H1. symmetry. by apply Permutation_cons_inv in H1.
Qed.

Lemma swap_Ok b c t i j x y :
  arr b c -> c !! i = Some x -> c !! j = Some y -> i <> j ->
  length c <= t -> t < b_cap b ->
  exists b', swap b (Some t) i j = Ok b' /\ arr b' (xchg c i j x y) /\
    b_cap b' = b_cap b /\ b_sz b' = b_sz b /\ b_alloc b' = b_alloc b.
Proof.
  intros (Hs & Hle & H) Hx Hy Hne Ht Htc.
  pose proof (lookup_lt_Some _ _ _ Hx) as Hi. pose proof (lookup_lt_Some _ _ _ Hy) as Hj.
  unfold swap.
  destruct (Nat.leb_spec (b_cap b) i); [lia|]. destruct (Nat.leb_spec (b_cap b) j); [lia|].
  destruct (Nat.eqb_spec j i); [lia|]. simpl. unfold b_cap in *.
  rewrite (sget_Ok _ _ _ (H _ _ Hx)). simpl.
  rewrite (sset_Ok _ t) by lia. simpl.
  rewrite (sget_Ok _ j (Some y)) by (rewrite list_lookup_insert_ne by lia; by apply H). simpl.
  rewrite (sset_Ok _ i) by (rewrite insert_length; lia). simpl.
  rewrite (sget_Ok _ t (Some x))
    by (rewrite list_lookup_insert_ne by lia; rewrite list_lookup_insert by lia; done). simpl.
  rewrite (sset_Ok _ j) by (rewrite !insert_length; lia). simpl.
  eexists. split; [done|]. unfold set_slots.
  split; [|unfold b_cap; cbn [b_slots b_sz b_alloc]; rewrite !insert_length; done].
  split; [|split].
  - rewrite xchg_length. done.
  - rewrite xchg_length. unfold b_cap; cbn [b_slots]. rewrite !insert_length. done.
  - intros k z. rewrite xchg_lookup by lia. cbn [b_slots].
    destruct (decide (k = i)) as [->|Hki].
    + intros [= ->]. rewrite list_lookup_insert_ne by done. rewrite list_lookup_insert; [done|].
      rewrite insert_length. lia.
    + destruct (decide (k = j)) as [->|Hkj].
      * intros [= ->]. rewrite list_lookup_insert; [done|]. rewrite !insert_length. lia.
      * intros Hz. pose proof (lookup_lt_Some _ _ _ Hz).
        rewrite !list_lookup_insert_ne by lia. by apply H.
Qed.

(** The edge from [j] to its parent is in order. *)
Definition edge c j : Prop :=
  forall x p, 0 < j -> c !! j = Some x -> c !! par j = Some p -> nb x p.

Lemma heap_edge c : heap cmp order c <-> forall j, edge c j.
Proof. unfold heap, edge, nb. split; intros H; intros; by eapply H. Qed.

Lemma bubble_up_Ok fuel b c t i x :
  arr b c -> c !! i = Some x -> i <= fuel -> length c <= t -> t < b_cap b ->
  (forall j, j <> i -> edge c j) ->
  (forall j y p, 0 < i -> 0 < j -> par j = i -> c !! j = Some y -> c !! par i = Some p -> nb y p) ->
  exists b' c' k, bubble_up cmp order fuel b (Some t) i = Ok (b', k) /\ arr b' c' /\
    c' ≡ₚ c /\ c' !! k = Some x /\ (forall j, edge c' j) /\
    b_cap b' = b_cap b /\ b_alloc b' = b_alloc b.
Proof.
  revert b c i. induction fuel as [|f IH]; intros b c i Ha Hx Hf Ht Htc He Hg;
    (destruct i as [|i]; [exists b, c, 0; split_and!; try done|]).
  - intros j. destruct (decide (j = 0)) as [->|]; [intros ? ? ?; lia|auto].
  - lia.
  - intros j. destruct (decide (j = 0)) as [->|]; [intros ? ? ?; lia|auto].
  - cbn [bubble_up]. set (p := i / 2).
    assert (Hpar : par (S i) = p) by (unfold p; f_equal; lia).
    pose proof (lookup_lt_Some _ _ _ Hx) as Hlt.
    assert (p < S i) by (unfold p; lia).
    destruct (lookup_lt_is_Some_2 c p) as [y Hy]; [lia|].
    rewrite (wins_Ok _ _ _ _ _ _ Ha Hx Hy). cbn [mbind outcome_bind obind].
    destruct (is_order order (cmp x y)) eqn:Ew.
    + apply is_order_true in Ew.
      destruct (swap_Ok b c t p (S i) y x Ha Hy Hx ltac:(lia) Ht Htc)
        as (b1 & -> & Ha1 & Hc1 & Hs1 & Hal1). cbn [mbind outcome_bind obind].
      set (c1 := xchg c p (S i) y x) in *.
      assert (Hc1l : forall k, c1 !! k = if decide (k = p) then Some x
                       else if decide (k = S i) then Some y else c !! k).
      { intros k. apply xchg_lookup; lia. }
      destruct (IH b1 c1 p) as (b2 & c2 & k & E2 & Ha2 & Hp2 & Hk2 & He2 & Hc2 & Hal2); try done.
      * rewrite Hc1l, decide_True by done. done.
      * lia.
      * unfold c1. by rewrite xchg_length.
      * lia.
      * intros j Hj u v H0. rewrite !Hc1l.
        destruct (decide (j = p)) as [|_]; [done|].
        destruct (decide (j = S i)) as [->|Hji].
        -- rewrite Hpar, decide_True by done. intros [= <-] [= <-]. by apply beats_nb.
        -- intros Hu. destruct (decide (par j = p)) as [Epj|Hpp].
           ++ intros [= <-]. apply nb_trans with y; [|by apply beats_nb].
              apply (He j Hji); [done|done|]. by rewrite Epj.
           ++ destruct (decide (par j = S i)) as [Epj|Hpj].
              ** intros [= <-]. eapply (Hg j); try done; [lia|]. by rewrite Hpar.
              ** intros Hv. by apply (He j Hji).
      * intros j u v H0 H1 Hpj. rewrite !Hc1l.
        rewrite (decide_False (P := j = p)) by lia.
        rewrite (decide_False (P := par p = p)) by lia.
        rewrite (decide_False (P := par p = S i)) by lia.
        intros Hu Hv. assert (Hyv : nb y v).
        { by apply (He p ltac:(lia)). }
        destruct (decide (j = S i)) as [->|Hji]; [by simplify_eq|].
        apply nb_trans with y; [|done]. apply (He j Hji); try done. by rewrite Hpj.
      * exists b2, c2, k. split_and!; try done.
        -- rewrite Hp2. apply xchg_perm; [done|done|lia].
        -- congruence.
        -- congruence.
    + exists b, c, (S i). split_and!; try done.
      intros j. destruct (decide (j = S i)) as [->|]; [|auto].
      intros u v _ Hu Hv. rewrite Hpar in Hv. simplify_eq.
      intros Hw. apply is_order_true in Hw. congruence.
Qed.

(** Below [k] nothing is claimed (used while building a heap). *)
Lemma bubble_down_Ok k fuel b c t i x :
  arr b c -> c !! i = Some x -> length c <= i + fuel -> length c <= t -> t < b_cap b ->
  k <= i ->
  (forall j, k <= par j -> par j <> i -> edge c j) ->
  (forall j y p, k <= par i -> 0 < i -> 0 < j -> par j = i -> c !! j = Some y -> c !! par i = Some p -> nb y p) ->
  exists b' c' m, bubble_down cmp order fuel b (Some t) i = Ok (b', m) /\ arr b' c' /\
    c' ≡ₚ c /\ c' !! m = Some x /\ (forall j, k <= par j -> edge c' j) /\
    b_cap b' = b_cap b /\ b_alloc b' = b_alloc b.
Proof.
  revert b c i. induction fuel as [|f IH]; intros b c i Ha Hx Hf Ht Htc Hk He Hg.
  { pose proof (lookup_lt_Some _ _ _ Hx). lia. }
  pose proof Ha as (Hs & Hle & _). pose proof (lookup_lt_Some _ _ _ Hx) as Hlt.
  cbn [bubble_down]. rewrite Hs.
  destruct (Nat.leb_spec (length c) (i * 2 + 1)) as [Hleaf|Hch].
  - exists b, c, i. split_and!; try done. intros j Hj.
    destruct (decide (par j = i)) as [E|]; [|auto].
    intros u v H0 Hu. apply lookup_lt_Some in Hu. lia.
  - (* choose the child *)
    destruct (lookup_lt_is_Some_2 c (i * 2 + 1)) as [l Hl]; [lia|].
    assert (exists n y, (if i * 2 + 1 + 1 <? length c
       then wins cmp order b (i * 2 + 1 + 1) (i * 2 + 1) ≫= (λ w : bool, Ok (if w then i * 2 + 1 + 1 else i * 2 + 1))
       else Ok (i * 2 + 1)) = Ok n /\ c !! n = Some y /\ par n = i /\ i < n /\
       (forall j z, 0 < j -> par j = i -> c !! j = Some z -> nb z y)) as (n & y & -> & Hy & Hpn & Hin & Hbest).
    { destruct (Nat.ltb_spec (i * 2 + 1 + 1) (length c)).
      - destruct (lookup_lt_is_Some_2 c (i * 2 + 1 + 1)) as [r Hr]; [lia|].
        rewrite (wins_Ok _ _ _ _ _ _ Ha Hr Hl). cbn [mbind outcome_bind obind].
        destruct (is_order order (cmp r l)) eqn:Ew.
        + apply is_order_true in Ew. exists (i * 2 + 1 + 1), r. split_and!; try done; [lia|lia|].
          intros j z H0 Hj Hz. assert (j = i * 2 + 1 \/ j = i * 2 + 1 + 1) as [-> | ->] by lia.
          * simplify_eq. by apply beats_nb.
          * simplify_eq. apply nb_refl.
        + exists (i * 2 + 1), l. split_and!; try done; [lia|lia|].
          intros j z H0 Hj Hz. assert (j = i * 2 + 1 \/ j = i * 2 + 1 + 1) as [-> | ->] by lia.
          * simplify_eq. apply nb_refl.
          * simplify_eq. intros Hw. apply is_order_true in Hw. congruence.
      - exists (i * 2 + 1), l. split_and!; try done; [lia|lia|].
        intros j z H0 Hj Hz. pose proof (lookup_lt_Some _ _ _ Hz).
        assert (j = i * 2 + 1) as -> by lia. simplify_eq. apply nb_refl. }
    cbn [mbind outcome_bind obind].
    rewrite (wins_Ok _ _ _ _ _ _ Ha Hy Hx). cbn [mbind outcome_bind obind].
    destruct (is_order order (cmp y x)) eqn:Ew.
    + apply is_order_true in Ew.
      destruct (swap_Ok b c t n i y x Ha Hy Hx ltac:(lia) Ht Htc)
        as (b1 & -> & Ha1 & Hc1 & Hs1 & Hal1). cbn [mbind outcome_bind obind].
      set (c1 := xchg c n i y x) in *.
      pose proof (lookup_lt_Some _ _ _ Hy) as Hnlt.
      assert (Hc1l : forall k, c1 !! k = if decide (k = n) then Some x
                       else if decide (k = i) then Some y else c !! k).
      { intros k'. apply xchg_lookup; lia. }
      destruct (IH b1 c1 n) as (b2 & c2 & m & E2 & Ha2 & Hp2 & Hk2 & He2 & Hc2 & Hal2); try done.
      * rewrite Hc1l, decide_True by done. done.
      * unfold c1. rewrite xchg_length. lia.
      * unfold c1. by rewrite xchg_length.
      * lia.
      * lia.
      * intros j Hj Hjn u v H0. rewrite !Hc1l.
        rewrite (decide_False (P := par j = n)) by done.
        destruct (decide (j = n)) as [->|Hjn'].
        -- rewrite (decide_True (P := par n = i)) by done. intros [= <-] [= <-]. by apply beats_nb.
        -- destruct (decide (par j = i)) as [Epj|Hpj].
           ++ rewrite (decide_False (P := j = i)) by lia.
              intros Hu [= <-]. by apply (Hbest j).
           ++ destruct (decide (j = i)) as [->|Hji].
              ** intros [= <-] Hv. apply (Hg n y v); first [done|lia].
              ** intros Hu Hv. by apply (He j).
      * intros j u v H0 H1 H2 Hpj. rewrite !Hc1l.
        rewrite (decide_False (P := j = n)) by lia.
        rewrite (decide_False (P := j = i)) by lia.
        rewrite Hpn. rewrite (decide_False (P := i = n)) by lia.
        rewrite (decide_True (P := i = i)) by done.
        intros Hu [= <-]. apply (He j); first [done|lia|by rewrite Hpj].
      * exists b2, c2, m. split_and!; try done.
        -- rewrite Hp2. apply xchg_perm; [done|done|lia].
        -- congruence.
        -- congruence.
    + exists b, c, i. split_and!; try done. intros j Hj.
      destruct (decide (par j = i)) as [E|]; [|auto].
      intros u v H0 Hu Hv. rewrite E in Hv. simplify_eq.
      apply nb_trans with y; [by apply (Hbest j)|].
      intros Hw. apply is_order_true in Hw. congruence.
Qed.

Notation fok := (fpq_ok cmp order).
Lemma fok_arr b c : fok b c <-> arr b c /\ (length c < b_cap b \/ c = []) /\ forall j, edge c j.
Proof.
  unfold fpq_ok. rewrite arr_contents, heap_edge. tauto.
Qed.

Lemma root_unbeaten c x : (forall j, edge c j) -> c !! 0 = Some x -> unbeaten cmp order x c.
Proof.
  intros He Hz0 y Hy. apply elem_of_list_lookup in Hy as [j Hj].
  change (nb y x). revert y Hj. induction j as [j IH] using lt_wf_ind. intros y Hj.
  destruct (decide (j = 0)) as [->|Hne]; [simplify_eq; apply nb_refl|].
  pose proof (lookup_lt_Some _ _ _ Hj).
  destruct (lookup_lt_is_Some_2 c (par j)) as [p Hp]; [lia|].
  apply nb_trans with p; [apply (He j); [lia|done|done]|]. by apply (IH (par j)); [lia|].
Qed.

Lemma front_Ok b c : fok b c ->
  (c = [] /\ fpq_front b = None) \/
  (exists x, fpq_front b = Some 0 /\ c !! 0 = Some x /\ rd b 0 = Ok x /\ unbeaten cmp order x c).
Proof.
  rewrite fok_arr. intros (Ha & Hcap & He). pose proof Ha as (Hs & Hle & _).
  unfold fpq_front. rewrite Hs. destruct c as [|x c]; [by left|right].
  exists x. simpl. unfold buf_at. destruct (Nat.leb_spec (b_cap b) 0); [simpl in *; lia|].
  split_and!; try done. - by apply (rd_Ok b (x :: c)). - by apply root_unbeaten.
Qed.

Lemma set_size_arr b c n : arr b c -> n <= length c -> arr (set_size b n) (take n c).
Proof.
  intros (Hs & Hle & H) Hn. split_and!; simpl.
  - rewrite take_length. lia.
  - rewrite take_length. unfold b_cap in *. simpl. lia.
  - intros i x Hx. apply lookup_take_Some in Hx as [Hx _]. by apply H.
Qed.

Lemma edges_take c n : (forall j, edge c j) -> forall j, edge (take n c) j.
Proof.
  intros He j x p Hz0 Hx Hp. apply lookup_take_Some in Hx as [Hx _].
  apply lookup_take_Some in Hp as [Hp _]. by apply (He j).
Qed.

(** Moving the last element over index [i] and dropping the last slot. *)
Definition fill c i : list A :=
  match last c with Some z => take (length c - 1) (<[i := z]> c) | None => c end.

Lemma fill_perm c i x : c !! i = Some x -> i < length c - 1 -> c ≡ₚ x :: fill c i.
Proof.
  intros Hx Hi. unfold fill. destruct (last c) as [z|] eqn:El.
  2: { rewrite last_None in El. subst. done. }
  rewrite last_lookup in El.
  destruct (lookup_lt_is_Some_2 c (pred (length c))) as [? E]; [lia|].
  assert (Hd : c = take (length c - 1) c ++ [z]).
  { rewrite <- (take_S_r c (length c - 1) z) by (rewrite <- El; f_equal; lia).
    rewrite take_ge; [done|lia]. }
  remember (take (length c - 1) c) as c0 eqn:Ec0.
  assert (Hl0 : length c0 = length c - 1) by (subst c0; rewrite take_length; lia).
  rewrite <- Hl0. rewrite Hd at 1 2.
  rewrite insert_app_l by lia. rewrite take_app_alt by (by rewrite insert_length).
  rewrite Permutation_app_comm. simpl. apply insert_perm.
  rewrite Hd, lookup_app_l in Hx by lia. done.
Qed.

Lemma pop_Ok b c : fok b c -> c <> [] ->
  exists b' c' x, fpq_pop cmp order b = Ok (b', OK) /\ c !! 0 = Some x /\ c ≡ₚ x :: c' /\
    fok b' c' /\ b_cap b' = b_cap b /\ b_alloc b' = b_alloc b.
Proof.
  intros Hok Hne. pose proof Hok as Hok'. rewrite fok_arr in Hok'.
  destruct Hok' as (Ha & Hcap & He).
  pose proof Ha as (Hs & Hle & _).
  destruct Hcap as [Hcap|?]; [|done].
  unfold fpq_pop. rewrite Hs.
  destruct (Nat.eqb_spec (length c) 0) as [E|_]; [by apply nil_length_inv in E|].
  destruct (Nat.eqb_spec (length c) 1) as [E|E1].
  - destruct c as [|x [|? ?]]; simpl in *; try lia. exists (set_size b 0), [], x.
    split_and!; try done. apply fok_arr. split_and!.
    + by apply (set_size_arr b [x] 0); [|simpl; lia].
    + by right.
    + intros j u v _ Hu. done.
  - assert (2 <= length c) by (destruct c as [|? [|? ?]]; simpl in *; [done|lia|lia]).
    destruct (lookup_lt_is_Some_2 c 0) as [x Hx]; [lia|].
    destruct (lookup_lt_is_Some_2 c (length c - 1)) as [z Hz]; [lia|].
    unfold buf_at. destruct (Nat.leb_spec (b_cap b) (length c)); [lia|].
    destruct (swap_Ok b c (length c) 0 (length c - 1) x z Ha Hx Hz ltac:(lia) ltac:(lia) ltac:(lia))
      as (b1 & -> & Ha1 & Hc1 & Hs1 & Hal1). cbn [mbind outcome_bind obind].
    set (c1 := take (length c - 1) (xchg c 0 (length c - 1) x z)).
    assert (Hfill : c1 = fill c 0).
    { unfold c1, fill, xchg. rewrite last_lookup.
      replace (pred (length c)) with (length c - 1) by lia. rewrite Hz.
      rewrite list_insert_commute by lia. rewrite take_insert by lia. done. }
    assert (Hl1 : length c1 = length c - 1) by (unfold c1; rewrite take_length, xchg_length; lia).
    assert (Ha2 : arr (set_size b1 (b_sz b1 - 1)) c1).
    { rewrite Hs1, Hs. apply set_size_arr; [done|]. rewrite xchg_length. lia. }
    assert (Hc1l : forall k, c1 !! k = if decide (k < length c - 1) then
                     if decide (k = 0) then Some z else c !! k else None).
    { intros k. unfold c1. destruct (decide (k < length c - 1)).
      - rewrite lookup_take by done. rewrite xchg_lookup by lia.
        destruct (decide (k = 0)); [done|]. rewrite decide_False by lia. done.
      - by rewrite lookup_take_ge by lia. }
    unfold down.
    destruct (bubble_down_Ok 0 (b_sz (set_size b1 (b_sz b1 - 1))) (set_size b1 (b_sz b1 - 1)) c1 (length c) 0 z)
      as (b2 & c2 & m & -> & Ha3 & Hp3 & _ & He3 & Hc3 & Hal3); try done.
    + rewrite Hc1l. rewrite decide_True by lia. done.
    + simpl. lia.
    + lia.
    + unfold b_cap in *. simpl. lia.
    + intros j _ Hj u v Hz0. rewrite !Hc1l.
      destruct (decide (j < length c - 1)); [|done].
      rewrite (decide_False (P := j = 0)) by lia.
      rewrite (decide_True (P := par j < length c - 1)) by lia.
      rewrite (decide_False (P := par j = 0)) by lia. by apply (He j).
    + lia.
    + cbn [mbind outcome_bind obind]. exists b2, c2, x. split_and!; try done.
      * rewrite Hp3, Hfill. apply fill_perm; [done|lia].
      * apply fok_arr. split_and!; [done| |intros j; apply He3; lia].
        left. apply Permutation_length in Hp3. rewrite Hp3, Hl1, Hc3. unfold b_cap in *. simpl. lia.
      * rewrite Hc3. done.
      * rewrite Hal3. done.
Qed.

Lemma erase_Ok b c h x : fok b c -> c !! h = Some x ->
  exists b' c', fpq_erase cmp order b h = Ok (b', OK) /\ c ≡ₚ x :: c' /\
    fok b' c' /\ b_cap b' = b_cap b /\ b_alloc b' = b_alloc b.
Proof.
  intros Hok Hx. pose proof Hok as Hok'. rewrite fok_arr in Hok'.
  destruct Hok' as (Ha & Hcap & He).
  pose proof Ha as (Hs & Hle & _). pose proof (lookup_lt_Some _ _ _ Hx) as Hh.
  destruct Hcap as [Hcap| ->]; [|done].
  unfold fpq_erase. rewrite Hs.
  destruct (Nat.eqb_spec (length c) 0) as [E|_]; [lia|].
  destruct (Nat.eqb_spec (length c) 1) as [E|E1].
  - destruct c as [|x' [|? ?]]; simpl in *; try lia. destruct h; [|lia]. simplify_eq/=.
    exists (set_size b 0), [].
    split_and!; try done. apply fok_arr. split_and!.
    + by apply (set_size_arr b [x] 0); [|simpl; lia].
    + by right.
    + intros j u v _ Hu. done.
  - destruct (Nat.ltb_spec h (length c)); [|lia]. cbn [oassert mbind outcome_bind obind].
    destruct (Nat.eqb_spec h (length c - 1)) as [->|Hhn].
    { exists (set_size b (length c - 1)), (take (length c - 1) c).
      split_and!; try done.
      - rewrite <- (firstn_all c) at 1.
        replace (length c) with (S (length c - 1)) at 1 by lia.
        change (firstn (S (length c - 1)) c) with (take (S (length c - 1)) c).
        rewrite (take_S_r _ _ _ Hx). symmetry. apply Permutation_cons_append.
      - apply fok_arr. split_and!.
        + apply set_size_arr; [done|lia].
        + left. rewrite take_length. unfold b_cap in *. simpl. lia.
        + by apply edges_take. }
    destruct (lookup_lt_is_Some_2 c (length c - 1)) as [z Hz]; [lia|].
    unfold buf_at. destruct (Nat.leb_spec (b_cap b) (length c)); [lia|].
    destruct (swap_Ok b c (length c) h (length c - 1) x z Ha Hx Hz ltac:(lia) ltac:(lia) ltac:(lia))
      as (b1 & -> & Ha1 & Hc1 & Hs1 & Hal1). cbn [mbind outcome_bind obind].
    set (c1 := take (length c - 1) (xchg c h (length c - 1) x z)).
    assert (Hfill : c1 = fill c h).
    { unfold c1, fill, xchg. rewrite last_lookup.
      replace (pred (length c)) with (length c - 1) by lia. rewrite Hz.
      rewrite list_insert_commute by lia. rewrite take_insert by lia. done. }
    assert (Hl1 : length c1 = length c - 1) by (unfold c1; rewrite take_length, xchg_length; lia).
    set (b2 := set_size b1 (b_sz b1 - 1)) in *.
    assert (Hsz2 : b_sz b2 = length c - 1) by (unfold b2; simpl; lia).
    assert (Hcap2 : b_cap b2 = b_cap b) by (rewrite <- Hc1; done).
    assert (Ha2 : arr b2 c1).
    { unfold b2. rewrite Hs1, Hs. apply set_size_arr; [done|]. rewrite xchg_length. lia. }
    assert (Hc1l : forall k, c1 !! k = if decide (k < length c - 1) then
                     if decide (k = h) then Some z else c !! k else None).
    { intros k. unfold c1. destruct (decide (k < length c - 1)).
      - rewrite lookup_take by done. rewrite xchg_lookup by lia.
        destruct (decide (k = h)); [done|]. rewrite decide_False by lia. done.
      - by rewrite lookup_take_ge by lia. }
    assert (Hzh : c1 !! h = Some z).
    { rewrite Hc1l. rewrite decide_True by lia. by rewrite decide_True. }
    rewrite (rd_Ok _ _ _ _ Ha2 Hzh). cbn [mbind outcome_bind obind].
    assert (Hrdx : rd b2 (b_sz b2) = Ok x).
    { rewrite Hsz2. change (rd b2 (length c - 1)) with (rd b1 (length c - 1)).
      apply (rd_Ok _ _ _ _ Ha1). rewrite xchg_lookup by lia.
      rewrite decide_False by lia. by rewrite decide_True. }
    rewrite Hrdx. cbn [mbind outcome_bind obind].
    assert (Hperm : c ≡ₚ x :: c1) by (rewrite Hfill; apply fill_perm; [done|lia]).
    assert (Hpost : forall b3 c3, arr b3 c3 -> c3 ≡ₚ c1 -> (forall j, edge c3 j) ->
       b_cap b3 = b_cap b2 -> b_alloc b3 = b_alloc b2 ->
       exists b' c', (@Ok (buf A * result) (b3, OK)) = Ok (b', OK) /\ c ≡ₚ x :: c' /\
          fok b' c' /\ b_cap b' = b_cap b /\ b_alloc b' = b_alloc b).
    { intros b3 c3 Hq1 Hq2 Hq3 Hq4 Hq5. exists b3, c3. split_and!; try done.
      - by rewrite Hq2.
      - apply fok_arr. split_and!; try done. left. rewrite Hq2, Hl1, Hq4, Hcap2. lia.
      - congruence.
      - rewrite Hq5. done. }
    (* facts about the neighbourhood of [h] *)
    assert (Hedge : forall j, j <> h -> par j <> h -> edge c1 j).
    { intros j Hq1 Hq2 u v Hz0. rewrite !Hc1l. destruct (decide (j < length c - 1)); [|done].
      rewrite (decide_False (P := j = h)) by done.
      rewrite (decide_True (P := par j < length c - 1)) by lia.
      rewrite (decide_False (P := par j = h)) by done. by apply (He j). }
    assert (Hchild : forall j u, 0 < j -> par j = h -> c1 !! j = Some u -> nb u x).
    { intros j u Hz0 Hq1. rewrite Hc1l. destruct (decide (j < length c - 1)); [|done].
      rewrite decide_False by lia. intros Hu. apply (He j); [done|done|]. by rewrite Hq1. }
    assert (Hpar : forall p, 0 < h -> c1 !! par h = Some p -> nb x p).
    { intros p Hz0. rewrite Hc1l. rewrite decide_True by lia.
      rewrite decide_False by lia. intros Hp. by apply (He h). }
    destruct (is_order order (cmp z x)) eqn:Eo.
    + apply is_order_true in Eo. unfold up.
      destruct (bubble_up_Ok h b2 c1 (length c) h z) as (b3 & c3 & m & -> & Ha3 & Hp3 & _ & He3 & Hc3 & Hal3); try done; try lia.
      * intros j Hj. destruct (decide (par j = h)) as [E|]; [|auto].
        intros u v Hz0 Hu Hv. rewrite E in Hv. simplify_eq.
        apply nb_trans with x; [by apply (Hchild j)|by apply beats_nb].
      * intros j u p Hz0 Hq1 Hj Hu Hp. apply nb_trans with x; [by apply (Hchild j)|auto].
      * cbn [mbind outcome_bind obind]. by apply (Hpost b3 c3).
    + assert (Hzx : nb z x) by (intros Hw; apply is_order_true in Hw; congruence).
      assert (Hup : edge c1 h).
      { intros u v Hz0 Hu Hv. simplify_eq. apply nb_trans with x; [done|auto]. }
      destruct (cmp z x) eqn:Ez.
      * apply (Hpost b2 c1); try done. intros j.
        destruct (decide (j = h)) as [->|]; [done|].
        destruct (decide (par j = h)) as [E|]; [|auto].
        intros u v Hz0 Hu Hv. rewrite E in Hv. simplify_eq.
        apply nb_trans with x; [by apply (Hchild j)|].
        unfold nb. rewrite (tp_opp _ Hcmp z x), Ez. simpl. congruence.
      * unfold down.
        destruct (bubble_down_Ok 0 (b_sz b2) b2 c1 (length c) h z) as (b3 & c3 & m & -> & Ha3 & Hp3 & _ & He3 & Hc3 & Hal3); try done; try lia.
        -- intros j _ Hj. destruct (decide (j = h)) as [->|]; auto.
        -- intros j u p _ Hz0 Hq1 Hj Hu Hp. apply nb_trans with x; [by apply (Hchild j)|auto].
        -- cbn [mbind outcome_bind obind]. apply (Hpost b3 c3); try done. intros j; apply He3; lia.
      * unfold down.
        destruct (bubble_down_Ok 0 (b_sz b2) b2 c1 (length c) h z) as (b3 & c3 & m & -> & Ha3 & Hp3 & _ & He3 & Hc3 & Hal3); try done; try lia.
        -- intros j _ Hj. destruct (decide (j = h)) as [->|]; auto.
        -- intros j u p _ Hz0 Hq1 Hj Hu Hp. apply nb_trans with x; [by apply (Hchild j)|auto].
        -- cbn [mbind outcome_bind obind]. apply (Hpost b3 c3); try done. intros j; apply He3; lia.
Qed.

Lemma buf_at_Some b c k x : arr b c -> c !! k = Some x -> buf_at b k = Some k /\ rd b k = Ok x.
Proof.
  intros Ha Hx. pose proof Ha as (_ & Hle & _). pose proof (lookup_lt_Some _ _ _ Hx).
  split; [|by eapply rd_Ok]. unfold buf_at. destruct (Nat.leb_spec (b_cap b) k); [lia|done].
Qed.

Lemma update_Ok b c h x f : fok b c -> c !! h = Some x ->
  exists b' c' k, fpq_update cmp order b h f = Ok (b', Some k) /\ c' ≡ₚ <[h := f x]> c /\
    c' !! k = Some (f x) /\
    fok b' c' /\ b_cap b' = b_cap b /\ b_alloc b' = b_alloc b.
Proof.
  intros Hok Hx. pose proof Hok as Hok'. rewrite fok_arr in Hok'.
  destruct Hok' as (Ha & Hcap & He).
  pose proof Ha as (Hs & Hle & Hat). pose proof (lookup_lt_Some _ _ _ Hx) as Hh.
  destruct Hcap as [Hcap| ->]; [|done].
  unfold fpq_update. rewrite Hs.
  destruct (Nat.eqb_spec (length c) 0) as [E|_]; [lia|].
  rewrite (rd_Ok _ _ _ _ Ha Hx). cbn [mbind outcome_bind obind].
  rewrite sset_Ok by (unfold b_cap in *; lia). cbn [mbind outcome_bind obind].
  set (b1 := set_slots b (<[h:=Some (f x)]> (b_slots b))). set (c1 := <[h := f x]> c).
  assert (Hl1 : length c1 = length c) by (unfold c1; by rewrite insert_length).
  assert (Hcap1 : b_cap b1 = b_cap b) by (unfold b1, b_cap; simpl; by rewrite insert_length).
  assert (Hc1l : forall k, c1 !! k = if decide (k = h) then Some (f x) else c !! k).
  { intros k. unfold c1. destruct (decide (k = h)) as [->|]; [by rewrite list_lookup_insert|].
    by rewrite list_lookup_insert_ne. }
  assert (Ha1 : arr b1 c1).
  { split; [simpl; lia|]. split; [lia|]. intros i y. rewrite Hc1l. unfold b1; simpl.
    unfold b_cap in *. destruct (decide (i = h)) as [->|].
    - intros [= <-]. by rewrite list_lookup_insert by lia.
    - intros Hy. rewrite list_lookup_insert_ne by done. by apply Hat. }
  assert (Hpost : forall b3 c3 k, arr b3 c3 -> c3 ≡ₚ c1 -> c3 !! k = Some (f x) -> (forall j, edge c3 j) ->
     b_cap b3 = b_cap b1 -> b_alloc b3 = b_alloc b1 ->
     exists b' c' k', (@Ok (buf A * slotref) (b3, buf_at b3 k)) = Ok (b', Some k') /\ c' ≡ₚ c1 /\ c' !! k' = Some (f x) /\
        fok b' c' /\ b_cap b' = b_cap b /\ b_alloc b' = b_alloc b).
  { intros b3 c3 k Hq1 Hq2 Hq3 Hq4 Hq5 Hq6. exists b3, c3, k.
    destruct (buf_at_Some _ _ _ _ Hq1 Hq3) as (-> & _). split_and!; try done.
    - apply fok_arr. split_and!; try done. left. rewrite Hq2, Hl1, Hq5, Hcap1. lia.
    - congruence. }
  assert (Hh1 : c1 !! h = Some (f x)) by (rewrite Hc1l; by rewrite decide_True).
  assert (Hedge : forall j, j <> h -> par j <> h -> edge c1 j).
  { intros j Hq1 Hq2 u v Hz0. rewrite !Hc1l.
    rewrite (decide_False (P := j = h)) by done.
    rewrite (decide_False (P := par j = h)) by done. by apply (He j). }
  assert (Hchild : forall j u, 0 < j -> par j = h -> c1 !! j = Some u -> nb u x).
  { intros j u Hz0 Hq1. rewrite Hc1l.
    rewrite decide_False by lia. intros Hu. apply (He j); [done|done|]. by rewrite Hq1. }
  assert (Hpar : forall p, 0 < h -> c1 !! par h = Some p -> nb x p).
  { intros p Hz0. rewrite Hc1l. rewrite decide_False by lia. intros Hp. by apply (He h). }
  unfold update_fixup. change (b_sz b1) with (b_sz b). rewrite Hs.
  assert (buf_at b1 (length c) = Some (length c)) as ->.
  { unfold buf_at. rewrite Hcap1. destruct (Nat.leb_spec (b_cap b) (length c)); [lia|done]. }
  destruct (Nat.ltb_spec h (length c)); [|lia]. cbn [oassert mbind outcome_bind obind].
  destruct (Nat.eqb_spec h 0) as [E0|E0].
  - unfold down. change (b_sz b1) with (b_sz b). rewrite Hs.
    destruct (bubble_down_Ok 0 (length c) b1 c1 (length c) 0 (f x)) as (b3 & c3 & m & -> & Ha3 & Hp3 & Hm3 & He3 & Hc3 & Hal3); try done; try lia.
    + by rewrite <- E0.
    + intros j _ Hj u v Hu0 Hu Hv. apply (Hedge j); [lia|intros Hc; apply Hj; rewrite <- E0 at 3; exact Hc|done|done|done].
    + cbn [mbind outcome_bind obind]. apply (Hpost b3 c3 m); try done. intros j; apply He3; lia.
  - destruct (lookup_lt_is_Some_2 c1 (par h)) as [p Hp]; [lia|].
    rewrite (rd_Ok _ _ _ _ Ha1 Hh1). cbn [mbind outcome_bind obind].
    rewrite (rd_Ok _ _ _ _ Ha1 Hp). cbn [mbind outcome_bind obind].
    assert (Hgr : forall j u, 0 < j -> par j = h -> c1 !! j = Some u -> nb u p).
    { intros j u Hz0 Hq1 Hu. apply nb_trans with x; [by apply (Hchild j)|]. apply Hpar; [lia|done]. }
    destruct (is_order order (cmp (f x) p)) eqn:Eo.
    + apply is_order_true in Eo. unfold up.
      destruct (bubble_up_Ok h b1 c1 (length c) h (f x)) as (b3 & c3 & m & -> & Ha3 & Hp3 & Hm3 & He3 & Hc3 & Hal3); try done; try lia.
      * intros j Hj. destruct (decide (par j = h)) as [E|]; [|auto].
        intros u v Hz0 Hu Hv. rewrite E in Hv. simplify_eq.
        apply nb_trans with p; [by apply (Hgr j)|by apply beats_nb].
      * intros j u p' Hz0 Hq1 Hj Hu Hp'. simplify_eq. by apply (Hgr j).
      * cbn [mbind outcome_bind obind]. by apply (Hpost b3 c3 m).
    + assert (Hzx : nb (f x) p) by (intros Hw; apply is_order_true in Hw; congruence).
      assert (Hup : edge c1 h).
      { intros u v Hz0 Hu Hv. by simplify_eq. }
      assert (Hdown : exists b3 c3 m, down cmp order b1 (Some (length c)) h = Ok (b3, m) /\ arr b3 c3 /\ c3 ≡ₚ c1 /\
         c3 !! m = Some (f x) /\ (forall j, edge c3 j) /\ b_cap b3 = b_cap b1 /\ b_alloc b3 = b_alloc b1).
      { unfold down. change (b_sz b1) with (b_sz b). rewrite Hs.
        destruct (bubble_down_Ok 0 (length c) b1 c1 (length c) h (f x)) as (b3 & c3 & m & -> & Ha3 & Hp3 & Hm3 & He3 & Hc3 & Hal3); try done; try lia.
        - intros j _ Hj. destruct (decide (j = h)) as [->|]; auto.
        - intros j u p' _ Hz0 Hq1 Hj Hu Hp'. simplify_eq. by apply (Hgr j).
        - exists b3, c3, m. split_and!; try done. intros j; apply He3; lia. }
      destruct Hdown as (b3 & c3 & m & Ed & ? & ? & ? & ? & ? & ?).
      destruct (cmp (f x) p) eqn:Ez.
      * cbn [mbind outcome_bind obind]. apply (Hpost b1 c1 h); try done. intros j.
        destruct (decide (j = h)) as [->|]; [done|].
        destruct (decide (par j = h)) as [E|]; [|auto].
        intros u v Hz0' Hu Hv. rewrite E in Hv. simplify_eq.
        apply nb_trans with p; [by apply (Hgr j)|].
        unfold nb. rewrite (tp_opp _ Hcmp (f x) p), Ez. simpl. congruence.
      * rewrite Ed. cbn [mbind outcome_bind obind]. by apply (Hpost b3 c3 m).
      * rewrite Ed. cbn [mbind outcome_bind obind]. by apply (Hpost b3 c3 m).
Qed.

(** Building. *)
Lemma heapify_loop_Ok k b c t : arr b c -> length c <= t -> t < b_cap b ->
  (forall j, k <= par j -> edge c j) ->
  exists b' c', heapify_loop cmp order k b (Some t) = Ok b' /\ arr b' c' /\ c' ≡ₚ c /\
    (forall j, edge c' j) /\ b_cap b' = b_cap b /\ b_alloc b' = b_alloc b.
Proof.
  revert b c. induction k as [|i IH]; intros b c Ha Ht Htc He.
  - exists b, c. split_and!; try done. intros j. apply He. lia.
  - cbn [heapify_loop]. unfold down. pose proof Ha as (Hs & _).
    destruct (decide (i < length c)) as [Hi|Hi].
    + destruct (lookup_lt_is_Some_2 c i Hi) as [x Hx].
      destruct (bubble_down_Ok i (b_sz b) b c t i x) as (b3 & c3 & m & -> & Ha3 & Hp3 & Hm3 & He3 & Hc3 & Hal3); try done; try lia.
      * intros j Hq1 Hq2. apply He. lia.
      * cbn [mbind outcome_bind obind].
        destruct (IH b3 c3) as (b4 & c4 & -> & Ha4 & Hp4 & He4 & Hc4 & Hal4); try done.
        -- by rewrite Hp3.
        -- lia.
        -- exists b4, c4. split_and!; try done; [by rewrite Hp4|congruence|congruence].
    + assert (bubble_down cmp order (b_sz b) b (Some t) i = Ok (b, i)) as ->.
      { remember (b_sz b) as fu eqn:Ef. destruct fu; cbn [bubble_down]; rewrite <- Ef;
        match goal with |- context [?a <=? ?b] => destruct (Nat.leb_spec a b) end; first [done|lia]. }
      cbn [mbind outcome_bind obind]. apply IH; try done.
      intros j Hq1 u v Hz0 Hu Hv. apply lookup_lt_Some in Hu, Hv. lia.
Qed.

Lemma buf_alloc_arr b c cap has_fn ok b' r :
  arr b c -> length c <= cap -> buf_alloc b cap has_fn ok = (b', r) ->
  (r = OK /\ has_fn = true /\ (ok = true \/ cap = 0) /\ arr b' c /\ b_cap b' = cap /\ b_alloc b' = b_alloc b /\ b_sz b' = b_sz b) \/
  (b' = b /\ (r = NO_ALLOC /\ has_fn = false \/ r = MEM_ERR /\ ok = false /\ has_fn = true)).
Proof.
  intros (Hs & Hle & Hat) Hcap. unfold buf_alloc.
  destruct has_fn; simpl; [|intros [= <- <-]; auto].
  destruct (Nat.eqb_spec cap 0) as [E|E]; destruct ok; simpl; intros [= <- <-]; auto 10; left.
  all: split_and!; try done; auto; simpl.
  all: unfold arr, b_cap in *; simpl; unfold realloc;
       rewrite ?app_length, ?take_length, ?replicate_length; try lia.
  all: split_and!; [done|lia|]; intros i x Hx; pose proof (lookup_lt_Some _ _ _ Hx);
       rewrite lookup_app_l by (rewrite take_length; lia); rewrite lookup_take by lia; by apply Hat.
Qed.

Lemma heapify_Ok b c l ok : fok b c ->
  exists b' r c', fpq_heapify cmp order b l ok = Ok (b', r) /\ fok b' c' /\ b_alloc b' = b_alloc b /\
   ((r = OK /\ c' ≡ₚ l) \/ (r = NO_ALLOC /\ c' = c /\ b_alloc b = false) \/
    (r = MEM_ERR /\ c' = c /\ ok = false)).
Proof.
  intros Hok. pose proof Hok as Hok'. rewrite fok_arr in Hok'. destruct Hok' as (Ha & Hcap & He).
  unfold fpq_heapify. set (n := length l).
  assert (Hgo : forall b1, b_cap b1 >= n + 1 -> b_alloc b1 = b_alloc b ->
    exists b' r c', (s ← copy_in (b_slots b1) 0 (Some <$> l);
      let b2 := Buf s n (b_alloc b1) in
      b3 ← heapify_loop cmp order (n / 2 + 1) b2 (buf_at b2 n);
      Ok (b3, OK)) = Ok (b', r) /\ fok b' c' /\ b_alloc b' = b_alloc b /\
      ((r = OK /\ c' ≡ₚ l) \/ (r = NO_ALLOC /\ c' = c /\ b_alloc b = false) \/
       (r = MEM_ERR /\ c' = c /\ ok = false))).
  { intros b1 Hb1 Hal. unfold b_cap in Hb1.
    destruct (copy_in_Ok (b_slots b1) 0 (Some <$> l)) as (s & -> & Hls & Hin & _).
    { rewrite fmap_length. fold n. lia. }
    cbn [mbind outcome_bind obind]. unfold buf_at.
    change (b_cap (Buf s n (b_alloc b1))) with (length s).
    destruct (Nat.leb_spec (length s) n); [lia|].
    destruct (heapify_loop_Ok (n / 2 + 1) (Buf s n (b_alloc b1)) l n)
      as (b3 & c3 & -> & Ha3 & Hp3 & He3 & Hc3 & Hal3).
    - split_and!; [done|change (length l <= length s); unfold n in *; lia|].
      intros i x Hx. simpl. pose proof (lookup_lt_Some _ _ _ Hx).
      rewrite Hin by (rewrite fmap_length; lia).
      rewrite Nat.sub_0_r, list_lookup_fmap, Hx. done.
    - done.
    - unfold b_cap; simpl. lia.
    - intros j Hj u v Hz0 Hu Hv. apply lookup_lt_Some in Hu. fold n in Hu. lia.
    - cbn [mbind outcome_bind obind]. exists b3, OK, c3. split_and!; try done; [| |by left].
      + apply fok_arr. split_and!; try done. left. rewrite Hp3. fold n. rewrite Hc3.
        unfold b_cap; simpl. lia.
      + rewrite Hal3. done. }
  destruct (Nat.ltb_spec (b_cap b) (n + 1)).
  - pose proof Ha as (_ & Hle & _).
    destruct (buf_alloc b (n + 1) (b_alloc b) ok) as [b1 r] eqn:Ea.
    destruct (buf_alloc_arr b c (n + 1) _ _ _ _ Ha ltac:(lia) Ea) as [(-> & _ & _ & _ & Hc1 & Hal1 & _)|(-> & [(-> & Hf)|(-> & Hf & _)])].
    + apply Hgo; [lia|done].
    + exists b, NO_ALLOC, c. auto 10.
    + exists b, MEM_ERR, c. auto 10.
  - apply Hgo; [lia|done].
Qed.

(** Insertion. *)
Lemma insert_core b c e : arr b c -> (forall j, edge c j) -> S (length c) < b_cap b ->
  exists b' c' k,
   (s ← slot_set (b_slots b) (length c) (Some e);
    let b3 := Buf s (S (length c)) (b_alloc b) in
    if 1 <? b_sz b3 then
      '(b4, i) ← up cmp order b3 (buf_at b3 (b_sz b3)) (b_sz b3 - 1);
      Ok (b4, buf_at b4 i)
    else Ok (b3, buf_at b3 0)) = Ok (b', Some k) /\
   fok b' c' /\ c' ≡ₚ e :: c /\ c' !! k = Some e /\ b_alloc b' = b_alloc b /\ b_cap b' = b_cap b.
Proof.
  intros (Hs & Hle & Hat) He Hcap. unfold b_cap in *.
  rewrite sset_Ok by lia. cbn [mbind outcome_bind obind].
  set (b3 := Buf (<[length c:=Some e]> (b_slots b)) (S (length c)) (b_alloc b)).
  assert (Hcap3 : b_cap b3 = length (b_slots b)) by (unfold b3, b_cap; simpl; by rewrite insert_length).
  assert (Ha3 : arr b3 (c ++ [e])).
  { split_and!.
    - simpl. rewrite app_length. simpl. lia.
    - rewrite app_length. simpl. lia.
    - intros i x Hx. simpl. destruct (decide (i = length c)) as [->|Hi].
      + rewrite list_lookup_insert by lia. rewrite lookup_app_r, Nat.sub_diag in Hx by lia. by simplify_eq/=.
      + rewrite list_lookup_insert_ne by done.
        pose proof (lookup_lt_Some _ _ _ Hx) as Hl. rewrite app_length in Hl. simpl in Hl.
        rewrite lookup_app_l in Hx by lia. by apply Hat. }
  assert (Hlast : (c ++ [e]) !! length c = Some e).
  { by rewrite lookup_app_r, Nat.sub_diag by lia. }
  cbn [b_sz]. change (b_sz b3) with (S (length c)).
  assert (Hold : forall j x, (c ++ [e]) !! j = Some x -> j <> length c -> c !! j = Some x).
  { intros j x Hx Hj. pose proof (lookup_lt_Some _ _ _ Hx) as Hl. rewrite app_length in Hl. simpl in Hl.
    by rewrite lookup_app_l in Hx by lia. }
  destruct (Nat.ltb_spec 1 (S (length c))).
  - assert (buf_at b3 (S (length c)) = Some (S (length c))) as ->.
    { unfold buf_at. rewrite Hcap3. destruct (Nat.leb_spec (length (b_slots b)) (S (length c))); [lia|done]. }
    replace (S (length c) - 1) with (length c) by lia. unfold up.
    destruct (bubble_up_Ok (length c) b3 (c ++ [e]) (S (length c)) (length c) e)
      as (b4 & c4 & k & -> & Ha4 & Hp4 & Hk4 & He4 & Hc4 & Hal4); try done; try lia.
    + rewrite app_length. simpl. lia.
    + intros j Hj u v Hz0 Hu Hv. pose proof (lookup_lt_Some _ _ _ Hu) as Hl. rewrite app_length in Hl. simpl in Hl.
      apply (He j); [done|by apply Hold|apply Hold; [done|lia]].
    + intros j u v Hz0 Hq1 Hj Hu. apply lookup_lt_Some in Hu. rewrite app_length in Hu. simpl in Hu. lia.
    + cbn [mbind outcome_bind obind]. destruct (buf_at_Some _ _ _ _ Ha4 Hk4) as (-> & _).
      exists b4, c4, k. split_and!; try done.
      * apply fok_arr. split_and!; try done. left. rewrite Hp4, app_length, Hc4, Hcap3. simpl. lia.
      * rewrite Hp4. symmetry. apply Permutation_cons_append.
      * unfold b_cap in *. congruence.
  - assert (c = []) as -> by (apply nil_length_inv; lia).
    destruct (buf_at_Some b3 ([] ++ [e]) 0 e Ha3 eq_refl) as (-> & _).
    exists b3, [e], 0. split_and!; try done. apply fok_arr. split_and!; try done.
    + left. rewrite Hcap3. simpl in *. lia.
    + intros j u v Hz0 Hu. destruct j; [lia|done].
Qed.

Lemma push_Ok b c e ok : fok b c ->
  (exists b' c' k, fpq_push cmp order b e ok = Ok (b', Some k) /\
     fok b' c' /\ c' ≡ₚ e :: c /\ c' !! k = Some e /\ b_alloc b' = b_alloc b /\
     (S (length c) < b_cap b \/ b_alloc b = true /\ ok = true)) \/
  (fpq_push cmp order b e ok = Ok (b, None) /\
   b_cap b <= S (length c) /\ (b_alloc b = false \/ ok = false)) \/
  (exists b', fpq_push cmp order b e ok = Ok (b', None) /\ fok b' c /\ b_alloc b' = b_alloc b /\
   b_cap b <= S (length c) /\ ok = false).
Proof.
  intros Hok. pose proof Hok as Hok'. rewrite fok_arr in Hok'. destruct Hok' as (Ha & Hcap & He).
  pose proof Ha as (Hs & Hle & Hat).
  assert (Hgo : forall b1, arr b1 c -> S (length c) < b_cap b1 -> b_alloc b1 = b_alloc b ->
    exists b' c' k, (let '(b2, new) := buf_alloc_back b1 ok in
    match new with
    | None => Ok (b2, None)
    | Some p =>
      s ← slot_set (b_slots b2) p (Some e);
      let b3 := set_slots b2 s in
      if 1 <? b_sz b3 then
        '(b4, i) ← up cmp order b3 (buf_at b3 (b_sz b3)) (b_sz b3 - 1);
        Ok (b4, buf_at b4 i)
      else Ok (b3, buf_at b3 0)
    end) = Ok (b', Some k) /\ fok b' c' /\ c' ≡ₚ e :: c /\ c' !! k = Some e /\ b_alloc b' = b_alloc b).
  { intros b1 Ha1 Hc1 Hal1. unfold buf_alloc_back. pose proof Ha1 as (Hs1 & _). rewrite Hs1.
    destruct (Nat.eqb_spec (length c) (b_cap b1)); [lia|].
    destruct (insert_core b1 c e Ha1 He Hc1) as (b' & c' & k & E & ? & ? & ? & ? & ?).
    exists b', c', k. split; [exact E|]. rewrite <- Hal1. done. }
  unfold fpq_push. rewrite Hs.
  destruct (Nat.leb_spec (b_cap b) (length c + 1)) as [Hfull|Hroom].
  2: { left. destruct (Hgo b Ha ltac:(lia) eq_refl) as (b' & c' & k & E & ? & ? & ? & ?).
       exists b', c', k. split; [exact E|]. split_and!; try done. left. lia. }
  destruct (buf_alloc b (b_cap b * 2) (b_alloc b) ok) as [b1 r] eqn:Ea.
  destruct (buf_alloc_arr b c (b_cap b * 2) _ _ _ _ Ha ltac:(lia) Ea)
    as [(-> & Hfn & Hk & Ha1 & Hc1 & Hal1 & Hs1)|(-> & [(-> & Hf)|(-> & Hf & _)])].
  2: { right. left. split; [done|]. split; [lia|by left]. }
  2: { right. left. split; [done|]. split; [lia|by right]. }
  destruct (decide (b_cap b = 0)) as [Ez|Ez].
  - assert (c = []) as -> by (destruct Hcap; [lia|done]).
    unfold buf_alloc_back. rewrite Hs1, Hs, Hc1, Ez. cbn [Nat.mul length Nat.eqb].
    rewrite Hal1. unfold buf_alloc. rewrite Hfn. destruct ok; simpl.
    + left. assert (Ha2 : arr (Buf (realloc (b_slots b1) 8) 0 (b_alloc b1)) []).
      { split_and!; try done; simpl. lia. }
      destruct (insert_core (Buf (realloc (b_slots b1) 8) 0 (b_alloc b1)) [] e Ha2 He)
        as (b' & c' & k & E & ? & ? & ? & Hal' & ?).
      { unfold b_cap, realloc; simpl. rewrite app_length, take_length, replicate_length. lia. }
      cbn [length b_slots b_alloc] in E.
      exists b', c', k. split; [rewrite Hs1, Hs; exact E|]. split_and!; try done; [|by right].
      rewrite Hal'. simpl. congruence.
    + right. right. exists b1. split_and!; try done; try (simpl; lia); [|congruence].
      apply fok_arr. split_and!; try done. by right.
  - left. assert (Hk' : ok = true) by (destruct Hk; [done|lia]).
    destruct (Hgo b1 Ha1) as (b' & c' & k & E & ? & ? & ? & ?).
    { rewrite Hc1. destruct Hcap as [|Hnil]; [lia|]. subst c. simpl in *. lia. }
    { done. }
    exists b', c', k. split; [exact E|]. split_and!; try done. right. done.
Qed.

(** emplace agrees with push as long as no memory is refused. *)
Lemma emplace_is_push b c e ok : fok b c ->
  S (length c) < b_cap b \/ b_alloc b = true /\ ok = true ->
  fpq_emplace cmp order b e ok = fpq_push cmp order b e ok.
Proof.
  rewrite fok_arr. intros ((Hs & Hle & Hat) & Hcap & _) H.
  unfold fpq_emplace, fpq_push.
  destruct (Nat.leb_spec (b_cap b) (b_sz b + 1)).
  - destruct H as [|[Hal ->]]; [lia|].
    unfold buf_alloc_back at 1.
    destruct (Nat.eqb_spec (b_sz b) (b_cap b)) as [E|E].
    + assert (b_cap b = 0 /\ b_sz b = 0) as [E1 E2].
      { destruct Hcap as [|Hn]; [lia|]. subst c; simpl in *. lia. }
      destruct b as [sl sz al]. unfold b_cap in E1. simpl in *. subst sz al.
      apply nil_length_inv in E1. subst sl. rewrite E2. reflexivity.
    + assert (Hsz : b_sz b + 1 = b_cap b) by lia.
      change (b_cap (Buf (b_slots b) (S (b_sz b)) (b_alloc b))) with (b_cap b).
      cbn [b_sz]. destruct (Nat.eqb_spec (S (b_sz b)) (b_cap b)); [|lia].
      unfold buf_alloc. cbn [b_alloc b_slots b_sz]. rewrite Hal. cbn [negb].
      rewrite andb_false_r. unfold buf_back. cbn [b_sz].
      assert (Hl : length (realloc (b_slots b) (b_cap b * 2)) = b_cap b * 2).
      { unfold realloc, b_cap. rewrite app_length, take_length, replicate_length. lia. }
      unfold buf_at at 1. change (b_cap (Buf (realloc (b_slots b) (b_cap b * 2)) (S (b_sz b)) true))
        with (length (realloc (b_slots b) (b_cap b * 2))). rewrite Hl.
      destruct (Nat.leb_spec (b_cap b * 2) (b_sz b)); [lia|].
      unfold buf_alloc_back. change (b_cap (Buf (realloc (b_slots b) (b_cap b * 2)) (b_sz b) true))
        with (length (realloc (b_slots b) (b_cap b * 2))). rewrite Hl. cbn [b_sz b_slots b_alloc].
      destruct (Nat.eqb_spec (b_sz b) (b_cap b * 2)); [lia|]. done.
  - unfold buf_alloc_back. destruct (Nat.eqb_spec (b_sz b) (b_cap b)); [lia|].
    change (b_cap (Buf (b_slots b) (S (b_sz b)) (b_alloc b))) with (b_cap b).
    cbn [b_sz]. destruct (Nat.eqb_spec (S (b_sz b)) (b_cap b)); [lia|]. done.
Qed.

(** Validation. *)
Lemma validate_loop_Ok b c l : arr b c -> (forall i, i ∈ l -> i < length c) -> (forall j, edge c j) ->
  validate_loop cmp order b l = Ok true.
Proof.
  intros Ha Hl He. pose proof Ha as (Hs & _). induction l as [|i l IH]; [done|].
  assert (Hi : i < length c) by (apply Hl; left).
  destruct (lookup_lt_is_Some_2 c i Hi) as [x Hx].
  assert (Hch : forall j, 0 < j -> par j = i ->
    (if j <? b_sz b then wins cmp order b j i else Ok false) = Ok false).
  { intros j Hz0 Hj. rewrite Hs. destruct (Nat.ltb_spec j (length c)) as [Hlt|]; [|done].
    destruct (lookup_lt_is_Some_2 c j Hlt) as [y Hy].
    rewrite (wins_Ok _ _ _ _ _ _ Ha Hy Hx). f_equal.
    apply not_true_is_false. rewrite is_order_true. apply (He j); [done|done|by rewrite Hj]. }
  cbn [validate_loop]. rewrite Hch by lia. cbn [mbind outcome_bind obind].
  rewrite Hch by lia. cbn [mbind outcome_bind obind].
  apply IH. intros k Hk. apply Hl. by right.
Qed.

Lemma validate_Ok b c : fok b c -> fpq_validate cmp order b = Ok true.
Proof.
  rewrite fok_arr. intros (Ha & _ & He). pose proof Ha as (Hs & _). unfold fpq_validate. rewrite Hs.
  destruct (Nat.leb_spec (length c) 1); [done|].
  apply (validate_loop_Ok b c); try done. intros i Hi. apply elem_of_seq in Hi. lia.
Qed.

Lemma validate_loop_inv b c l : arr b c -> validate_loop cmp order b l = Ok true ->
  forall j, par j ∈ l -> edge c j.
Proof.
  intros Ha. pose proof Ha as (Hs & _). induction l as [|i l IH]; [intros _ j Hj; by apply elem_of_nil in Hj|].
  cbn [validate_loop]. intros H j Hj x p Hz0 Hx Hp.
  assert (Hrun : forall k y q, k < length c -> c !! k = Some y -> c !! i = Some q ->
    (if k <? b_sz b then wins cmp order b k i else Ok false) = Ok (is_order order (cmp y q))).
  { intros k y q Hk Hy Hq. rewrite Hs. destruct (Nat.ltb_spec k (length c)); [|lia].
    by apply (wins_Ok _ c). }
  pose proof (lookup_lt_Some _ _ _ Hx) as Hjl.
  apply elem_of_cons in Hj as [E|Hj].
  - rewrite E in Hp. unfold nb. rewrite <- is_order_true. apply not_true_iff_false.
    destruct (decide (j = i * 2 + 1)) as [->|].
    + rewrite (Hrun _ _ _ Hjl Hx Hp) in H. cbn [mbind outcome_bind obind] in H.
      by destruct (is_order order (cmp x p)).
    + assert (j = i * 2 + 2) as -> by lia.
      destruct (lookup_lt_is_Some_2 c (i * 2 + 1)) as [y Hy]; [lia|].
      rewrite (Hrun _ _ _ (lookup_lt_Some _ _ _ Hy) Hy Hp) in H. cbn [mbind outcome_bind obind] in H.
      destruct (is_order order (cmp y p)); [done|].
      rewrite (Hrun _ _ _ Hjl Hx Hp) in H. cbn [mbind outcome_bind obind] in H.
      by destruct (is_order order (cmp x p)).
  - apply (IH) with j; try done.
    match type of H with context [mbind ?f ?a] => destruct a as [[]| |]; simpl in H; try done end.
    match type of H with context [mbind ?f ?a] => destruct a as [[]| |]; simpl in H; try done end.
Qed.

Lemma validate_iff b c : buf_contents b = Some <$> c -> b_sz b = length c ->
  (length c < b_cap b \/ c = []) ->
  (fpq_validate cmp order b = Ok true <-> heap cmp order c).
Proof.
  intros H1 H2 Hcap. split.
  - intros Hv. assert (Ha : arr b c) by (by apply arr_contents). apply heap_edge.
    pose proof Ha as (Hs & _). unfold fpq_validate in Hv. rewrite Hs in Hv.
    intros j x p Hz0 Hx Hp. pose proof (lookup_lt_Some _ _ _ Hx).
    destruct (Nat.leb_spec (length c) 1); [lia|].
    apply (validate_loop_inv b c _ Ha Hv j); try done. apply elem_of_seq. lia.
  - intros Hh. by apply (validate_Ok b c).
Qed.

(** Histories. *)
Lemma contents_fok b c : fok b c -> buf_contents b = Some <$> c.
Proof. by intros (? & _). Qed.

Lemma step_Ok b c o : fok b c -> handle_ok b o = true ->
  exists b' c' r, fpq_step cmp order b o = Ok (b', r) /\ fok b' c' /\ b_alloc b' = b_alloc b /\
    pq_call cmp order (b_alloc b) c o r c'.
Proof.
  intros Hok Hh. pose proof Hok as (_ & Hs & _).
  destruct o as [x ok| |h|h f|l ok| | | |]; cbn [fpq_step pq_call handle_ok] in *.
  - destruct (push_Ok b c x ok Hok) as [(b' & c' & k & -> & Hok' & Hp & Hk & Hal & _)|[(-> & _ & Hf)|(b' & -> & Hok' & Hal & _ & ->)]].
    + pose proof Hok' as Hf'. apply fok_arr in Hf' as (Ha' & _).
      cbn [mbind outcome_bind obind deref_val]. rewrite (rd_Ok _ _ _ _ Ha' Hk). simpl.
      exists b', c', (QVal (Some x)). auto 10.
    + exists b, c, (QVal None). simpl. auto 10.
    + exists b', c, (QVal None). simpl. auto 10.
  - destruct c as [|y c].
    + unfold fpq_pop. rewrite Hs. simpl. exists b, [], (QRes INPUT_ERR). auto.
    + destruct (pop_Ok b (y :: c) Hok ltac:(done)) as (b' & c' & x & -> & Hx & Hp & Hok' & _ & Hal).
      simpl in Hx. simplify_eq. simpl. exists b', c', (QRes OK). split_and!; try done.
      exists x. split; [done|]. apply root_unbeaten; [|done]. by apply fok_arr in Hok as (_ & _ & ?).
  - apply Nat.ltb_lt in Hh. destruct (lookup_lt_is_Some_2 c h) as [x Hx]; [lia|].
    destruct (erase_Ok b c h x Hok Hx) as (b' & c' & -> & Hp & Hok' & _ & Hal).
    simpl. exists b', c', (QRes OK). eauto 10.
  - apply Nat.ltb_lt in Hh. destruct (lookup_lt_is_Some_2 c h) as [x Hx]; [lia|].
    destruct (update_Ok b c h x f Hok Hx) as (b' & c' & k & -> & Hp & Hk & Hok' & _ & Hal).
    pose proof Hok' as Hf'. apply fok_arr in Hf' as (Ha' & _).
    cbn [mbind outcome_bind obind deref_val]. rewrite (rd_Ok _ _ _ _ Ha' Hk). simpl.
    exists b', c', (QVal (Some (f x))). eauto 10.
  - destruct (heapify_Ok b c l ok Hok) as (b' & r & c' & -> & Hok' & Hal & Hr). simpl.
    exists b', c', (QRes r). split_and!; try done. naive_solver.
  - exists (set_size b 0), [], (QRes OK). split_and!; try done. apply fok_arr in Hok as (Ha & _).
    apply fok_arr. split_and!; [by apply (set_size_arr b c 0); [|lia]|by right|].
    intros j u v _ Hu. done.
  - destruct (front_Ok b c Hok) as [(-> & ->)|(x & -> & Hx & Hrd & Hu)].
    + exists b, [], (QVal None). simpl. auto.
    + simpl. rewrite Hrd. simpl. exists b, c, (QVal (Some x)). split_and!; try done.
      destruct c; [done|]. exists x. split_and!; try done. simplify_eq/=. left.
  - exists b, c, (QNum (b_sz b)). simpl. rewrite Hs. auto.
  - rewrite (validate_Ok _ _ Hok). exists b, c, (QBool true). simpl. auto.
Qed.

Lemma run_Ok os b c : fok b c ->
  exists b' c' tr, fpq_run cmp order b os = Ok (b', tr) /\ fok b' c' /\
    pq_trace cmp order (b_alloc b) c tr.
Proof.
  revert b c. induction os as [|o os IH]; intros b c Hok; [exists b, c, []; done|].
  cbn [fpq_run]. destruct (handle_ok b o) eqn:Eh; [|by apply IH].
  destruct (step_Ok b c o Hok Eh) as (b1 & c1 & r & -> & Hok1 & Hal1 & Hcall).
  cbn [mbind outcome_bind obind].
  destruct (IH b1 c1 Hok1) as (b2 & c2 & tr & -> & Hok2 & Htr).
  cbn [mbind outcome_bind obind]. exists b2, c2, ((o, r, buf_contents b1) :: tr).
  split_and!; try done. cbn [pq_trace]. exists c1. rewrite Hal1 in Htr.
  split_and!; try done. by apply contents_fok.
Qed.

Lemma fresh_ok cap grow : fok (fresh_fpq cap grow) [].
Proof.
  split_and!; simpl; try done. by right.
Qed.

(** Draining. *)
Lemma drain_Ok fuel b c : fok b c -> length c <= fuel ->
  exists out, fpq_drain cmp order fuel b = Ok out /\ out ≡ₚ c /\ in_order cmp order out.
Proof.
  revert b c. induction fuel as [|f IH]; intros b c Hok Hf.
  - assert (c = []) as -> by (apply nil_length_inv; lia).
    destruct (front_Ok b [] Hok) as [(_ & E)|(x & _ & Hx & _)]; [|done].
    simpl. rewrite E. exists []. split_and!; try done.
  - cbn [fpq_drain]. destruct (front_Ok b c Hok) as [(-> & ->)|(x & -> & Hx & Hrd & Hu)].
    { exists []. split_and!; try done. }
    rewrite Hrd. cbn [mbind outcome_bind obind].
    destruct (pop_Ok b c Hok ltac:(by destruct c)) as (b' & c' & x' & -> & Hx' & Hp & Hok' & _ & _).
    simplify_eq. cbn [mbind outcome_bind obind].
    destruct (IH b' c' Hok') as (out & -> & Hperm & Hio).
    { apply Permutation_length in Hp. simpl in Hp. lia. }
    cbn [mbind outcome_bind obind]. exists (x :: out). split_and!; try done.
    + rewrite Hp. by constructor.
    + intros i j u v Hij. destruct i as [|i], j as [|j]; simpl; try lia.
      * intros [= <-] Hv. apply Hu. rewrite Hp. right. rewrite <- Hperm.
        by apply elem_of_list_lookup_2 in Hv.
      * intros Hu' Hv. apply (Hio i j u v); [lia|done|done].
Qed.

Lemma in_place_Ok b l : (exists rest, b_slots b = (Some <$> l) ++ rest /\ rest <> []) ->
  exists b' c', fpq_in_place_heapify cmp order b (length l) = Ok b' /\ fok b' c' /\ c' ≡ₚ l.
Proof.
  intros (rest & Hsl & Hne). unfold fpq_in_place_heapify.
  assert (Hcap : length l < b_cap b).
  { unfold b_cap. rewrite Hsl, app_length, fmap_length. destruct rest; [done|simpl; lia]. }
  destruct (Nat.ltb_spec (b_cap b) (length l + 1)); [lia|].
  unfold buf_at. change (b_cap (set_size b (length l))) with (b_cap b).
  destruct (Nat.leb_spec (b_cap b) (length l)); [lia|].
  destruct (heapify_loop_Ok (length l / 2 + 1) (set_size b (length l)) l (length l))
    as (b3 & c3 & -> & Ha3 & Hp3 & He3 & Hc3 & Hal3); try done.
  - split_and!; [done|change (length l <= b_cap b); lia|].
    intros i x Hx. simpl. rewrite Hsl. rewrite lookup_app_l by (rewrite fmap_length; by eapply lookup_lt_Some).
    by rewrite list_lookup_fmap, Hx.
  - intros j Hj u v Hz0 Hu Hv. apply lookup_lt_Some in Hu. lia.
  - exists b3, c3. split_and!; try done. apply fok_arr. split_and!; try done.
    left. rewrite Hp3, Hc3. done.
Qed.

(** Copy. *)
Lemma copy_Ok dst src c has_fn ok : fok src c ->
  exists dst' r, fpq_copy dst src has_fn ok = Ok (dst', r) /\
    (b_cap src <= b_cap dst \/ has_fn = true /\ ok = true -> r = OK) /\
    (r = OK -> fok dst' c).
Proof.
  intros Hok. pose proof Hok as Hok'. rewrite fok_arr in Hok'. destruct Hok' as ((Hs & Hle & Hat) & Hcap & He).
  unfold fpq_copy.
  assert (Hgo : forall d2, b_cap src <= b_cap d2 -> b_sz d2 = b_sz src ->
    exists dst' r, (s ← copy_in (b_slots d2) 0 (b_slots src); Ok (set_slots d2 s, OK)) = Ok (dst', r) /\
     r = OK /\ fok dst' c).
  { intros d2 Hq1 Hq2. unfold b_cap in *.
    destruct (copy_in_Ok (b_slots d2) 0 (b_slots src)) as (s & -> & Hl & Hin & _); [lia|].
    cbn [mbind outcome_bind obind]. eexists _, _. split; [done|]. split; [done|].
    apply fok_arr. unfold arr, b_cap; simpl. split_and!; try done; [congruence|lia| |].
    - intros i x Hx. pose proof (lookup_lt_Some _ _ _ Hx). rewrite Hin by lia. rewrite Nat.sub_0_r. by apply Hat.
    - destruct Hcap; [left; lia|by right]. }
  destruct (Nat.ltb_spec (b_cap dst) (b_cap src)) as [Hlt|Hge].
  - destruct has_fn; simpl.
    + change (b_cap (Buf (b_slots dst) (b_sz src) (b_alloc dst))) with (b_cap dst).
      destruct (Nat.ltb_spec (b_cap dst) (b_cap src)); [|lia].
      unfold buf_alloc. destruct (Nat.eqb_spec (b_cap src) 0); [lia|]. simpl.
      destruct ok; simpl.
      * destruct (Hgo (Buf (realloc (b_slots dst) (b_cap src)) (b_sz src) (b_alloc dst))) as (d' & r & E & -> & Hd).
        { unfold b_cap, realloc; simpl. rewrite app_length, take_length, replicate_length. lia. }
        { done. }
        exists d', OK. split; [exact E|]. auto.
      * eexists _, _. split; [done|]. split; [|done]. intros [?|[_ ?]]; [lia|done].
    + eexists _, _. split; [done|]. split; [|done]. intros [?|[? _]]; [lia|done].
  - simpl. change (b_cap (Buf (b_slots dst) (b_sz src) (b_alloc dst))) with (b_cap dst).
    destruct (Nat.ltb_spec (b_cap dst) (b_cap src)); [lia|].
    destruct (Hgo (Buf (b_slots dst) (b_sz src) (b_alloc dst)) Hge eq_refl) as (d' & r & E & -> & Hd).
    exists d', OK. split; [exact E|]. auto.
Qed.

Lemma push_room b c x ok : fok b c ->
  exists b' r, fpq_push cmp order b x ok = Ok (b', r) /\
    (r <> None <-> S (length c) < b_cap b \/ b_alloc b = true /\ ok = true).
Proof.
  intros Hok. destruct (push_Ok b c x ok Hok)
    as [(b' & c' & k & E & _ & _ & _ & _ & H)|[(E & Hq1 & Hq2)|(b' & E & _ & _ & Hq1 & Hq2)]].
  - exists b', (Some k). split; [done|]. split; [done|done].
  - exists b, None. split; [done|]. split; [done|]. intros [|[? ?]]; [lia|]. destruct Hq2; congruence.
  - exists b', None. split; [done|]. split; [done|]. intros [|[? ?]]; [lia|]. congruence.
Qed.

Lemma push_ref b b' c x ok k : fok b c ->
  fpq_push cmp order b x ok = Ok (b', Some k) -> rd b' k = Ok x /\ k < b_sz b'.
Proof.
  intros Hok E. destruct (push_Ok b c x ok Hok)
    as [(b1 & c1 & k1 & E1 & Hok1 & _ & Hk & _)|[(E1 & _)|(b1 & E1 & _)]]; rewrite E1 in E; simplify_eq.
  apply fok_arr in Hok1 as (Ha & _). pose proof Ha as (Hs & _). split; [by apply (rd_Ok _ c1)|].
  rewrite Hs. by eapply lookup_lt_Some.
Qed.

Lemma update_ref b c h x f : fok b c -> c !! h = Some x ->
  exists b' k, fpq_update cmp order b h f = Ok (b', Some k) /\ rd b' k = Ok (f x) /\ k < b_sz b'.
Proof.
  intros Hok Hx. destruct (update_Ok b c h x f Hok Hx) as (b' & c' & k & E & _ & Hk & Hok' & _).
  exists b', k. split; [done|]. apply fok_arr in Hok' as (Ha & _). pose proof Ha as (Hs & _).
  split; [by apply (rd_Ok _ c')|]. rewrite Hs. by eapply lookup_lt_Some.
Qed.

Lemma heapify_drain b c l ok b' : fok b c -> fpq_heapify cmp order b l ok = Ok (b', OK) ->
  exists out, fpq_drain cmp order (length l) b' = Ok out /\ out ≡ₚ l /\ in_order cmp order out.
Proof.
  intros Hok E. destruct (heapify_Ok b c l ok Hok) as (b1 & r & c' & E1 & Hok' & _ & Hr).
  rewrite E1 in E. simplify_eq. destruct Hr as [[_ Hp]|[(? & _)|(? & _)]]; try done.
  destruct (drain_Ok (length l) b' c' Hok') as (out & Ed & Hpo & Hio); [by rewrite Hp|].
  exists out. split_and!; try done. by rewrite Hpo.
Qed.

Lemma heapify_room b c l ok : fok b c -> length l < b_cap b \/ b_alloc b = true /\ ok = true ->
  exists b', fpq_heapify cmp order b l ok = Ok (b', OK).
Proof.
  intros Hok H. destruct (heapify_Ok b c l ok Hok) as (b1 & r & c' & E1 & Hok' & _ & Hr).
  exists b1. rewrite E1. destruct Hr as [[-> Hp]|[(-> & _ & Hf)|(-> & _ & Hf)]]; [done| |].
  all: destruct H as [H|[? ?]]; [|congruence]; exfalso; revert E1; unfold fpq_heapify;
       destruct (Nat.ltb_spec (b_cap b) (length l + 1)); [lia|];
       destruct (copy_in _ _ _); simpl; try done;
       destruct (heapify_loop _ _ _ _ _); simpl; congruence.
Qed.

Lemma in_place_drain b l : (exists rest, b_slots b = (Some <$> l) ++ rest /\ rest <> []) ->
  exists b' out, fpq_in_place_heapify cmp order b (length l) = Ok b' /\
    fpq_drain cmp order (length l) b' = Ok out /\ out ≡ₚ l /\ in_order cmp order out.
Proof.
  intros H. destruct (in_place_Ok b l H) as (b' & c' & E & Hok & Hp).
  destruct (drain_Ok (length l) b' c' Hok) as (out & Ed & Hpo & Hio); [by rewrite Hp|].
  exists b', out. split_and!; try done. by rewrite Hpo.
Qed.

Lemma run_complete os b b' tr :
  (forall o, o ∈ os -> forall h f, o <> QErase h /\ o <> QUpdate h f) ->
  fpq_run cmp order b os = Ok (b', tr) -> (fun e => fst (fst e)) <$> tr = os.
Proof.
  revert b tr. induction os as [|o os IH]; intros b tr Hos; cbn [fpq_run].
  { intros [= <- <-]. done. }
  assert (handle_ok b o = true) as ->.
  { destruct o as [| |h|h f| | | | |]; try done;
      [destruct (Hos (QErase h) ltac:(left) h id)|destruct (Hos (QUpdate h f) ltac:(left) h f)]; done. }
  destruct (fpq_step cmp order b o) as [[b1 r]| |]; simpl; try done.
  destruct (fpq_run cmp order b1 os) as [[b2 tr2]| |] eqn:E; simpl; try done.
  intros [= <- <-]. simpl. f_equal. apply (IH b1); [|done]. intros o' Ho'. apply Hos. by right.
Qed.

Lemma clear_and_free_empty b destructor : b_sz b = 0 -> b_alloc b = true ->
  fpq_clear_and_free b destructor = (fresh_fpq 0 true, [], OK).
Proof.
  intros Hs Ha. unfold fpq_clear_and_free, buf_alloc. rewrite Hs, Ha. simpl.
  unfold realloc. simpl. by destruct destructor.
Qed.

Lemma clear_ok b c : fok b c ->
  exists b', fpq_clear b true = (b', seq 0 (length c), OK) /\ fok b' [].
Proof.
  intros Hok. pose proof Hok as (_ & Hs & _). unfold fpq_clear. rewrite Hs. eexists. split; [done|].
  apply fok_arr in Hok as (Ha & _).
  apply fok_arr. split_and!; [by apply (set_size_arr b c 0); [|lia]|by right|].
  intros j u v _ Hu. done.
Qed.

End proofs.

Lemma history_front {A} (cmp : A -> A -> comparison) (order : comparison) :
  total_preorder cmp -> order <> Eq ->
  forall (cap : nat) (grow : bool) (os : list (fpq_op A)),
  exists b c tr, fpq_run cmp order (fresh_fpq cap grow) os = Ok (b, tr) /\
    buf_contents b = Some <$> c /\ b_sz b = length c /\
    fpq_validate cmp order b = Ok true /\
    ((c = [] /\ fpq_front b = None) \/
     (exists x, fpq_front b = Some 0 /\ rd b 0 = Ok x /\ unbeaten cmp order x c)).
Proof.
  intros Hc Ho cap grow os.
  destruct (run_Ok cmp order Hc Ho os _ [] (fresh_ok cmp order cap grow)) as (b & c & tr & Hr & Hok & _).
  exists b, c, tr. pose proof Hok as (H1 & H2 & H3 & H4). split_and!; [done|done|done| |].
  - by apply (validate_iff cmp order Ho b c).
  - destruct (front_Ok cmp order Hc Ho b c Hok) as [?|(x & ? & ? & ? & ?)]; [by left|right; eauto].
Qed.
