(** What calls on the ordered multimap cost: the lemmas of OmmCalls.v and
    OmmHistories.v, with the turns of the splay loops counted. *)
From Coq Require Import Sorted.
From stdpp Require Import base numbers option gmap fin_maps list.
From Verif Require Import Common LinkHeap PathLemmas OrderSpec TreeModel TreeProofs SplayModel SplayProofs MapOps OmModel OmmOps
  OmmModel OmmSpec OmmProofs OmmRings OmmGroups OmmWalk OmmCalls OmmHistories CostModel CostErase SplayCostModel SplayCost OmCost
  OmmCostModel OmmCostErase OmmCostSpec.
From Verif Require MapProofs OmProofs.

Local Ltac bind := cbn [mbind outcome_bind obind].
Local Ltac cb := cbn [cbind mbind outcome_bind obind still].

(** ** Trees and rings *)

Section rings.
Context {K V : Type} (cmp : K -> K -> comparison) (Hcmp : total_preorder cmp) (dat : gmap nat (K * V)).

Lemma splay_follows_c D N h0 g h probe probe' r g1 x i :
  (forall z c, probe z = Ok c -> probe' z = Ok c) ->
  follows D N h0 g h -> splay_by_c nil (link_chk nil N) probe g r = Ok (g1, x, i) ->
  exists h1, splay_by_c nil mlink probe' h r = Ok (h1, x, i) /\ follows D N h0 g1 h1.
Proof.
  intros Hprobe. apply (splay_by_c_sim nil (follows D N h0)).
  - intros g' h' (Hs & _). destruct Hs as (Hl & Hr & _). done.
  - intros g' h' p d q g2. apply mlink_follows.
  - done.
  - intros g' h' g2. apply start_follows.
Qed.

Lemma wf_splay_c h t D k :
  wf h t D -> t <> E -> sorted cmp dat (nodes t) ->
  exists h' a x b kv i, splay_by_c nil mlink (cmpk cmp dat k) h (ptr t) = Ok (h', x, i) /\
    falls nil (keyc cmp dat k) t i a x b /\ wf h' (T a x b) D /\
    nodes (T a x b) = nodes t /\ within D (nodes t) h h' /\ dat !! x = Some kv /\
    (forall z, z ∈ nodes a -> side cmp dat true k z) /\ (forall z, z ∈ nodes b -> side cmp dat false k z).
Proof.
  intros H Ht Hsort.
  pose proof (wf_follows h t D [] H) as Hf. cbn [app] in Hf.
  specialize (Hf (NoDup_nil_2)). feed specialize Hf; [by intros e He%elem_of_nil|].
  assert (live (flat D (nodes t) h) nil) as Hlive by (destruct Hf as (_ & (? & _) & _); done).
  destruct (splay_chk_c_Ok nil cmp Hcmp dat _ nil t k (wf_rep _ _ _ H) Ht Hsort Hlive)
    as (g' & a & x & b & kv & i & Hrun & Hfall & Hr & Hnn & _ & _ & Hx & Ha & Hb).
  destruct (splay_follows_c D (nodes t) h _ h _ (cmpk cmp dat k) (ptr t) g' x i (fun z c E => E) Hf Hrun)
    as (h' & Hrun' & Hf').
  exists h', a, x, b, kv, i. split; [done|]. split; [done|]. split_and!; try done.
  - apply (follows_wf h g' h' (T a x b) D (nodes t)); [done|done| | |].
    + rewrite Hnn. by destruct (wf_apart _ _ _ H) as (? & _).
    + intros z. by rewrite Hnn.
    + rewrite Hnn. apply (wf_out _ _ _ H).
  - by apply (follows_within D _ _ g').
Qed.

Lemma wf_splay_end_c h t D d :
  wf h t D -> t <> E -> sorted cmp dat (nodes t) ->
  exists h' a x i g l r, splay_by_c nil mlink (force d) h (ptr t) = Ok (h', x, i) /\
    falls nil g t i l x r /\ (forall z, z ∈ nodes t -> g z = dirc d) /\ T l x r = mk d a x E /\ wf h' (mk d a x E) D /\
    nodes (mk d a x E) = nodes t /\ within D (nodes t) h h'.
Proof.
  intros H Ht Hsort.
  pose proof (wf_follows h t D [] H) as Hf. cbn [app] in Hf.
  specialize (Hf (NoDup_nil_2)). feed specialize Hf; [by intros e He%elem_of_nil|].
  assert (live (flat D (nodes t) h) nil) as Hlive by (destruct Hf as (_ & (? & _) & _); done).
  set (k := if d then Top else Bot : ext K).
  destruct (splay_chk_c_Ok nil (cmp_ext cmp) (cmp_ext_preorder cmp Hcmp) (dat_ext dat) _ nil t k (wf_rep _ _ _ H) Ht
    (sorted_ext cmp dat _ Hsort) Hlive) as (g' & a & x & b & kv & i & Hrun & Hfall & Hr & Hnn & _ & _ & Hx & Ha & Hb).
  assert (forall z c, cmpk (cmp_ext cmp) (dat_ext dat) k z = Ok c -> force d z = Ok c) as Hprobe.
  { intros z c. unfold cmpk, value, dat_ext. rewrite lookup_fmap.
    destruct (dat !! z) as [kz|]; cbn; [|done]. intros [= <-]. by destruct d. }
  destruct (splay_follows_c D (nodes t) h _ h _ (force d) (ptr t) g' x i Hprobe Hf Hrun) as (h' & Hrun' & Hf').
  assert ((if d then b else a) = E) as Hend.
  { destruct d; [destruct b as [|l w r]|destruct a as [|l w r]]; try done; exfalso.
    - destruct (Hb w) as (kw & Hw & Hcw); [apply (ptr_in nil (T l w r)); done|].
      unfold dat_ext in Hw. rewrite lookup_fmap in Hw. destruct (dat !! w); [|done]. by injection Hw as <-.
    - destruct (Ha w) as (kw & Hw & Hcw); [apply (ptr_in nil (T l w r)); done|].
      unfold dat_ext in Hw. rewrite lookup_fmap in Hw. destruct (dat !! w); [|done]. by injection Hw as <-. }
  assert (mk d (if d then a else b) x E = T a x b) as Emk by (destruct d; cbn in *; by subst).
  exists h', (if d then a else b), x, i, (keyc (cmp_ext cmp) (dat_ext dat) k), a, b. rewrite Emk.
  split; [done|]. split; [done|]. split_and!; try done.
  - intros z Hz. destruct (MapProofs.sorted_dat cmp _ _ _ Hsort Hz) as [kz Hkz].
    unfold keyc, dat_ext. rewrite lookup_fmap, Hkz. cbn. by destruct d.
  - apply (follows_wf h g' h' (T a x b) D (nodes t)); [done|done| | |].
    + rewrite Hnn. by destruct (wf_apart _ _ _ H) as (? & _).
    + intros z. by rewrite Hnn.
    + rewrite Hnn. apply (wf_out _ _ _ H).
  - by apply (follows_within D _ _ g').
Qed.

Lemma detach_follows_c D N h0 g h x g1 y i :
  follows D N h0 g h -> detach_by_c cmp nil (link_chk nil N) dat g x = Ok (g1, y, i) ->
  exists h1, detach_by_c cmp nil mlink dat h x = Ok (h1, y, i) /\ follows D N h0 g1 h1.
Proof.
  intros Hf. unfold detach_by_c. pose proof Hf as (Hs & _). pose proof Hs as (Hl & Hr & _). rewrite Hl, Hr.
  destruct (rd (lf g) x) as [l| |]; try done. bind. destruct (l =? nil).
  - destruct (rd (rt g) x) as [r| |]; try done. bind.
    destruct (link_chk nil N g nil false r) as [ga| |] eqn:Ea; try done. bind.
    destruct (mlink_follows _ _ _ _ _ _ _ _ _ Hf Ea) as (ha & -> & Hfa). bind.
    intros [= <- <- <-]. eauto.
  - destruct (value dat x) as [kv| |]; try done. bind.
    destruct (splay_by_c _ _ _ g l) as [[[ga z] j]| |] eqn:Ea; try done. bind.
    destruct (splay_follows_c D N h0 g h _ (cmpk cmp dat (fst kv)) l ga z j (fun z c E => E) Hf Ea) as (ha & -> & Hfa). bind.
    pose proof Hfa as ((_ & Hra & _) & _). rewrite Hra.
    destruct (rd (rt ga) x) as [r| |]; try done. bind.
    destruct (link_chk nil N ga z true r) as [gb| |] eqn:Eb; try done. bind.
    destruct (mlink_follows _ _ _ _ _ _ _ _ _ Hfa Eb) as (hb & -> & Hfb). bind.
    intros [= <- <- <-]. eauto.
Qed.

Lemma wf_detach_c h D a x b kv :
  wf h (T a x b) D -> sorted cmp dat (nodes (T a x b)) -> dat !! x = Some kv -> D x = [] ->
  exists h' t' i, detach_by_c cmp nil mlink dat h x = Ok (h', ptr t', i) /\ cut_off nil (keyc cmp dat (fst kv)) a b i t' /\
    wf h' t' D /\ nodes t' = nodes a ++ nodes b /\ within D (nodes (T a x b)) h h'.
Proof.
  intros H Hs Hx HDx. set (t := T a x b) in *.
  pose proof (wf_follows h t D [] H NoDup_nil_2) as Hf.
  feed specialize Hf; [by intros z Hz%elem_of_nil|]. cbn [app] in Hf.
  pose proof Hf as (_ & Ht & _).
  destruct (detach_chk_c_Ok nil cmp Hcmp dat (flat D (nodes t) h) a x b kv) as (g' & t' & i & Hrun & Hcut & Hr & Hn & _);
    [apply (wf_rep _ _ _ H)|done|done|apply Ht|].
  destruct (detach_follows_c _ _ _ _ _ _ _ _ _ Hf Hrun) as (h' & Hrun' & Hf').
  exists h', t', i. split; [done|]. split; [done|]. split_and!; [|done|by apply (follows_within _ _ _ g')].
  assert (NoDup (nodes t)) as Hnd by (by destruct (wf_apart _ _ _ H) as (? & _)).
  apply (follows_wf h g' h' _ D (nodes t)); [done|done| | |].
  - rewrite Hn. unfold t in Hnd. cbn [nodes] in Hnd.
    apply NoDup_app in Hnd as (H1 & H2 & [H3 H4]%NoDup_cons). apply NoDup_app. split_and!; try done.
    intros z Hz Hz'. apply (H2 z Hz). by right.
  - intros z. rewrite Hn. unfold t. cbn [nodes]. rewrite !elem_of_app, elem_of_cons. tauto.
  - intros n. rewrite Hn. intros Hnn. destruct (decide (n = x)) as [-> |Hne]; [done|].
    apply (wf_out _ _ _ H). unfold t. cbn [nodes]. rewrite elem_of_app in *. rewrite elem_of_cons. tauto.
Qed.
End rings.

(** ** Budgets of programs *)

Definition costs {X} (n j : nat) (t : tree) (m : counted X) (Q : X -> tree -> Prop) : Prop :=
  exists x w t', m = Ok (x, w) /\ spent n j t w t' /\ Q x t'.

Lemma costs_still {X} n t (x : X) (Q : X -> tree -> Prop) : Q x t -> costs n 0 t (still x) Q.
Proof. intros H. exists x, idle, t. split; [done|]. split; [apply spent_refl|done]. Qed.
Lemma costs_gratis {X} n t (m : outcome X) x (Q : X -> tree -> Prop) : m = Ok x -> Q x t -> costs n 0 t (gratis m) Q.
Proof. intros -> H. by apply costs_still. Qed.
Lemma costs_hopping {X} n t (m : outcome (X * nat)) x (Q : X -> tree -> Prop) : erase_count m = Ok x -> Q x t -> costs n 0 t (hopping m) Q.
Proof.
  intros [i ->]%erase_Ok H. exists x, (Work 0 i), t. split; [done|]. split; [|done].
  eapply spent_end; [apply spent_refl|done|done].
Qed.
Lemma costs_bind {X Y} n i j k t (m : counted X) (f : X -> counted Y) (P : X -> tree -> Prop) (Q : Y -> tree -> Prop) :
  costs n i t m P -> (forall x t', P x t' -> costs n j t' (f x) Q) -> i + j <= k -> costs n k t (cbind f m) Q.
Proof.
  intros (x & w & t' & -> & Hw & HP) Hf Hk. destruct (Hf x t' HP) as (y & w' & t'' & Hy & Hw' & HQ).
  exists y, (add_work w w'), t''. split; [|split; [|done]].
  - unfold cbind. bind. by rewrite Hy.
  - eapply spent_end; [by eapply spent_trans|done|done].
Qed.
Lemma costs_weak {X} n i j t (m : counted X) (P Q : X -> tree -> Prop) :
  costs n i t m P -> i <= j -> (forall x t', P x t' -> Q x t') -> costs n j t m Q.
Proof. intros (x & w & t' & Hm & Hw & HP) Hij HQ. exists x, w, t'. split; [done|]. split; [by eapply spent_end|auto]. Qed.

Lemma still_turns {X} (x y : X) w : still x = Ok (y, w) -> turns w = 0.
Proof. unfold still. by intros [= _ <-]. Qed.
Lemma hopping_turns {X} (m : outcome (X * nat)) y w : hopping m = Ok (y, w) -> turns w = 0.
Proof. unfold hopping. destruct m as [[x i]| |]; cbn; try done. by intros [= _ <-]. Qed.
Lemma if_yes {X} (b : bool) (x y : X) : b = true -> (if b then x else y) = x.
Proof. by intros ->. Qed.
Lemma if_no {X} (b : bool) (x y : X) : b = false -> (if b then x else y) = y.
Proof. by intros ->. Qed.

Section calls.
Context {K V : Type} (cmp : K -> K -> comparison) (Hcmp : total_preorder cmp) (alloc : bool) (off : nat) (n : nat).
Implicit Types (s : om K V) (A : view K V) (D : nat -> list nat).
Notation groups := (groups cmp).
Notation core := (core cmp alloc).
Notation repr := (repr cmp alloc).
Notation c := (kept alloc off).

(** The multimap and its tree. *)
Definition fits s A t : Prop :=
  (exists D, core s A t D) /\ sz s = Z.of_nat (length (queue A)) /\ length (nodes t) <= n.
Definition tofits {X} A (x : X) : om K V * X -> tree -> Prop := fun p t' => snd p = x /\ fits (fst p) A t'.

Lemma fits_repr s A t : fits s A t -> repr s A.
Proof. intros ((D & H) & Hsz & _). split; [by exists t, D|done]. Qed.
Lemma core_room s A t D : core s A t D -> keys_within cmp n A -> length (nodes t) <= n.
Proof.
  intros H Hn. apply Hn.
  - intros x. apply (core_node cmp alloc s A t D H).
  - assert (forall l, StronglySorted (klt cmp (vals A)) l -> StronglySorted (differ cmp A) l) as Hs.
    { induction 1 as [|x l Hs IH Hall]; constructor; [done|]. eapply Forall_impl; [exact Hall|].
      intros y (a & b & Ha & Hb & Hab). exists a, b. split_and!; [done..|]. by rewrite Hab. }
    apply Hs, (gr_sorted _ _ _ _ _ (co_groups _ _ _ _ _ _ H)).
Qed.

Lemma costs_fits {X Y} i k j t (m : counted (om K V * X)) (f : om K V * X -> counted Y) A x Q :
  costs n i t m (tofits A x) -> (forall s t', fits s A t' -> costs n j t' (f (s, x)) Q) -> i + j <= k ->
  costs n k t (cbind f m) Q.
Proof. intros Hm Hf Hk. eapply costs_bind; [exact Hm| |exact Hk]. intros [s y] t' [Hy Hr]. cbn in Hy, Hr. subst y. by apply Hf. Qed.
Lemma costs_back {X} s t A (x : X) : fits s A t -> costs n 0 t (still (s, x)) (tofits A x).
Proof. intros H. by apply costs_still. Qed.

(** ** Splaying *)

Lemma core_splay_c s A t D k :
  core s A t D -> queue A <> [] -> length (nodes t) <= n ->
  exists s' a x b kv i, splay_key_c cmp s (root s) k = Ok ((s', x), Work i 0) /\ falls nil (keyc cmp (vals A) k) t i a x b /\
    spent n 1 t (Work i 0) (T a x b) /\ core s' A (T a x b) D /\
    nodes (T a x b) = nodes t /\ sz s' = sz s /\ vals A !! x = Some kv /\ within D (nodes t) (lk s) (lk s') /\
    (forall z, z ∈ nodes a -> side cmp (vals A) true k z) /\ (forall z, z ∈ nodes b -> side cmp (vals A) false k z).
Proof.
  intros H Hne Hroom. unfold splay_key_c, msplay_c. rewrite (co_dat _ _ _ _ _ _ H), (co_root _ _ _ _ _ _ H).
  destruct (wf_splay_c cmp Hcmp (vals A) (lk s) t D k) as (h & a & x & b & kv & i & -> & Hf & Hw & Hn & Hin & Hx & Ha & Hb).
  { apply H. } { by rewrite (core_empty cmp alloc s A t D H). } { apply (gr_sorted _ _ _ _ _ (co_groups _ _ _ _ _ _ H)). }
  bind. eexists _, a, x, b, kv, i. split; [done|]. split; [done|]. split; [exact (spent_splay n _ _ _ _ _ _ _ 0 Hf Hroom)|].
  split; [|done].
  rewrite <- (set_queue_same A) at 1. apply (core_move cmp alloc s A t D H); cbn [lk dat heap root set_root set_lk]; try done.
  - rewrite Hn. apply H.
  - apply Hin.
  - apply H.
Qed.

Lemma core_splay_end_c s A t D d :
  core s A t D -> queue A <> [] -> length (nodes t) <= n ->
  exists s' a x i g l r, msplay_c s (root s) (force d) = Ok ((s', x), Work i 0) /\ falls nil g t i l x r /\
    (forall z, z ∈ nodes t -> g z = dirc d) /\ T l x r = mk d a x E /\
    spent n 1 t (Work i 0) (mk d a x E) /\ core s' A (mk d a x E) D /\
    nodes (mk d a x E) = nodes t /\ sz s' = sz s.
Proof.
  intros H Hne Hroom. unfold msplay_c. rewrite (co_root _ _ _ _ _ _ H).
  destruct (wf_splay_end_c cmp Hcmp (vals A) (lk s) t D d) as (h & a & x & i & g & l & r & -> & Hf & Hg & Emk & Hw & Hn & Hin).
  { apply H. } { by rewrite (core_empty cmp alloc s A t D H). } { apply (gr_sorted _ _ _ _ _ (co_groups _ _ _ _ _ _ H)). }
  bind. eexists _, a, x, i, g, l, r. split; [done|]. split; [done|]. split; [done|]. split; [done|].
  split; [rewrite <- Emk; exact (spent_splay n _ _ _ _ _ _ _ 0 Hf Hroom)|]. split; [|done].
  rewrite <- (set_queue_same A) at 1. apply (core_move cmp alloc s A t D H); cbn [lk dat heap root set_root set_lk]; try done.
  - by destruct d.
  - rewrite Hn. apply H.
  - apply Hin.
  - apply H.
Qed.

Lemma find_yes_c s A t k l1 x l2 :
  fits s A t -> present cmp A k l1 x l2 ->
  costs n 1 t (mfind_c cmp s k) (fun p t' => snd p = x /\ fits (fst p) A t' /\ root (fst p) = x /\ x <> 0).
Proof.
  intros Hr Hp. pose proof Hr as ((D & H) & Hsz & Hroom). pose proof (present_nonempty cmp _ _ _ _ _ Hp) as Hne. unfold mfind_c.
  rewrite (core_root_nil cmp alloc s A t D H). rewrite bool_decide_eq_false_2 by done.
  destruct (core_splay_c s A t D k H Hne Hroom) as (s' & a & y & b & kv & i & -> & _ & Hw & H' & Hnn & Hsz' & Hy & _ & Ha & Hb).
  destruct (root_present cmp Hcmp alloc s' A a y b D k kv H' Hy Ha Hb) as (Hpr & _).
  destruct (Hpr _ _ _ Hp) as [-> Hc]. cb. rewrite (core_cmpk cmp alloc _ _ _ _ H' k y kv) by done. bind. rewrite Hc.
  eexists _, _, (T a y b). split; [done|]. split; [eapply spent_end; [exact Hw| |done]; cbn; lia|].
  split; [done|]. split; [|split; [apply H'|]].
  - split; [by exists D|]. split; [cbn; congruence|]. by rewrite Hnn.
  - apply (repr_ne cmp alloc s A y (fits_repr _ _ _ Hr) (present_in cmp _ _ _ _ _ Hp)).
Qed.

Lemma find_no_c s A t k : fits s A t -> absent cmp A k -> costs n 1 t (mfind_c cmp s k) (tofits A 0).
Proof.
  intros Hr Hab. pose proof Hr as ((D & H) & Hsz & Hroom). unfold mfind_c.
  rewrite (core_root_nil cmp alloc s A t D H). case_bool_decide as Hne.
  { eapply costs_weak; [by apply costs_back|lia|done]. }
  destruct (core_splay_c s A t D k H Hne Hroom) as (s' & a & y & b & kv & i & -> & _ & Hw & H' & Hnn & Hsz' & Hy & _ & Ha & Hb).
  destruct (root_present cmp Hcmp alloc s' A a y b D k kv H' Hy Ha Hb) as (_ & Hab' & _). specialize (Hab' Hab).
  cb. rewrite (core_cmpk cmp alloc _ _ _ _ H' k y kv) by done. bind.
  eexists _, _, (T a y b). split; [done|]. split; [eapply spent_end; [exact Hw| |done]; cbn; lia|].
  split; [cbn; by destruct (cmp k (fst kv))|]. split; [by exists D|]. split; [cbn; congruence|]. by rewrite Hnn.
Qed.

Lemma contains_c s A t k (b : bool) :
  fits s A t -> queue A <> [] -> (if b then exists l1 x l2, present cmp A k l1 x l2 else absent cmp A k) ->
  costs n 1 t (omm_contains_c cmp s k) (tofits A b).
Proof.
  intros Hr Hne Hb'. pose proof Hr as ((D & H) & Hsz & Hroom). unfold omm_contains_c.
  destruct (core_splay_c s A t D k H Hne Hroom) as (s' & a & y & b' & kv & i & -> & _ & Hw & H' & Hnn & Hsz' & Hy & _ & Ha & Hb).
  destruct (root_present cmp Hcmp alloc s' A a y b' D k kv H' Hy Ha Hb) as (Hpr & Hab' & _).
  cb. rewrite (core_cmpk cmp alloc _ _ _ _ H' k y kv) by done. bind.
  eexists _, _, (T a y b'). split; [done|]. split; [eapply spent_end; [exact Hw| |done]; cbn; lia|].
  split; [|split; [by exists D|]; split; [cbn; congruence|]; by rewrite Hnn].
  cbn. destruct b.
  - destruct Hb' as (l1 & x & l2 & Hp). destruct (Hpr _ _ _ Hp) as [_ ->]. done.
  - specialize (Hab' Hb'). by destruct (cmp k (fst kv)).
Qed.

(** ** Insertion *)

(** The tree that an insertion of a new key makes. *)
Definition grown (A : view K V) (k : K) t e t' : Prop :=
  (queue A = [] -> t' = T E e E) /\
  (queue A <> [] -> absent cmp A k -> exists d u x w i l r, falls nil (keyc cmp (vals A) k) t i l x r /\
     keyc cmp (vals A) k x = dirc d /\ T l x r = mk d u x w /\ t' = mk d (mk d u x E) e w).

Lemma insert_grown_c s A t e kv :
  fits s A t -> vals A !! e = Some kv -> e ∉ queue A -> (alloc = true -> e ∈ mem A) -> keys_within cmp n (push A e) ->
  exists en, costs n 2 t (multimap_insert_c cmp s e)
      (fun p t' => snd p = en /\ fits (fst p) (push A e) t' /\ grown A (fst kv) t e t') /\ e_ en = e /\ ins_err en = false /\
    (absent cmp A (fst kv) -> occupied en = false) /\
    (forall l1 x l2, present cmp A (fst kv) l1 x l2 -> occupied en = true).
Proof.
  intros ((D & H) & Hsz & Hroom) He Hin Hmem Hkeys. destruct (co_live _ _ _ _ _ _ H e kv He) as (Hle & He0 & Hen).
  unfold multimap_insert_c. rewrite OmProofs.set_links_put by done. bind.
  set (s1 := set_lk s _). pose proof (core_put cmp alloc s A t D H e nil nil nil Hin Hen) as H1. fold s1 in H1.
  destruct (OmProofs.put_lookups (lk s) e nil nil nil) as (Hl & Hrt & Hp).
  assert (alloc = true -> forall x, x ∈ queue A ++ [e] -> x ∈ mem A) as Hmem'.
  { intros Ha x [Hx|Hx]%elem_of_app; [by apply (co_mem _ _ _ _ _ _ H)|]. apply elem_of_list_singleton in Hx as ->. auto. }
  rewrite (mempty_Ok s1 A) by done. case_bool_decide as Hne.
  - pose proof (proj2 (core_empty cmp alloc s A t D H) Hne) as ->.
    exists (vacant_ent e).
    split; [|split_and!; [done..|]; intros l1 x l2 Hpr; exfalso; by apply (present_nonempty cmp _ _ _ _ _ Hpr)].
    assert (core (set_sz (set_root s1 e) 1) (push A e) (T E e E) D) as Hcore.
    { pose proof (wf_out _ _ _ (co_wf _ _ _ _ _ _ H1)) as Hout.
      assert (forall n, D n = []) as HD by (intros z; apply Hout, not_elem_of_nil).
      apply (core_move cmp alloc s1 A E D H1); try done.
      * split.
        -- cbn [TreeProofs.rep TreeProofs.ptr nodes app]. rewrite !flat_in by (cbn; left). cbn [lf rt flat].
           rewrite (HD e). cbn [hd]. done.
        -- apply (wf_nil _ _ _ (co_wf _ _ _ _ _ _ H1)).
        -- intros z _. by rewrite HD.
        -- intros z _. apply HD.
        -- cbn. split_and!.
           ++ apply NoDup_singleton.
           ++ intros ?%elem_of_list_singleton. congruence.
           ++ intros ?%elem_of_list_singleton. congruence.
           ++ intros z. rewrite HD. constructor.
           ++ intros z x. rewrite HD. by intros ?%elem_of_nil.
           ++ intros z m x. rewrite HD. by intros ?%elem_of_nil.
      * cbn [nodes app]. rewrite Hne. apply (gr_push_new cmp Hcmp (vals A) [] [e] D [] e kv); try done.
        -- pose proof (co_groups _ _ _ _ _ _ H) as Hg. by rewrite Hne in Hg.
        -- split; [repeat constructor|]. constructor; [by exists kv|constructor].
        -- by intros z kn ?%elem_of_nil.
        -- apply not_elem_of_nil. }
    eexists _, _, (T E e E). split; [done|]. split; [eapply spent_end; [apply spent_first|done|lia]|].
    split; [done|]. split; [|by split].
    split; [by exists D|]. split; [cbn; by rewrite Hne|]. by apply (core_room _ _ _ _ Hcore).
  - pose proof (core_sz cmp alloc _ _ _ _ (sz s1 + 1)%Z H1) as H1'.
    rewrite (core_value cmp alloc _ A t D H1' e kv) by done. bind.
    destruct (core_splay_c _ A t D (fst kv) H1' Hne Hroom)
      as (s2 & a & x & b & kx & i & Hrun & Hfall & Hw & H2 & Hn2 & Hsz2 & Hx & Hw2 & Ha & Hb).
    rewrite Hrun. cb.
    rewrite (core_cmpk cmp alloc _ _ _ _ H2 (fst kv) x kx) by done. bind.
    destruct (root_present cmp Hcmp alloc s2 A a x b D _ kx H2 Hx Ha Hb) as (Hpr & Hab & _ & Hab').
    assert (~ span D (nodes (T a x b)) e) as Hsp by (by apply (core_outside cmp alloc s2 A (T a x b) D H2 e kv)).
    assert (root s2 = x) as Hroot2 by apply H2.
    destruct (co_live _ _ _ _ _ _ H2 e kv He) as (Hle2 & _).
    assert (Z.of_nat (length (queue A ++ [e])) = (sz s1 + 1)%Z) as Hlen.
    { rewrite app_length. cbn [length]. change (sz s1) with (sz s). lia. }
    destruct (is_eq (cmp (fst kv) (fst kx))) eqn:Ec.
    + assert (cmp (fst kv) (fst kx) = Eq) as Ec' by (by destruct (cmp (fst kv) (fst kx))).
      rewrite Hroot2. destruct (wf_add (lk s2) a x b D e) as (h3 & -> & Hw3 & Hin3); [apply H2|done..|]. bind.
      exists (occupied_ent e). split; [|split_and!; try done; by intros Hab''; specialize (Hab Hab'')].
      eexists _, _, (T a x b). split; [done|]. split; [eapply spent_end; [exact Hw|cbn; lia|lia]|].
      split; [done|]. split; [|split; [done|]; intros _ Hab''; by specialize (Hab Hab'')].
      split; [|split; [cbn [fst sz set_lk queue push set_queue]; rewrite Hsz2; cbn [sz set_sz]; lia|by rewrite Hn2]].
      exists (put D x (D x ++ [e])). apply (core_move cmp alloc s2 A (T a x b) D H2); try done.
      * apply (gr_push_old cmp Hcmp (vals A) _ D _ x e kx kv); try done; [apply H2|].
        cbn. rewrite elem_of_app. right. left.
      * apply Hin3.
    + assert (cmp (fst kv) (fst kx) <> Eq) as Ec' by (by intros E'; rewrite E' in Ec).
      set (d := is_gt (cmp (fst kv) (fst kx))).
      assert (exists u w, T a x b = mk d u x w /\
        ((d = true /\ u = a /\ w = b /\ cmp (fst kv) (fst kx) = Gt) \/
         (d = false /\ u = b /\ w = a /\ cmp (fst kv) (fst kx) = Lt))) as (u & w & Hmk & Hcase).
      { unfold d. destruct (cmp (fst kv) (fst kx)); [done|exists b, a|exists a, b]; (split; [done|auto]). }
      assert (same (lk s1) (lk s2) e) as (Hs1 & Hs2 & Hs3).
      { apply Hw2. by rewrite <- Hn2. }
      rewrite Hroot2. destruct (wf_graft (lk s2) D (cmp (fst kv) (fst kx)) u x w e) as (h3 & -> & Hw3 & Hin3).
      { fold d. rewrite <- Hmk. apply H2. }
      { fold d. rewrite <- Hmk. split_and!; try done; [rewrite Hs1|rewrite Hs2|rewrite Hs3]; done. }
      bind. fold d in Hw3, Hin3. rewrite <- Hmk in Hin3.
      exists (vacant_ent e). split; [|split_and!; try done; by intros l1 y l2 Hpr'; destruct (Hpr _ _ _ Hpr') as [_ ?]].
      assert (nodes (mk d (mk d u x E) e w) ≡ₚ e :: nodes (T a x b)) as Hperm.
      { rewrite Hmk, !nodes_mk_perm. cbn [nodes]. by rewrite app_nil_r. }
      assert (core (set_root (set_lk s2 h3) e) (push A e) (mk d (mk d u x E) e w) D) as Hcore.
      { apply (core_move cmp alloc s2 A (T a x b) D H2); try done.
        -- cbn [root set_root]. by rewrite ptr_mk.
        -- apply (gr_push_new cmp Hcmp (vals A) (nodes (T a x b)) _ D _ e kv); try done.
           ++ apply H2.
           ++ pose proof (gr_sorted _ _ _ _ _ (co_groups _ _ _ _ _ _ H2)) as Hs. cbn [nodes] in Hs.
              destruct Hcase as [(Ed & -> & -> & Ecc)|(Ed & -> & -> & Ecc)]; rewrite Ed; cbn [mk nodes].
              ** apply (MapProofs.sorted_insert cmp Hcmp (vals A) _ _ e kv); [by rewrite <- app_assoc|done| |done].
                 intros z [Hz|[-> |Hz%elem_of_nil]%elem_of_cons]%elem_of_app; [auto| |done]. by exists kx.
              ** apply (MapProofs.sorted_insert cmp Hcmp (vals A) _ _ e kv); [done|done|done|].
                 intros z [-> |Hz]%elem_of_cons; [by exists kx|auto].
           ++ apply (wf_out _ _ _ (co_wf _ _ _ _ _ _ H2)). intros Hz. apply Hsp. apply span_in. by right.
           ++ intros z kn Hnn Hkn. apply (gr_absent cmp A _ _ (fst kv) z kn (co_groups _ _ _ _ _ _ H2)); [auto|done|done].
        -- apply Hin3. }
      pose proof (core_room _ _ _ _ Hcore Hkeys) as Hroom'.
      eexists _, _, (mk d (mk d u x E) e w). split; [done|]. split.
      * eapply (spent_end n (1 + 1)); [eapply spent_trans; [exact Hw|]|done|done]. rewrite Hmk.
        apply spent_graft. rewrite <- Hmk. rewrite Hperm in Hroom'. cbn [length] in Hroom'. lia.
      * split; [done|]. split; [|split; [done|]; intros _ _; exists d, u, x, w, i, a, b; split_and!; try done;
          unfold keyc; rewrite Hx; destruct Hcase as [(Ed & _ & _ & ->)|(Ed & _ & _ & ->)]; by rewrite Ed].
        split; [by exists D|]. split; [|done].
        cbn [fst sz set_root set_lk queue push set_queue]; rewrite Hsz2; cbn [sz set_sz]; lia.
Qed.

Lemma insert_c s A t e kv :
  fits s A t -> vals A !! e = Some kv -> e ∉ queue A -> (alloc = true -> e ∈ mem A) -> keys_within cmp n (push A e) ->
  exists en, costs n 2 t (multimap_insert_c cmp s e) (tofits (push A e) en) /\ e_ en = e /\ ins_err en = false /\
    (absent cmp A (fst kv) -> occupied en = false) /\
    (forall l1 x l2, present cmp A (fst kv) l1 x l2 -> occupied en = true).
Proof.
  intros H1 H2 H3 H4 H5. destruct (insert_grown_c s A t e kv H1 H2 H3 H4 H5) as (en & Hc & Hen). exists en. split; [|done].
  eapply costs_weak; [exact Hc|done|]. intros p t' (Hp & Hf & _). by split.
Qed.

(** ** Removal *)

Definition gone_t s A l1 l2 s' t' : Prop :=
  sz s' = sz s /\ (exists D, core s' (set_queue A (l1 ++ l2)) t' D) /\ length (nodes t') <= n.

Lemma remove_single_c s A a x b D l1 l2 :
  core s A (T a x b) D -> queue A = l1 ++ x :: l2 -> D x = [] -> length (nodes (T a x b)) <= n ->
  costs n 1 (T a x b) (mremove_from_tree_c cmp s x) (gone_t s A l1 l2).
Proof.
  intros H Hq HD Hroom. pose proof (co_groups _ _ _ _ _ _ H) as Hg. rewrite Hq in Hg.
  destruct (core_data cmp alloc s A _ D H x) as [kx Hx]; [rewrite Hq, elem_of_app; right; left|].
  pose proof (gr_sorted _ _ _ _ _ Hg) as Hs.
  destruct (wf_detach_c cmp Hcmp (vals A) (lk s) D a x b kx) as (h' & t' & i & Hrun & Hcut & Hw & Hn & Hin); [apply H|done..|].
  unfold mremove_from_tree_c. rewrite (co_dat _ _ _ _ _ _ H), Hrun. bind. eexists _, _, t'. split; [done|].
  split; [|split; [done|split]].
  - destruct Hcut as [(-> & -> & ->)|(a' & y & Hf & ->)].
    + eapply (spent_end n 0 1 _ idle); [apply spent_cut_first|done|lia].
    + exact (spent_cut_splayed n _ _ _ _ _ _ _ _ 0 Hf Hroom).
  - exists D. apply (core_move cmp alloc s A (T a x b) D H); try done; [|apply Hin|by apply (gone_mem cmp alloc s A (T a x b) D l1 x)].
    rewrite Hn. cbn [nodes] in Hg, Hs. apply (gr_pop_single cmp Hcmp (vals A) (nodes a ++ x :: nodes b) _ D l1 x l2); try done.
    + rewrite elem_of_app. right. left.
    + by apply (MapProofs.sorted_remove cmp (vals A) _ x).
    + pose proof (core_nodes cmp alloc s A _ D H) as Hnd. cbn [nodes] in Hnd. rewrite <- Permutation_middle in Hnd.
      apply NoDup_cons in Hnd as [Hnx _]. intros z. rewrite !elem_of_app, elem_of_cons. rewrite elem_of_app in Hnx.
      split; [|tauto]. intros Hn'. split; [tauto|]. by intros ->.
  - rewrite Hn. cbn [nodes] in Hroom. rewrite app_length in *. cbn [length] in Hroom. lia.
Qed.

Lemma remove_front_c s A a x b D l1 l2 d r k :
  core s A (T a x b) D -> queue A = l1 ++ x :: l2 -> D x = d :: r -> length (nodes (T a x b)) <= n ->
  costs n 0 (T a x b) (gratis (pop_front_dup cmp s x k)) (fun s' t' => gone_t s A l1 l2 s' t' /\ t' = T a d b).
Proof.
  intros H Hq HD Hroom. pose proof (co_groups _ _ _ _ _ _ H) as Hg. rewrite Hq in Hg.
  destruct (pop_front_Ok cmp s a x b D d r k) as (h' & -> & Hw & Hin); [apply H|done|apply H|].
  eexists _, _, (T a d b). split; [done|]. split; [|split; [|done]].
  { eapply (spent_end n 0 0 _ idle); [|done|done]. unfold spent. cbn. lia. }
  split; [done|]. split; [|cbn [nodes] in *; rewrite app_length in *; cbn in *; lia].
  exists (put (put D x []) d r).
  apply (core_move cmp alloc s A (T a x b) D H); try done; [|apply Hin|by apply (gone_mem cmp alloc s A (T a x b) D l1 x)].
  cbn [nodes] in *. apply (gr_pop_front cmp Hcmp); [done|done|].
  destruct (wf_apart _ _ _ (co_wf _ _ _ _ _ _ H)) as (_ & _ & _ & _ & Hd & _).
  apply (Hd x d). rewrite HD. left.
Qed.

Lemma gone_unlink_c s s' A l1 x l2 kx t' :
  gone_t s A l1 l2 s' t' -> vals A !! x = Some kx -> x ∉ l1 ++ l2 ->
  exists h, set_links (lk s') x 0 = Ok h /\ gone_t s A l1 l2 (set_lk s' h) t'.
Proof.
  intros (Hsz & (D & H) & Hroom) Hx Hn. destruct (co_live _ _ _ _ _ _ H x kx Hx) as (Hl & _ & Hxn).
  destruct (unlink_Ok cmp alloc s' _ t' D x H Hn Hxn Hl) as (h & Hh & H'). exists h. split; [done|]. split; [done|].
  split; [by exists D|done].
Qed.

Lemma take_front_c_Ok s A a x b D l1 l2 :
  core s A (T a x b) D -> queue A = l1 ++ x :: l2 -> length (nodes (T a x b)) <= n ->
  costs n 1 (T a x b) (take_front_c cmp s x) (fun p t' => snd p = x /\ gone_t s A l1 l2 (fst p) t').
Proof.
  intros H Hq Hroom. unfold take_front_c.
  assert (x ∈ nodes (T a x b)) as Hxn by (cbn; rewrite elem_of_app; right; left).
  destruct (core_data cmp alloc s A _ D H x) as [kx Hx]; [by apply (core_node cmp alloc s A (T a x b) D)|].
  rewrite (core_has_dups cmp alloc s A _ D x H Hxn). bind. unfold dup.
  apply (costs_bind n 1 0 1 _ _ _ (gone_t s A l1 l2)); [| |done].
  - destruct (D x) as [|d r] eqn:ED.
    + by apply (remove_single_c s A a x b D).
    + rewrite (core_value cmp alloc s A _ D H x kx Hx). bind.
      eapply costs_weak; [by apply (remove_front_c s A a x b D l1 l2 d r)|lia|by intros ? ? [? _]].
  - intros s1 t' Hg. destruct (gone_unlink_c s s1 A l1 x l2 kx t' Hg Hx) as (h & -> & Hg').
    { by apply (not_in_rest cmp alloc s A (T a x b) D). }
    bind. by apply costs_still.
Qed.

Lemma gone_fits s s' A l1 x l2 m t' :
  gone_t s A l1 l2 s' t' -> queue A = l1 ++ x :: l2 -> sz s = (m - 1)%Z -> m = Z.of_nat (length (queue A)) ->
  fits s' (set_queue A (l1 ++ l2)) t'.
Proof.
  intros (Hsz & He & Hroom) Hq Hs Hm. split; [done|]. split; [|done]. cbn [queue set_queue].
  rewrite Hsz, Hs, Hm, Hq, !app_length. cbn [length]. lia.
Qed.

(** A search counted, then something. *)
Lemma costs_after {Y} (s' : om K V) (x i : nat) t t1 (f : om K V * nat -> counted Y) j k Q :
  spent n 1 t (Work i 0) t1 -> costs n j t1 (f (s', x)) Q -> 1 + j <= k ->
  costs n k t (cbind f (Ok ((s', x), Work i 0))) Q.
Proof.
  intros Hw Hf Hk. eapply (costs_bind n 1 j k t _ f (fun p t' => p = (s', x) /\ t' = t1)); [|by intros ? ? [-> ->]|done].
  by eexists _, _, t1.
Qed.

Lemma erase_yes_c s A t k l1 x l2 :
  fits s A t -> present cmp A k l1 x l2 ->
  costs n 2 t (multimap_erase_c cmp s k) (tofits (set_queue A (l1 ++ l2)) x).
Proof.
  intros ((D & H) & Hsz & Hroom) Hp. pose proof (present_nonempty cmp _ _ _ _ _ Hp) as Hne. unfold multimap_erase_c.
  rewrite (mempty_Ok s A Hsz). rewrite bool_decide_eq_false_2 by done.
  destruct (core_splay_c s A t D k H Hne Hroom) as (s1 & a & y & b & kv & i & -> & _ & Hw & H1 & Hnn & Hsz1 & Hy & _ & Ha & Hb).
  destruct (root_present cmp Hcmp alloc s1 A a y b D k kv H1 Hy Ha Hb) as (Hpr & _).
  destruct (Hpr _ _ _ Hp) as [-> Hc]. pose proof Hp as (Hq & _).
  eapply costs_after; [exact Hw| |]; [rewrite (core_cmpk cmp alloc _ _ _ _ H1 k y kv) by done; bind; rewrite Hc; cbn [is_eq negb]|].
  - pose proof (core_sz cmp alloc _ _ _ _ (sz s1 - 1)%Z H1) as H2.
    eapply costs_weak; [apply (take_front_c_Ok _ A a y b D l1 l2 H2 Hq); by rewrite Hnn|done|].
    intros p t' [Hy' Hg]. split; [done|]. apply (gone_fits _ _ A l1 y l2 (sz s1) t' Hg Hq); [done|congruence].
  - done.
Qed.

Lemma erase_no_c s A t k : fits s A t -> absent cmp A k -> costs n 1 t (multimap_erase_c cmp s k) (tofits A 0).
Proof.
  intros Hr Hab. pose proof Hr as ((D & H) & Hsz & Hroom). unfold multimap_erase_c.
  rewrite (mempty_Ok s A Hsz). case_bool_decide as Hne.
  { eapply costs_weak; [by apply costs_back|lia|done]. }
  destruct (core_splay_c s A t D k H Hne Hroom) as (s1 & a & y & b & kv & i & -> & _ & Hw & H1 & Hnn & Hsz1 & Hy & _ & Ha & Hb).
  destruct (root_present cmp Hcmp alloc s1 A a y b D k kv H1 Hy Ha Hb) as (_ & Hab' & _). specialize (Hab' Hab).
  eapply costs_after; [exact Hw| |].
  - rewrite (core_cmpk cmp alloc _ _ _ _ H1 k y kv) by done. bind.
    assert (negb (is_eq (cmp k (fst kv))) = true) as -> by (by destruct (cmp k (fst kv))).
    apply costs_back. split; [by exists D|]. split; [congruence|by rewrite Hnn].
  - done.
Qed.

Lemma end_c s A t d l1 x l2 :
  fits s A t -> extreme cmp A d l1 x l2 ->
  costs n 1 t (omm_end_c s d) (fun p t' => snd p = x /\ fits (fst p) A t' /\ exists a, t' = mk d a x E).
Proof.
  intros ((D & H) & Hsz & Hroom) Hx. pose proof (extreme_nonempty cmp _ _ _ _ _ Hx) as Hne.
  destruct (core_splay_end_c s A t D d H Hne Hroom) as (s' & a & y & i & g & l & r & Hrun & _ & _ & _ & Hw & H' & Hn & Hsz').
  assert (x = y) as ->.
  { apply (gr_extreme cmp Hcmp A _ D d l1 x l2 y (ord d (nodes a)) (co_groups _ _ _ _ _ _ H') Hx). by rewrite nodes_mk; destruct d. }
  eexists _, _, _. split; [exact Hrun|]. split; [exact Hw|]. split; [done|]. split; [|by exists a].
  split; [by exists D|]. split; [cbn; congruence|by rewrite Hn].
Qed.

Lemma erase_end_c_Ok s A t d l1 x l2 :
  fits s A t -> extreme cmp A d l1 x l2 ->
  costs n 2 t (erase_end_c cmp s d) (tofits (set_queue A (l1 ++ l2)) x).
Proof.
  intros ((D & H) & Hsz & Hroom) Hx. pose proof (extreme_nonempty cmp _ _ _ _ _ Hx) as Hne. unfold erase_end_c.
  rewrite (mempty_Ok s A Hsz), bool_decide_eq_false_2 by done.
  destruct (core_splay_end_c _ A t D d (core_sz cmp alloc _ _ _ _ (sz s - 1)%Z H) Hne Hroom)
    as (s1 & a & y & i & g & l & r & -> & _ & _ & _ & Hw & H1 & Hn & Hsz1).
  assert (x = y) as ->.
  { apply (gr_extreme cmp Hcmp A _ D d l1 x l2 y (ord d (nodes a)) (co_groups _ _ _ _ _ _ H1) Hx). by rewrite nodes_mk; destruct d. }
  destruct Hx as [Hq _].
  eapply costs_after; [exact Hw| |].
  - eapply (costs_weak n 1 1 _ _ (fun p t' => snd p = y /\ gone_t s1 A l1 l2 (fst p) t')).
    + destruct d; [apply (take_front_c_Ok s1 A a y E D)|apply (take_front_c_Ok s1 A E y a D)]; try done; by rewrite <- Hn in Hroom.
    + done.
    + intros p t' [Hy' Hg]. split; [done|]. by apply (gone_fits s1 _ A l1 y l2 (sz s) t' Hg Hq).
  - done.
Qed.

Lemma erase_node_c_Ok s A t l1 e l2 :
  fits s A t -> queue A = l1 ++ e :: l2 ->
  costs n 2 t (erase_node_c cmp s e) (tofits (set_queue A (l1 ++ l2)) e).
Proof.
  intros ((D & H) & Hsz & Hroom) Hq. assert (e ∈ queue A) as He by (rewrite Hq, elem_of_app; right; left).
  assert (queue A <> []) as Hne by (rewrite Hq; by destruct l1).
  destruct (core_links_ne cmp alloc s A t D e H He) as (l & r & Hl & Hr & Hl0 & Hr0).
  destruct (core_data cmp alloc s A t D H e He) as [kv Hkv].
  unfold erase_node_c. rewrite (rd_Ok _ _ _ Hr). bind. rewrite (rd_Ok _ _ _ Hl). bind.
  rewrite (proj2 (Nat.eqb_neq r 0)), (proj2 (Nat.eqb_neq l 0)) by done. cbn [orb].
  rewrite (mempty_Ok s A Hsz), bool_decide_eq_false_2 by done.
  destruct (gr_cover _ _ _ _ _ (co_groups _ _ _ _ _ _ H) e He) as (m & Hn & Hin).
  destruct (wf_pa_zero (lk s) t D m e (co_wf _ _ _ _ _ _ H) Hn Hin) as (p & Hp & Hp0).
  cbn [lk set_sz]. rewrite (rd_Ok _ _ _ Hp). bind. destruct (Nat.eqb_spec p 0) as [Ep|Ep].
  - (* within a ring *)
    apply Hp0 in Ep. destruct (D m) as [|d q] eqn:ED; [by apply elem_of_nil in Ep|]. cbn [tail] in Ep.
    apply elem_of_list_split in Ep as (m1 & m2 & ->).
    destruct (wf_snip (lk s) t D m d m1 e m2 l r (co_wf _ _ _ _ _ _ H) Hn ED Hl Hr)
      as (Hen & Hle & Hre & Hlr & Hrl & Hll & Hlr' & Hw & Hwi).
    rewrite (rd_Ok _ _ _ Hlr). bind. rewrite (rd_Ok _ _ _ Hrl). bind. rewrite Nat.eqb_refl. cbn [andb oassert]. bind.
    rewrite wbr_Ok by (by apply live_br). bind.
    rewrite (rd_Ok (rt _) _ r) by (see; done). bind.
    rewrite (rd_Ok (lf _) _ l) by done. bind.
    rewrite wbr_Ok by (apply live_br; by apply live_set_br). bind.
    eapply costs_weak; [apply costs_back|lia|done].
    apply (gone_fits (set_sz s (sz s - 1)) _ A l1 e l2 (sz s)); [|done..]. split; [done|]. split; [|done].
    exists (put D m (d :: m1 ++ m2)). apply (core_move cmp alloc s A t D H); try done.
    + apply H.
    + pose proof (co_groups _ _ _ _ _ _ H) as Hg. rewrite Hq in Hg.
      by apply (gr_pop_dup cmp Hcmp (vals A) (nodes t) D l1 e l2 m (d :: m1) m2).
    + apply Hwi.
    + by apply (gone_mem cmp alloc s A t D l1 e).
  - pose proof (core_sz cmp alloc _ _ _ _ (sz s - 1)%Z H) as H0. rewrite (core_value cmp alloc _ A t D H0 e kv Hkv). bind.
    destruct (core_splay_c _ A t D (fst kv) H0 Hne Hroom)
      as (s1 & a & x & b & kx & i & -> & _ & Hw & H1 & Hn1 & Hsz1 & Hx & _ & Ha & Hb).
    eapply (costs_after s1 x i t (T a x b) _ 1 2); [exact Hw| |done]. rewrite <- Hn1 in Hroom.
    rewrite (core_cmpk cmp alloc _ _ _ _ H1 (fst kv) x kx) by done. bind.
    destruct (root_present cmp Hcmp alloc s1 A a x b D (fst kv) kx H1 Hx Ha Hb) as (_ & _ & _ & Hab).
    destruct (is_eq (cmp (fst kv) (fst kx))) eqn:Ec; cycle 1.
    { exfalso. assert (absent cmp A (fst kv)) as Habs by (apply Hab; by intros E'; rewrite E' in Ec).
      unfold absent in Habs. rewrite Forall_forall in Habs. apply (Habs e He). exists kv. split; [done|by apply cmp_refl]. }
    cbn [negb]. assert (cmp (fst kx) (fst kv) = Eq) as Ek.
    { apply (cmp_sym cmp Hcmp). by destruct (cmp (fst kv) (fst kx)). }
    assert (x ∈ nodes (T a x b)) as Hxn by (cbn; rewrite elem_of_app; right; left).
    pose proof (gr_owner cmp _ _ _ _ x e kx kv (co_groups _ _ _ _ _ _ H1) Hxn He Hx Hkv Ek) as Hex.
    assert (m = x) as ->.
    { destruct (decide (m = x)) as [|Hnx]; [done|exfalso].
      apply (apart_groups (nodes (T a x b)) D m x e (wf_apart _ _ _ (co_wf _ _ _ _ _ _ H1))); try done. by rewrite Hn1. }
    rewrite (core_has_dups cmp alloc s1 A _ D x H1 Hxn). bind. unfold dup.
    apply (costs_bind n 1 0 1 _ _ _ (fun p t' => snd p = e /\ gone_t s1 A l1 l2 (fst p) t')); [| |done].
    { destruct (D x) as [|d q] eqn:ED.
      - apply elem_of_list_singleton in Hin as ->.
        apply (costs_bind n 1 0 1 _ _ _ (gone_t s1 A l1 l2)); [by apply (remove_single_c s1 A a x b D)| |done].
        intros s2 t' Hg. by apply costs_still.
      - apply (costs_weak n 0 1 _ _ (fun p t' => snd p = e /\ gone_t s1 A l1 l2 (fst p) t')); [|lia|done].
        assert (exists s2 t', pop_dup_node cmp s1 e x = Ok (s2, e) /\ gone_t s1 A l1 l2 s2 t' /\ pot t' = pot (T a x b))
          as (s2 & t' & -> & Hg & Hpot); cycle 1.
        { eexists _, _, t'. split; [done|]. split; [|done]. unfold spent. cbn [turns idle]. rewrite Hpot. cbn. lia. }
        unfold pop_dup_node. destruct (Nat.eqb_spec e x) as [-> |Hne'].
        + rewrite (core_value cmp alloc s1 A _ D H1 x kx Hx). bind.
          destruct (remove_front_c s1 A a x b D l1 l2 d q (fst kx) H1 Hq ED Hroom) as (s2 & w & t' & Hs2 & _ & Hg & ->).
          unfold gratis in Hs2. destruct (pop_front_dup cmp s1 x (fst kx)); try done. injection Hs2 as -> _. bind.
          eexists _, _. split; [done|]. split; [exact Hg|done].
        + assert (e = d) as ->.
          { cbn [tail] in Hp0. apply elem_of_cons in Hin as [?|[?|Hin]%elem_of_cons]; [done|done|].
            exfalso. apply Ep. by apply Hp0. }
          destruct (core_links_ne cmp alloc s1 A _ D d H1 He) as (p1 & n1 & Hp1 & Hnx1 & _ & _).
          destruct (wf_head (lk s1) a x b D d q p1 n1 (co_wf _ _ _ _ _ _ H1) ED Hp1 Hnx1) as (Hxd & Hlx & Hpd & Hone & Hmore).
          rewrite (rd_Ok _ _ _ Hnx1). bind.
          pose proof (co_groups _ _ _ _ _ _ H1) as Hg. rewrite Hq in Hg.
          destruct q as [|d' q].
          * destruct (Hone eq_refl) as (-> & Hw' & Hwi). rewrite Nat.eqb_refl.
            rewrite wpa_Ok by (by apply live_pa). bind. eexists _, (T a x b). split; [done|]. split; [|done].
            split; [done|]. split; [|done].
            exists (put D x []). apply (core_move cmp alloc s1 A (T a x b) D H1); try done.
            -- apply H1.
            -- by apply (gr_pop_dup cmp Hcmp (vals A) _ D l1 d l2 x [] []).
            -- apply Hwi.
            -- by apply (gone_mem cmp alloc s1 A (T a x b) D l1 d).
          * destruct Hmore as (Hpd' & Hnd & Hnx' & Hlp & Hln & Hw' & Hwi); [done|].
            rewrite (proj2 (Nat.eqb_neq n1 d)) by done. rewrite (rd_Ok _ _ _ Hp1). bind.
            rewrite wbr_Ok by (by apply live_br). bind.
            rewrite (rd_Ok (rt _) _ n1) by (see; done). bind.
            rewrite (rd_Ok (lf _) _ p1) by done. bind.
            rewrite wbr_Ok by (apply live_br; by apply live_set_br). bind.
            rewrite (rd_Ok (rt _) _ n1) by (see; done). bind.
            rewrite (rd_Ok (pa _) _ nil) by done. bind.
            rewrite wpa_Ok by (apply live_pa; by repeat apply live_set_br). bind.
            rewrite wpa_Ok by (apply live_pa, live_set_pa; by repeat apply live_set_br). bind.
            eexists _, (T a x b). split; [done|]. split; [|done]. split; [done|]. split; [|done].
            exists (put D x (d' :: q)). apply (core_move cmp alloc s1 A (T a x b) D H1); try done.
            -- apply H1.
            -- by apply (gr_pop_dup cmp Hcmp (vals A) _ D l1 d l2 x [] (d' :: q)).
            -- apply Hwi.
            -- by apply (gone_mem cmp alloc s1 A (T a x b) D l1 d). }
    intros [s2 y] t' [Hy Hg]. cbn [fst snd] in Hy, Hg. subst y.
    destruct (gone_unlink_c s1 s2 A l1 e l2 kv t' Hg Hkv) as (h & -> & Hg').
    { by apply (not_in_rest cmp alloc s1 A (T a x b) D). }
    bind. apply costs_back. by apply (gone_fits s1 _ A l1 e l2 (sz s) t' Hg' Hq).
Qed.

(** ** Memory and data *)

Lemma give_back_c s A t x :
  fits s A t -> x ∉ queue A -> x <> nil -> x ∈ mem A -> exists s', give_back s x = Ok s' /\ fits s' (free A x) t.
Proof.
  intros ((D & H) & Hsz & Hroom) Hx Hn Hm. unfold give_back. rewrite (co_heap _ _ _ _ _ _ H), bool_decide_eq_true_2 by done.
  eexists. split; [done|]. split; [|done]. exists D. split; cbn [lk root dat heap queue vals mem free]; try apply H; try done.
  - apply (wf_same (lk s)); [apply H|]. intros z [-> |Hz]%(core_span cmp alloc s A t D H); apply same_del; [done|by intros ->].
  - apply (gr_same cmp Hcmp (vals A)); [apply H|]. intros z Hz. rewrite lookup_delete_ne; [done|by intros ->].
  - by rewrite (co_dat _ _ _ _ _ _ H).
  - intros z kv [Hz Hkv]%lookup_delete_Some. destruct (co_live _ _ _ _ _ _ H z kv Hkv) as (Hl & ? & ?).
    split_and!; try done. apply (same_live (lk s)); [|done]. by apply same_del.
  - intros Ha z Hz. apply elem_of_difference. split; [by apply (co_mem _ _ _ _ _ _ H)|].
    intros ->%elem_of_singleton. done.
Qed.
Lemma leaves_c s A t l1 x l2 :
  fits s (set_queue A (l1 ++ l2)) t -> x ∉ l1 ++ l2 -> x <> nil -> (alloc = true -> x ∈ mem A) ->
  exists s', (if alloc then give_back s x else Ok s) = Ok s' /\ fits s' (leaves c A l1 x l2) t.
Proof.
  intros Hr Hx Hn Hm. unfold leaves. cbn [allocates kept].
  assert (forall b, b = alloc -> exists s', (if b then give_back s x else Ok s) = Ok s' /\
    fits s' (if b then free (set_queue A (l1 ++ l2)) x else set_queue A (l1 ++ l2)) t) as Hb; [|by apply Hb].
  intros [] Hb; [|by exists s]. apply (give_back_c s (set_queue A (l1 ++ l2)) t x Hr Hx Hn). by apply Hm.
Qed.
Lemma fits_dat s A t x kv :
  fits s A t -> live (lk s) x -> x <> 0 -> x <> nil ->
  (x ∈ queue A -> exists old, vals A !! x = Some old /\ cmp (fst old) (fst kv) = Eq) -> fits (set_dat s x kv) (set_val A x kv) t.
Proof.
  intros ((D & H) & Hsz & Hroom) Hl H0 H1 Hold. split; [|done]. exists D. by apply (core_set_dat cmp Hcmp alloc s A t D H).
Qed.
Lemma fits_new s A t e kv l r p (b : bool) : unused A e -> fits s A t ->
  fits (if b then take s e kv l r p else om_new s e (fst kv) (snd kv) l r p) (if b then obtain A e kv else set_val A e kv) t.
Proof.
  intros Hu ((D & H) & Hsz & Hroom). pose proof (core_new cmp Hcmp alloc s A t D H e kv l r p b Hu) as H'. split; [|split].
  - exists D. destruct b; [done|]. unfold om_new. by rewrite <- surjective_pairing.
  - by destruct b.
  - done.
Qed.

(** ** Leaving for good *)

Lemma erase_end_leaves_c s A t d l1 x l2 :
  fits s A t -> extreme cmp A d l1 x l2 ->
  costs n 2 t (erase_end_c cmp s d) (fun p t' => snd p = x /\ fits (fst p) (set_queue A (l1 ++ l2)) t' /\
    exists s', (if alloc then give_back (fst p) x else Ok (fst p)) = Ok s' /\ fits s' (leaves c A l1 x l2) t').
Proof.
  intros Hf Hx. pose proof (fits_repr s A t Hf) as Hr. eapply costs_weak; [by apply erase_end_c_Ok|done|].
  intros [s1 y] t' [Hy Hf1]. cbn in Hy, Hf1. subst y. cbn [fst snd]. split_and!; [done..|].
  pose proof (extreme_in cmp _ _ _ _ _ Hx) as Hin. destruct (repr_ne cmp alloc s A x Hr Hin) as [_ Hn]. destruct Hx as [Hq _].
  apply (leaves_c s1 A t' l1 x l2 Hf1); [|done|].
  - apply (in_rest A); [by apply (repr_NoDup cmp alloc s)|done].
  - intros Ha. by apply (repr_mem cmp alloc s A).
Qed.

Lemma pop_c s A t d l1 x l2 :
  fits s A t -> extreme cmp A d l1 x l2 -> d = true \/ alloc = false \/ off = 0 ->
  costs n 2 t (if d then omm_pop_max_c cmp alloc s else omm_pop_min_c cmp alloc off s) (tofits (leaves c A l1 x l2) OK).
Proof.
  intros Hf Hx Hd. destruct (repr_ne cmp alloc s A x (fits_repr s A t Hf) (extreme_in cmp _ _ _ _ _ Hx)) as [Hx0 _].
  pose proof (erase_end_leaves_c s A t d l1 x l2 Hf Hx) as Hc.
  destruct d; unfold omm_pop_max_c, omm_pop_min_c; (eapply costs_bind; [exact Hc| |by rewrite Nat.add_0_r]);
    intros [s1 y] t' (Hy & Hf1 & s' & Hs' & Hf'); cbn in Hy, Hf1, Hs'; subst y;
    rewrite (proj2 (Nat.eqb_neq x 0)) by done.
  - rewrite Hs'. bind. by apply costs_back.
  - assert ((if alloc then give_back s1 (x - off) else Ok s1) = Ok s') as ->; [|bind; by apply costs_back].
    rewrite <- Hs'. destruct Hd as [?|[Ha|Ho]]; [done|by rewrite Ha|]. by rewrite Ho, Nat.sub_0_r.
Qed.

Lemma leaves_length A l1 x l2 : queue A = l1 ++ x :: l2 -> length (queue A) = S (length (queue (leaves c A l1 x l2))).
Proof. intros Hq. unfold leaves. destruct (allocates c); cbn; rewrite Hq, !app_length; cbn; lia. Qed.

Lemma clear_c s A t fn l ps fuel :
  fits s A t -> listing cmp A true l -> with_data A l ps -> length l < fuel ->
  costs n (2 * length (queue A)) t (mclear_loop_c cmp alloc fuel s fn) (tofits (emptied alloc A l) (if fn then ps else [])).
Proof.
  revert s A t l ps. induction fuel as [|f IH]; intros s A t l ps Hf Hl Hps Hlen; [lia|]. cbn [mclear_loop_c].
  pose proof (fits_repr s A t Hf) as Hr.
  unfold omm_is_empty. rewrite (mempty_Ok s A (repr_sz cmp alloc s A Hr)).
  destruct l as [|x l].
  - pose proof (proj2 (listing_nil cmp A true [] Hl) eq_refl) as Hq. rewrite bool_decide_eq_true_2 by done.
    destruct Hps as [Hps _]. destruct ps; [|done].
    replace (if fn then [] else []) with ([] : list (nat * (K * V))) by (by destruct fn).
    replace (emptied alloc A []) with A; [eapply costs_weak; [by apply costs_back|lia|done]|].
    unfold emptied. destruct A as [q v m]. cbn in Hq. subst q. destruct alloc; [|done]. cbn. by rewrite difference_empty_L.
  - rewrite bool_decide_eq_false_2 by (by rewrite (listing_nil cmp A true _ Hl)).
    destruct (listing_extreme cmp A false x l) as (l1 & l2 & Hx & Hl' & Hxr); [by apply (repr_NoDup cmp alloc s)| |done|].
    { intros z. by apply (repr_data cmp alloc s). }
    assert (x ∉ l) as Hxl by (rewrite (proj1 Hl'); done).
    eapply costs_bind; [by apply (erase_end_leaves_c s A t false l1 x l2)| |
      pose proof (leaves_length A l1 x l2 (proj1 Hx)) as ->; rewrite Nat.mul_succ_r, (Nat.add_comm 2); by apply Nat.add_le_mono_r].
    intros [s1 y] t1 (Hy & Hf1 & s2 & Hs2 & Hf2). cbn [fst snd] in Hy, Hf1, Hs2. subst y.
    destruct Hps as [Hfst HF]. destruct ps as [|[x' kv] ps]; [done|]. cbn [map fst] in Hfst. injection Hfst as -> Hfst.
    apply Forall_cons in HF as [Hkv HF]. cbn [fst snd] in Hkv.
    assert ((if fn then v ← value (dat s1) x; Ok [(x, v)] else Ok []) = Ok (if fn then [(x, kv)] else [])) as ->.
    { destruct fn; [|done]. by rewrite (repr_value cmp alloc s1 _ x kv (fits_repr _ _ _ Hf1)). }
    bind. rewrite Hs2. bind.
    eapply costs_fits; [apply (IH s2 (leaves c A l1 x l2) t1 l ps Hf2)| |by rewrite Nat.add_0_r].
    { by apply listing_leaves. } { by apply with_data_leaves. } { cbn in Hlen. lia. }
    intros s3 t3 Hf3. rewrite emptied_leaves in Hf3. destruct fn; by apply costs_back.
Qed.

(** ** Single calls *)

Lemma entry_yes_c s A t k l1 x l2 :
  fits s A t -> present cmp A k l1 x l2 -> costs n 1 t (omm_entry_c cmp s k) (tofits A (occupied_ent x)).
Proof.
  intros Hf Hp. unfold omm_entry_c. eapply costs_bind; [by eapply find_yes_c| |by rewrite Nat.add_0_r].
  intros [s1 y] t' (Hy & Hf1 & _ & H0). cbn in Hy, Hf1. subst y. rewrite (proj2 (Nat.eqb_neq x 0)) by done. by apply costs_back.
Qed.

Lemma entry_no_c s A t k :
  fits s A t -> absent cmp A k -> costs n 1 t (omm_entry_c cmp s k) (tofits A (vacant_ent 0)).
Proof.
  intros Hf Hp. unfold omm_entry_c. eapply costs_fits; [by eapply find_no_c| |by rewrite Nat.add_0_r].
  intros s1 t' Hf1. by apply costs_back.
Qed.

Lemma entry_any_c s A t k : fits s A t -> exists en, costs n 1 t (omm_entry_c cmp s k) (tofits A en).
Proof.
  intros Hf. destruct (present_or_absent cmp Hcmp alloc s A k (fits_repr s A t Hf)) as [Ha|(l1 & x & l2 & Hp)].
  - eexists. by apply entry_no_c.
  - eexists. by eapply entry_yes_c.
Qed.

Lemma obtain_insert_c s A t ans kv l r p :
  fits s A t -> unused A ans -> alloc = true -> keys_within cmp n (push (obtain A ans kv) ans) ->
  exists en, costs n 2 t (multimap_insert_c cmp (take s ans kv l r p) ans) (tofits (push (obtain A ans kv) ans) en) /\
    e_ en = ans /\ ins_err en = false /\ (absent cmp A (fst kv) -> occupied en = false) /\
    (forall l1 x l2, present cmp A (fst kv) l1 x l2 -> occupied en = true).
Proof.
  intros Hf Hu Hal Hkeys. pose proof (unused_queue cmp alloc s A ans (fits_repr s A t Hf) Hu) as Hin.
  pose proof (fits_new s A t ans kv l r p true Hu Hf) as Hf1. cbn in Hf1.
  assert (forall z, z ∈ queue A -> vals (obtain A ans kv) !! z = vals A !! z) as Hv.
  { intros z Hz. cbn. rewrite lookup_insert_ne; [done|by intros ->]. }
  destruct (insert_c _ (obtain A ans kv) t ans kv Hf1) as (en & Hrun & He & Herr & Hab & Hpr); [|done| |done|].
  { cbn. by rewrite lookup_insert. } { intros _. cbn. set_solver. }
  exists en. split_and!; try done.
  - intros Ha. by apply Hab, (absent_ext cmp A).
  - intros l1 x l2 Hp. by apply (Hpr l1 x l2), (present_ext cmp A).
Qed.

Lemma made_c s A t kv ans p A' :
  fits s A t -> made c A ans kv p A' -> keys_within cmp n A' ->
  costs n 2 t (mnew_and_insert_c cmp alloc s kv ans) (tofits A' p) /\ (if alloc then ans else 0) = p /\
    length (queue A') <= S (length (queue A)).
Proof.
  intros Hf Hm Hkeys. unfold mnew_and_insert_c. destruct Hm as [Hal Hu|Hal]; cbn in Hal.
  - pose proof Hu as (H0 & _). assert (alloc && negb (ans =? 0) = true) as -> by (by rewrite Hal, (proj2 (Nat.eqb_neq ans 0))).
    destruct (obtain_insert_c s A t ans kv 0 0 0 Hf Hu Hal Hkeys) as (en & Hc & He & _). split_and!.
    + eapply costs_fits; [exact Hc| |by rewrite Nat.add_0_r]. intros s1 t' Hf1. rewrite He. by apply costs_back.
    + by rewrite Hal.
    + cbn. rewrite app_length. cbn. lia.
  - assert (alloc && negb (ans =? 0) = false) as -> by (destruct Hal as [-> | ->]; [done|by rewrite andb_false_r]).
    split_and!; [|by destruct Hal as [-> | ->]; [|destruct alloc]|lia].
    eapply costs_weak; [by apply costs_back|lia|done].
Qed.

Lemma own_c s A t e ans kv p A' :
  fits s A t -> vals A !! e = Some kv -> arrives c (copying c) A e ans kv p A' -> keys_within cmp n A' ->
  p = e /\ e <> 0 /\ length (queue A') <= S (length (queue A)) /\
    exists en, costs n 2 t (multimap_insert_c cmp s e) (tofits A' en) /\ e_ en = e /\
    ins_err en = false /\ (absent cmp A (fst kv) -> occupied en = false).
Proof.
  intros Hf He Ha Hkeys. destruct (repr_live cmp alloc s A e kv (fits_repr s A t Hf) He) as (_ & He0 & _).
  rewrite copying_false in Ha. inversion Ha as [_ Hin Hm| |]; subst; [|done..].
  split; [done|]. split; [done|]. split; [cbn; rewrite app_length; cbn; lia|].
  destruct (insert_c s A t p kv Hf He Hin Hm Hkeys) as (en & Hc & Hen & Herr & Hab & _).
  by exists en.
Qed.

Lemma assign_old_c s A t e kv l1 x l2 :
  fits s A t -> vals A !! e = Some kv -> present cmp A (fst kv) l1 x l2 -> e ∉ queue A ->
  costs n 1 t (omm_insert_or_assign_c cmp s e) (tofits (set_val A x kv) (occupied_ent x)).
Proof.
  intros Hf He Hp Hin. pose proof (fits_repr s A t Hf) as Hr. unfold omm_insert_or_assign_c.
  rewrite (repr_value cmp alloc s A e kv) by done. bind.
  eapply costs_bind; [by eapply find_yes_c| |by rewrite Nat.add_0_r].
  intros [s1 y] t1 (Hy & Hf1 & Hroot & Hx0). cbn [fst snd] in Hy, Hf1, Hroot. subst y. pose proof (fits_repr s1 A t1 Hf1) as Hr1.
  rewrite (proj2 (Nat.eqb_neq x 0)) by done. cbn [negb].
  pose proof (present_in cmp _ _ _ _ _ Hp) as Hxin. destruct (repr_data cmp alloc s A x Hr Hxin) as [old Hx].
  assert (cmp (fst kv) (fst old) = Eq) as Hk by (destruct Hp as (_ & (o & Ho & Hc) & _); congruence).
  destruct (repr_live cmp alloc s1 A x old Hr1 Hx) as (Hlx & _ & Hxn).
  destruct (repr_live cmp alloc s1 A e kv Hr1 He) as (Hle & He0 & Hen).
  assert (x <> e) as Hxe by (by intros ->).
  destruct (OmProofs.live_links _ _ Hlx) as (l & r & p & Hl & Hrt & Hpa).
  rewrite (OmProofs.copy_links_Ok _ _ _ l r p) by done. bind.
  rewrite Hroot, (proj2 (Nat.eqb_neq x nil)) by done. cbn [negb oassert]. bind.
  destruct Hf1 as ((D & H1) & Hsz1 & Hroom).
  pose proof (core_put cmp alloc s1 A t1 D H1 e l r p Hin Hen) as H2. set (s2 := set_lk s1 _) in *.
  unfold copy_struct. rewrite (proj2 (Nat.eqb_neq x e)) by done.
  rewrite (core_value cmp alloc s2 A t1 D H2 e kv He), (core_value cmp alloc s2 A t1 D H2 x old Hx). bind.
  rewrite (OmProofs.copy_links_Ok _ _ _ l r p) by (subst s2; cbn; by rewrite lookup_insert). bind.
  rewrite OmProofs.put_same by (subst s2; cbn; by rewrite lookup_insert_ne by done).
  apply costs_back. split; [|done]. exists D.
  replace (set_lk s2 (lk s2)) with s2 by done.
  apply (core_set_dat cmp Hcmp alloc s2 A t1 D H2); [..|]; try done.
  - by apply (co_live _ _ _ _ _ _ H2 x old).
  - intros _. exists old. split; [done|]. by apply (key_sym cmp Hcmp).
Qed.

Lemma remove_free_c s A t e kv l1 x l2 old :
  fits s A t -> vals A !! e = Some kv -> present cmp A (fst kv) l1 x l2 -> alloc = true -> e ∉ queue A ->
  vals A !! x = Some old ->
  costs n 2 t (omm_remove_c cmp alloc s e) (tofits (set_val (leaves c A l1 x l2) e old) (occupied_ent e)).
Proof.
  intros Hf He Hp Hal Hin Hx. pose proof (fits_repr s A t Hf) as Hr. unfold omm_remove_c.
  rewrite (repr_value cmp alloc s A e kv) by done. bind.
  eapply costs_fits; [by eapply erase_yes_c| |by rewrite Nat.add_0_r]. intros s1 t1 Hf1.
  pose proof (fits_repr _ _ _ Hf1) as Hr1.
  pose proof (present_in cmp _ _ _ _ _ Hp) as Hxin. destruct (repr_ne cmp alloc s A x Hr Hxin) as [Hx0 Hxn].
  rewrite (proj2 (Nat.eqb_neq x 0)) by done.
  assert (e <> x) as Hex by (by intros ->).
  set (A1 := set_queue A (l1 ++ l2)) in *.
  assert (x ∉ l1 ++ l2) as Hxr by (apply (in_rest A); [by apply (repr_NoDup cmp alloc s)|by destruct Hp]).
  assert (e ∉ l1 ++ l2) as Her.
  { intros Hz. apply Hin. destruct Hp as (-> & _). rewrite <- Permutation_middle. by right. }
  destruct (repr_live cmp alloc s1 A1 x old Hr1 Hx) as (Hlx & _).
  destruct (repr_live cmp alloc s1 A1 e kv Hr1 He) as (Hle & He0 & Hen).
  assert (exists s3, (s2 ← copy_struct s1 e x; give_back s2 x) = Ok s3 /\ fits s3 (set_val (leaves c A l1 x l2) e old) t1)
    as (s3 & Hrun & Hf3); cycle 1.
  { destruct (copy_struct s1 e x) as [s2| |]; try done. revert Hrun. bind. intros Hrun. rewrite (if_yes alloc _ _ Hal), Hrun. bind. by apply costs_back. }
  unfold copy_struct. rewrite (proj2 (Nat.eqb_neq e x)) by done.
  rewrite (repr_value cmp alloc s1 A1 x old Hr1 Hx), (repr_value cmp alloc s1 A1 e kv Hr1 He). bind.
  destruct (OmProofs.live_links _ _ Hlx) as (l & r & p & Hl & Hrt & Hpa).
  rewrite (OmProofs.copy_links_Ok _ _ _ l r p) by done. bind.
  assert (fits (set_dat (set_lk s1 (put_links (lk s1) e l r p)) e old) (set_val A1 e old) t1) as Hf2.
  { destruct Hf1 as ((D & H1) & Hsz1 & Hroom). split; [|done]. exists D.
    pose proof (core_put cmp alloc s1 A1 t1 D H1 e l r p Her Hen) as H2.
    apply (core_set_dat cmp Hcmp alloc _ A1 t1 D H2); try done. by apply (co_live _ _ _ _ _ _ H2 e kv). }
  destruct (give_back_c _ (set_val A1 e old) t1 x Hf2 Hxr Hxn) as (s3 & -> & Hf3).
  { cbn. by apply (repr_mem cmp alloc s A). }
  bind. exists s3. split; [done|].
  assert (leaves c A l1 x l2 = free A1 x) as -> by (unfold leaves; cbn [allocates kept]; by rewrite Hal).
  replace (set_val (free A1 x) e old) with (free (set_val A1 e old) x); [done|].
  unfold free, set_val. cbn. f_equal. by apply delete_insert_ne.
Qed.

Lemma update_c s A t e f l1 l2 kv :
  fits s A t -> queue A = l1 ++ e :: l2 -> vals A !! e = Some kv ->
  keys_within cmp n (push (set_val (set_queue A (l1 ++ l2)) e (f kv)) e) ->
  costs n 4 t (omm_update_c cmp s e f) (tofits (push (set_val (set_queue A (l1 ++ l2)) e (f kv)) e) true).
Proof.
  intros Hf Hq He Hkeys. pose proof (fits_repr s A t Hf) as Hr. unfold omm_update_c.
  assert (e ∈ queue A) as Hin by (rewrite Hq, elem_of_app; right; left).
  pose proof (in_rest A l1 e l2 (repr_NoDup cmp alloc s A Hr) Hq) as Her. destruct (repr_ne cmp alloc s A e Hr Hin) as [He0 Hen].
  pose proof Hf as ((D & H) & _). destruct (core_links_ne cmp alloc s A t D e H Hin) as (l & r & Hl & Hrt & Hl0 & Hr0).
  rewrite (rd_Ok _ _ _ Hl), (rd_Ok _ _ _ Hrt). bind.
  rewrite (proj2 (Nat.eqb_neq l 0)), (proj2 (Nat.eqb_neq r 0)) by done. cbn [orb].
  eapply (costs_fits 2 4 2); [by apply (erase_node_c_Ok s A t l1 e l2)| |done]. intros s1 t1 Hf1.
  rewrite (proj2 (Nat.eqb_neq e 0)) by done. set (A1 := set_queue A (l1 ++ l2)) in *.
  pose proof (fits_repr _ _ _ Hf1) as Hr1. rewrite (repr_value cmp alloc s1 A1 e kv Hr1 He). bind.
  assert (fits (set_dat s1 e (f kv)) (set_val A1 e (f kv)) t1) as Hf2.
  { destruct (repr_live cmp alloc s1 A1 e kv Hr1 He) as (Hle & _). by apply fits_dat. }
  destruct (insert_c _ _ t1 e (f kv) Hf2) as (en & Hc & _); [| | |done|].
  { cbn. by rewrite lookup_insert. } { done. } { intros Ha. by apply (repr_mem cmp alloc s A). }
  eapply costs_fits; [exact Hc| |by rewrite Nat.add_0_r]. intros s2 t2 Hf3. by apply costs_back.
Qed.

Lemma range_c s A t d a b l X Y :
  fits s A t -> listing cmp A d l ->
  first (fun z => keyed cmp A (dirc (negb d)) a z \/ keyed cmp A Eq a z) l X ->
  first (keyed cmp A (dirc (negb d)) b) l Y ->
  costs n 2 t (omm_range_c cmp s d a b) (tofits A (X, Y)).
Proof.
  intros Hf Hl HX HY. pose proof (fits_repr s A t Hf) as Hr.
  destruct (range_Ok cmp Hcmp alloc s A d a b l X Y Hr Hl HX HY) as (sf & Hrun & _).
  pose proof (omm_range_erase cmp s d a b) as He. rewrite Hrun in He. apply erase_Ok in He as [w He].
  revert He. unfold omm_range_c. pose proof (repr_sz cmp alloc s A Hr) as Hsz. rewrite Hsz.
  destruct (Z.eqb_spec (Z.of_nat (length (queue A))) 0) as [Hz|Hz].
  { unfold still. intros [= -> <- <- _]. eapply costs_weak; [by apply costs_back|lia|done]. }
  assert (queue A <> []) as Hne by (intros He; by rewrite He in Hz).
  destruct Hf as ((D & H) & _ & Hroom).
  destruct (core_splay_c s A t D a H Hne Hroom)
    as (s1 & ta & x & tb & kx & i & -> & _ & Hw1 & H1 & Hn1 & Hsz1 & Hx & _ & _ & _).
  rewrite <- Hn1 in Hroom.
  assert (core s1 A (T ta x tb) D) as H1' by done.
  cb. rewrite (core_cmpk cmp alloc s1 A _ D H1 a x kx Hx). bind.
  destruct (if cmp_is (cmp a (fst kx)) (if d then Gt else Lt)
    then hopping (mtree_next_c (lk s1) (root s1) d x) else still x) as [[x' w']| |] eqn:Ex; try done. cb.
  assert (turns w' = 0) as Hw'.
  { clear -Ex. revert Ex. case_match; [apply hopping_turns|apply still_turns]. }
  destruct (core_splay_c s1 A _ D b H1 Hne Hroom)
    as (s2 & ta2 & y & tb2 & ky & i2 & -> & _ & Hw2 & H2 & Hn2 & Hsz2 & Hy & _ & _ & _).
  rewrite <- Hn2 in Hroom.
  cb. rewrite (core_cmpk cmp alloc s2 A _ D H2 b y ky Hy). bind.
  destruct (if cmp_is (cmp b (fst ky)) (if negb d then Gt else Lt)
    then still y else hopping (mtree_next_c (lk s2) (root s2) d y)) as [[y' w'']| |] eqn:Ey; try done. cb.
  assert (turns w'' = 0) as Hw''.
  { clear -Ey. revert Ey. case_match; [apply still_turns|apply hopping_turns]. }
  intros [= <- HX' HY' <-]. eexists _, _, (T ta2 y tb2). split; [done|]. split.
  - eapply (spent_end n 2 2 _ (add_work (Work i 0) (Work i2 0))); [by eapply (spent_trans n 1 1)| |done].
    cbn [turns add_work idle]. rewrite Hw', Hw''. lia.
  - split; cbn; [by rewrite HX', HY'|]. split; [by exists D|]. split; [congruence|done].
Qed.

Lemma erase_still {X} (m : counted X) x t (Q : X -> tree -> Prop) :
  erase_count m = Ok x -> (forall w, m = Ok (x, w) -> turns w = 0) -> Q x t -> costs n 0 t m Q.
Proof.
  intros [w ->]%erase_Ok Hw HQ. exists x, w, t. split; [done|]. split; [|done].
  eapply spent_end; [apply spent_refl| |done]. by rewrite (Hw w).
Qed.
Lemma begin_c s A t d l : fits s A t -> listing cmp A d l -> costs n 0 t (omm_begin_c s d) (fun x t' => x = hd 0 l /\ fits s A t').
Proof.
  intros Hf Hl. eapply erase_still; [by rewrite omm_begin_erase; apply (begin_Ok cmp Hcmp alloc s A d l (fits_repr s A t Hf))| |done].
  intros w. unfold omm_begin_c. destruct (_ =? _)%Z; [apply still_turns|apply hopping_turns].
Qed.
Lemma next_c s A t d e l1 l2 : fits s A t -> listing cmp A d (l1 ++ e :: l2) ->
  costs n 0 t (omm_next_c s d e) (fun x t' => x = hd 0 l2 /\ fits s A t').
Proof.
  intros Hf Hl. eapply erase_still; [by rewrite omm_next_erase; apply (next_Ok cmp Hcmp alloc s A d e l1 l2 (fits_repr s A t Hf))| |done].
  intros w. unfold omm_next_c. destruct (_ =? _); [apply still_turns|].
  destruct (hopping _) as [[y i]| |] eqn:E; try done. apply hopping_turns in E. cb. intros [= _ <-]. cbn. lia.
Qed.

Lemma erase_node_empty_c s A t e kv : fits s A t -> queue A = [] -> vals A !! e = Some kv ->
  exists l r, lf (lk s) !! e = Some l /\ rt (lk s) !! e = Some r /\ erase_node_c cmp s e = still (s, 0).
Proof.
  intros Hf Hq He. pose proof (fits_repr s A t Hf) as Hr. destruct (repr_live cmp alloc s A e kv Hr He) as (Hle & _).
  destruct (OmProofs.live_links _ _ Hle) as (l & r & p & Hl & Hrt & _). exists l, r. split_and!; [done..|].
  unfold erase_node_c. rewrite (rd_Ok _ _ _ Hl), (rd_Ok _ _ _ Hrt). bind. destruct (_ || _); [done|].
  by rewrite (mempty_Ok s A (repr_sz cmp alloc s A Hr)), bool_decide_eq_true_2.
Qed.

(** A call on [A], with the budget that the elements held pay for emptying. *)
Definition within_budget s A t o r A' : Prop :=
  exists j, costs n j t (omm_step_c cmp alloc off s o) (tofits A' r) /\
    j + 2 * length (queue A') <= 5 + 2 * length (queue A).

Ltac last := rewrite ?Nat.add_0_r; reflexivity.

Lemma step_c_Ok s A t o r A' :
  fits s A t -> call cmp c A o r A' -> keys_within cmp n A' -> within_budget s A t o r A'.
Proof.
  intros Hf Hc Hkeys. unfold within_budget. pose proof (fits_repr s A t Hf) as Hr. destruct Hc; cbn [omm_step_c].
  - (* new *) exists 0. split; [|cbn; destruct b; cbn; lia]. apply costs_back. unfold omm_new. by apply (fits_new s A t e (k, v) l r p b).
  - (* contains *)
    pose proof (present_nonempty cmp _ _ _ _ _ H) as Hne. exists 1. split; [|lia].
    eapply costs_fits; [apply (contains_c s A t k true Hf Hne); by exists l1, x, l2| |last]. intros. by apply costs_back.
  - destruct H0 as [?|Hne]; [done|]. exists 1. split; [|lia].
    eapply costs_fits; [by apply (contains_c s A t k false Hf Hne)| |last]. intros. by apply costs_back.
  - (* get *) exists 1. split; [|lia]. eapply costs_bind; [by eapply find_yes_c| |last].
    intros [s1 y] t' (Hy & Hf1 & _). cbn in Hy. subst y. by apply costs_back.
  - exists 1. split; [|lia]. eapply costs_fits; [by eapply find_no_c| |last]. intros. by apply costs_back.
  - (* insert *) cbn in H0. exists 0. split; [|lia]. unfold omm_insert_c. rewrite (if_yes alloc) by done. rewrite H1.
    eapply costs_fits; [by apply costs_back|intros; by apply costs_back|last].
  - unfold omm_insert_c. destruct (repr_live cmp alloc s A e kv Hr H) as (Hle & _). exists 2. 
    apply arrives_cases in H2 as [(Hal & -> & -> & Hin & Hm)|(Hal & -> & -> & Hu)]; [..|done];
      (split; [|cbn; rewrite app_length; cbn; lia]); cbn [allocates kept] in Hal.
    + destruct (insert_c s A t e kv Hf H Hin Hm Hkeys) as (en & Hrun & He & Herr & Hab & _).
      rewrite (if_no alloc) by done. eapply costs_fits; [exact Hrun| |last]. intros.
      unfold mobserve. rewrite Hab, He, Herr by done. by apply costs_back.
    + destruct (OmProofs.live_links _ _ Hle) as (l & r & q & Hl & Hrt & Hq).
      destruct (obtain_insert_c s A t ans kv l r q Hf Hu Hal Hkeys) as (en & Hrun & He & Herr & Hab & _).
      rewrite (if_yes alloc) by done. rewrite (proj2 (Nat.eqb_neq ans 0)) by done.
      rewrite (repr_value cmp alloc s A e kv Hr H). bind.
      rewrite (rd_Ok _ _ _ Hl), (rd_Ok _ _ _ Hrt), (rd_Ok _ _ _ Hq). bind. eapply costs_fits; [exact Hrun| |last]. intros.
      unfold mobserve. rewrite Hab, He, Herr by done. by apply costs_back.
  - unfold omm_insert_c. destruct (repr_live cmp alloc s A e kv Hr H) as (Hle & _). exists 2.
    apply arrives_cases in H2 as [(Hal & -> & -> & Hin & Hm)|(Hal & -> & -> & Hu)]; [..|done];
      (split; [|cbn; rewrite app_length; cbn; lia]); cbn [allocates kept] in Hal.
    + destruct (insert_c s A t e kv Hf H Hin Hm Hkeys) as (en & Hrun & He & Herr & _ & Hpr).
      rewrite (if_no alloc) by done. eapply costs_fits; [exact Hrun| |last]. intros.
      unfold mobserve. rewrite (Hpr _ _ _ H0), He, Herr by done. by apply costs_back.
    + destruct (OmProofs.live_links _ _ Hle) as (l & r & q & Hl & Hrt & Hq).
      destruct (obtain_insert_c s A t ans kv l r q Hf Hu Hal Hkeys) as (en & Hrun & He & Herr & _ & Hpr).
      rewrite (if_yes alloc) by done. rewrite (proj2 (Nat.eqb_neq ans 0)) by done.
      rewrite (repr_value cmp alloc s A e kv Hr H). bind.
      rewrite (rd_Ok _ _ _ Hl), (rd_Ok _ _ _ Hrt), (rd_Ok _ _ _ Hq). bind. eapply costs_fits; [exact Hrun| |last]. intros.
      unfold mobserve. rewrite (Hpr _ _ _ H0), He, Herr by done. by apply costs_back.
  - (* try_insert *) unfold omm_try_insert_c. rewrite (repr_value cmp alloc s A e kv) by done. bind.
    destruct (own_c s A t e ans kv p A' Hf H H1 Hkeys) as (-> & He0 & Hlen & _).
    exists 3. split; [|lia]. eapply (costs_bind n 3 0 3 t _ _ (fun p t' => mobserve (snd p) = _ /\ fits (fst p) A' t'));
      [|intros [s2 en] t2 [<- Hf2]; by apply costs_back|done].
    eapply (costs_fits 1 3 2); [by apply find_no_c| |done]. intros s1 t1 Hf1. cbn [Nat.eqb negb].
    destruct (own_c s1 A t1 e ans kv e A' Hf1 H H1 Hkeys) as (_ & _ & _ & en & Hrun & He & Herr & Hab).
    eapply costs_weak; [exact Hrun|done|]. intros [s2 en'] t2 [Hen Hf2]. cbn [fst snd] in *. subst en'. split; [|done].
    unfold mobserve, refused. by rewrite (Hab H0), He, Herr, (proj2 (Nat.eqb_neq e 0)).
  - unfold omm_try_insert_c. rewrite (repr_value cmp alloc s A e kv) by done. bind.
    exists 1. split; [|lia]. eapply (costs_fits _ _ _ _ _ _ A (occupied_ent x)); [|intros; by apply costs_back|last].
    eapply costs_bind; [by eapply find_yes_c| |last]. intros [s1 y] t1 (Hy & Hf1 & _ & Hx0). cbn in Hy. subst y.
    rewrite (proj2 (Nat.eqb_neq x 0)) by done. cbn [negb]. by apply costs_back.
  - (* insert_or_assign *) unfold omm_insert_or_assign_c. rewrite (repr_value cmp alloc s A e kv) by done. bind.
    destruct (own_c s A t e ans kv p A' Hf H H1 Hkeys) as (-> & He0 & Hlen & _).
    exists 3. split; [|lia]. eapply (costs_bind n 3 0 3 t _ _ (fun p t' => mobserve (snd p) = _ /\ fits (fst p) A' t'));
      [|intros [s2 en] t2 [<- Hf2]; by apply costs_back|done].
    eapply (costs_fits 1 3 2); [by apply find_no_c| |done]. intros s1 t1 Hf1. cbn [Nat.eqb negb].
    destruct (own_c s1 A t1 e ans kv e A' Hf1 H H1 Hkeys) as (_ & _ & _ & en & Hrun & He & Herr & Hab).
    eapply costs_weak; [exact Hrun|done|]. intros [s2 en'] t2 [Hen Hf2]. cbn [fst snd] in *. subst en'. split; [|done].
    unfold mobserve, refused. by rewrite (Hab H0), He, Herr, (proj2 (Nat.eqb_neq e 0)).
  - exists 1. split; [|cbn; lia]. eapply costs_fits; [by eapply assign_old_c|intros; by apply costs_back|last].
  - (* remove *) unfold omm_remove_c. rewrite (repr_value cmp alloc s A e kv) by done. bind. exists 1. split; [|lia].
    eapply (costs_fits _ _ _ _ _ _ A (vacant_ent 0)); [|intros; by apply costs_back|last].
    eapply costs_fits; [by apply erase_no_c| |last]. intros s1 t1 Hf1. by apply costs_back.
  - unfold omm_remove_c. rewrite (repr_value cmp alloc s A e kv) by done. bind. exists 2.
    split; [|rewrite (leaves_length A l1 x l2 (proj1 H0)); lia].
    eapply (costs_fits _ _ _ _ _ _ (leaves c A l1 x l2) (occupied_ent x)); [|intros; by apply costs_back|last].
    eapply costs_fits; [by eapply erase_yes_c| |last]. intros s1 t1 Hf1.
    destruct (repr_ne cmp alloc s A x Hr (present_in cmp _ _ _ _ _ H0)) as [Hx0 _]. rewrite (proj2 (Nat.eqb_neq x 0)) by done.
    rewrite (if_no alloc) by done. apply costs_back. unfold leaves. by rewrite H1.
  - exists 2. split; [|cbn; rewrite (leaves_length A l1 x l2 (proj1 H0)); lia].
    eapply costs_fits; [by eapply remove_free_c|intros; by apply costs_back|last].
  - (* entry *) exists 1. split; [|lia]. eapply costs_fits; [by eapply entry_yes_c|intros; by apply costs_back|last].
  - exists 1. split; [|lia]. eapply costs_fits; [by eapply entry_no_c|intros; by apply costs_back|last].
  - (* or_insert *) destruct (own_c s A t e ans kv p A' Hf H H1 Hkeys) as (-> & He0 & Hlen & _). exists 3. split; [|lia].
    eapply (costs_fits 1 3 2); [by apply entry_no_c| |done]. intros s1 t1 Hf1. unfold omm_or_insert_c. cbn [occupied vacant_ent].
    destruct (own_c s1 A t1 e ans kv e A' Hf1 H H1 Hkeys) as (_ & _ & _ & en & Hrun & He & _).
    eapply (costs_fits _ _ _ _ _ _ A' e); [|intros; by apply costs_back|last].
    eapply costs_fits; [exact Hrun| |last]. intros s2 t2 Hf2. rewrite He. by apply costs_back.
  - exists 1. split; [|lia]. eapply costs_fits; [by eapply entry_yes_c| |last]. intros s1 t1 Hf1. unfold omm_or_insert_c. cbn [occupied occupied_ent e_]. cb.
    by apply costs_back.
  - (* insert_entry *)
    destruct (entry_any_c s A t k Hf) as [en1 Hen1].
    destruct (own_c s A t e ans kv p A' Hf H H0 Hkeys) as (-> & He0 & Hlen & _). exists 3. split; [|lia].
    eapply (costs_fits 1 3 2); [exact Hen1| |done]. intros s1 t1 Hf1. unfold omm_insert_entry_c.
    destruct (own_c s1 A t1 e ans kv e A' Hf1 H H0 Hkeys) as (_ & _ & _ & en & Hrun & He & _).
    eapply (costs_fits _ _ _ _ _ _ A' e); [|intros; by apply costs_back|last].
    eapply costs_fits; [exact Hrun| |last]. intros s2 t2 Hf2. rewrite He. by apply costs_back.
  - (* and_modify *) exists 1. split; [|cbn; lia]. eapply costs_fits; [by eapply entry_yes_c| |last]. intros s1 t1 Hf1.
    pose proof (fits_repr s1 A t1 Hf1) as Hr1. unfold omm_and_modify. cbn [occupied e_ occupied_ent].
    rewrite (repr_value cmp alloc s1 A x kv) by done. bind. apply costs_back.
    destruct (repr_live cmp alloc s1 A x kv Hr1 H0) as (Hl & Hx0 & Hxn).
    apply fits_dat; try done. intros _. exists kv. split; [done|]. by apply (cmp_refl cmp Hcmp).
  - exists 1. split; [|lia]. eapply costs_fits; [by eapply entry_no_c| |last]. intros s1 t1 Hf1. by apply costs_back.
  - (* remove_entry *) exists 3. split; [|rewrite (leaves_length A l1 x l2 (proj1 H)); lia].
    eapply (costs_fits 1 3 2); [by eapply entry_yes_c| |done]. intros s1 t1 Hf1.
    pose proof (fits_repr s1 A t1 Hf1) as Hr1. unfold omm_remove_entry_c. cbn [occupied e_ occupied_ent].
    pose proof (present_in cmp _ _ _ _ _ H) as Hxin. destruct (repr_ne cmp alloc s A x Hr Hxin) as [Hx0 Hxn].
    destruct (repr_data cmp alloc s A x Hr Hxin) as [kx Hkx]. rewrite (repr_value cmp alloc s1 A x kx) by done. bind.
    assert (present cmp A (fst kx) l1 x l2) as Hp'.
    { destruct H as (Hq & (kx' & Hkx' & Hc) & Hl). assert (kx' = kx) as -> by congruence. split_and!; [done| |].
      - exists kx. split; [done|]. by apply (cmp_refl cmp Hcmp).
      - rewrite Forall_forall in Hl |- *. intros z Hz (kz & Hkz & Hcz). apply (Hl z Hz). exists kz. split; [done|].
        by rewrite (cmp_eq_l cmp Hcmp _ _ _ Hc). }
    eapply (costs_bind n 2 0 2 t1 _ _ (fun p t' => mobserve (snd p) = _ /\ fits (fst p) (leaves c A l1 x l2) t'));
      [|intros [s2 en] t2 [<- Hf2]; by apply costs_back|done].
    eapply costs_fits; [by eapply erase_yes_c| |last]. intros s2 t2 Hf2.
    rewrite (proj2 (Nat.eqb_neq x 0)) by done. cbn [negb oassert]. bind.
    destruct (leaves_c s2 A t2 l1 x l2 Hf2) as (s3 & Hs3 & Hr3).
    { apply (in_rest A); [by apply (repr_NoDup cmp alloc s)|by destruct H]. } { done. } { intros Ha. by apply (repr_mem cmp alloc s A). }
    cbn [allocates kept]. destruct (bool_dec alloc true) as [Ha|Ha%not_true_is_false].
    + rewrite (if_yes alloc _ _ Ha) in Hs3. rewrite !(if_yes alloc _ _ Ha), Hs3. bind. by apply costs_still.
    + rewrite (if_no alloc _ _ Ha) in Hs3. injection Hs3 as ->. rewrite !(if_no alloc _ _ Ha). by apply costs_still.
  - exists 1. split; [|lia]. eapply costs_fits; [by eapply entry_no_c| |last]. intros s1 t1 Hf1. by apply costs_back.
  - (* or_insert_w *) destruct (made_c s A t _ _ _ _ Hf H0 Hkeys) as (_ & _ & Hlen). exists 3. split; [|lia].
    eapply (costs_fits 1 3 2); [by apply entry_no_c| |done]. intros s1 t1 Hf1. unfold omm_or_insert_w_c. cbn [occupied vacant_ent].
    eapply costs_fits; [by apply (made_c s1 A t1 _ _ _ _ Hf1 H0 Hkeys)|intros; by apply costs_back|last].
  - exists 1. split; [|lia]. eapply costs_fits; [by eapply entry_yes_c| |last]. intros s1 t1 Hf1. by apply costs_back.
  - (* insert_entry_w *)
    destruct (entry_any_c s A t k Hf) as [en1 Hen1].
    destruct (made_c s A t _ _ _ _ Hf H Hkeys) as (_ & _ & Hlen). exists 3. split; [|lia].
    eapply (costs_fits 1 3 2); [exact Hen1| |done]. intros s1 t1 Hf1. unfold omm_insert_entry_w_c.
    eapply costs_fits; [by apply (made_c s1 A t1 _ _ _ _ Hf1 H Hkeys)|intros; by apply costs_back|last].
  - (* try_insert_w *) destruct (made_c s A t _ _ _ _ Hf H0 Hkeys) as (_ & Hp & Hlen). exists 3. split; [|lia].
    eapply (costs_bind n 3 0 3 t _ _ (fun p t' => mobserve (snd p) = _ /\ fits (fst p) A' t'));
      [|intros [s2 en] t2 [<- Hf2]; by apply costs_back|done].
    unfold omm_try_insert_w_c. eapply (costs_fits 1 3 2); [by apply entry_no_c| |done]. intros s1 t1 Hf1. cbn [occupied vacant_ent negb].
    unfold minsert_and_copy_key_c. eapply costs_fits; [by apply (made_c s1 A t1 _ _ _ _ Hf1 H0 Hkeys)| |last].
    intros s2 t2 Hf2. rewrite Hp. apply costs_still. split; [|done]. unfold mobserve. cbn. by rewrite orb_true_r.
  - exists 1. split; [|lia]. eapply (costs_fits _ _ _ _ _ _ A (occupied_ent x)); [|intros; by apply costs_back|last].
    unfold omm_try_insert_w_c. eapply costs_fits; [by eapply entry_yes_c| |last]. intros s1 t1 Hf1. by apply costs_back.
  - (* insert_or_assign_w *) destruct (made_c s A t _ _ _ _ Hf H0 Hkeys) as (_ & Hp & Hlen). exists 3. split; [|lia].
    eapply (costs_bind n 3 0 3 t _ _ (fun p t' => mobserve (snd p) = _ /\ fits (fst p) A' t'));
      [|intros [s2 en] t2 [<- Hf2]; by apply costs_back|done].
    unfold omm_insert_or_assign_w_c. eapply (costs_fits 1 3 2); [by apply entry_no_c| |done]. intros s1 t1 Hf1. cbn [occupied vacant_ent negb].
    unfold minsert_and_copy_key_c. eapply costs_fits; [by apply (made_c s1 A t1 _ _ _ _ Hf1 H0 Hkeys)| |last].
    intros s2 t2 Hf2. rewrite Hp. apply costs_still. split; [|done]. unfold mobserve. cbn. by rewrite orb_true_r.
  - exists 1. split; [|cbn; lia]. eapply (costs_fits _ _ _ _ _ _ (set_val A x (k, v)) (occupied_ent x)); [|intros; by apply costs_back|last].
    unfold omm_insert_or_assign_w_c. eapply costs_fits; [by eapply entry_yes_c| |last]. intros s1 t1 Hf1. cbn [occupied e_ occupied_ent negb].
    pose proof (fits_repr s1 A t1 Hf1) as Hr1.
    pose proof (present_in cmp _ _ _ _ _ H) as Hxin. destruct (repr_data cmp alloc s A x Hr Hxin) as [kx Hkx].
    rewrite (repr_value cmp alloc s1 A x kx) by done. bind. apply costs_back.
    destruct (repr_live cmp alloc s1 A x kx Hr1 Hkx) as (Hl & Hx0 & Hxn).
    apply fits_dat; try done. intros _. exists kx. split; [done|]. cbn.
    apply (key_sym cmp Hcmp). destruct H as (_ & (o & Ho & Hc) & _). congruence.
  - (* max and min *) exists 1. split; [|lia]. eapply costs_bind; [by eapply end_c| |last].
    intros [s1 y] t' (Hy & Hf1 & _). cbn in Hy. subst y. by apply costs_back.
  - exists 1. split; [|lia]. eapply costs_bind; [by eapply end_c| |last].
    intros [s1 y] t' (Hy & Hf1 & _). cbn in Hy. subst y. by apply costs_back.
  - done.
  - done.
  - (* pops *) exists 2. split; [|rewrite (leaves_length A l1 x l2 (proj1 H)); lia].
    eapply costs_fits; [apply (pop_c s A t true _ _ _ Hf H); by left|intros; by apply costs_back|last].
  - exists 2. split; [|rewrite (leaves_length A l1 x l2 (proj1 H)); lia].
    eapply costs_fits; [apply (pop_c s A t false _ _ _ Hf H)|intros; by apply costs_back|last].
    destruct H0 as [?|Hm]; [by right; left|]. right. right. by apply Nat.eqb_eq.
  - exists 0. split; [|lia]. unfold omm_pop_max_c, erase_end_c.
    rewrite (mempty_Ok s A (repr_sz cmp alloc s A Hr)), bool_decide_eq_true_2 by done. by apply costs_back.
  - exists 0. split; [|lia]. unfold omm_pop_min_c, erase_end_c.
    rewrite (mempty_Ok s A (repr_sz cmp alloc s A Hr)), bool_decide_eq_true_2 by done. by apply costs_back.
  - (* extract *) exists 2. split; [|cbn; rewrite H, !app_length; cbn; lia].
    eapply costs_fits; [by apply (erase_node_c_Ok s A t l1 e l2)|intros; by apply costs_back|last].
  - destruct (erase_node_empty_c s A t e kv Hf H H0) as (l & r & _ & _ & Hrun). unfold omm_extract_c. rewrite Hrun.
    exists 0. split; [|lia]. by apply costs_back.
  - (* update *) exists 4. split; [|cbn; rewrite H, !app_length; cbn; lia].
    eapply costs_fits; [by apply (update_c s A t e f l1 l2 kv)|intros; by apply costs_back|last].
  - destruct (erase_node_empty_c s A t e kv Hf H H0) as (l & r & Hl & Hrt & Hrun). unfold omm_update_c.
    rewrite (rd_Ok _ _ _ Hl), (rd_Ok _ _ _ Hrt). bind. exists 0. split; [|lia].
    destruct (_ || _); [by apply costs_back|]. rewrite Hrun. by apply costs_back.
  - (* walking *) exists 0. split; [|lia]. eapply costs_bind; [by apply begin_c| |last]. intros ? t' [-> Hf']. by apply costs_back.
  - exists 0. split; [|lia]. eapply costs_bind; [by apply begin_c| |last]. intros ? t' [-> Hf']. by apply costs_back.
  - exists 0. split; [|lia]. eapply costs_bind; [by eapply next_c| |last]. intros ? t' [-> Hf']. by apply costs_back.
  - exists 0. split; [|lia]. eapply costs_bind; [by eapply next_c| |last]. intros ? t' [-> Hf']. by apply costs_back.
  - exists 2. split; [|lia]. eapply costs_fits; [by eapply range_c| |last]. intros. by apply costs_back.
  - exists 2. split; [|lia]. eapply costs_fits; [by eapply range_c| |last]. intros. by apply costs_back.
  - (* clear *) exists (2 * length (queue A)). split; [|cbn [allocates kept]; destruct alloc; cbn; lia].
    unfold omm_clear_c. eapply costs_fits; [apply (clear_c s A t fn l ps (S (Z.to_nat (sz s))) Hf H H0)|intros; by apply costs_back|last].
    rewrite (repr_sz cmp alloc s A Hr), (proj1 H). lia.
  - exists 0. split; [|lia]. unfold omm_size. rewrite (repr_sz cmp alloc s A Hr). by apply costs_back.
  - exists 0. split; [|lia]. unfold omm_is_empty. rewrite (mempty_Ok s A (repr_sz cmp alloc s A Hr)).
    replace (bool_decide (queue A = [])) with (length (queue A) =? 0) by (by destruct (queue A)).
    by apply costs_back.
  - exists 0. split; [|lia]. rewrite (validate_Ok cmp Hcmp alloc s A Hr). by apply costs_back.
Qed.

Lemma run_c_Ok s A t os rs A' :
  fits s A t -> calls_within cmp c n A os rs A' ->
  exists j, costs n j t (omm_run_c cmp alloc off s os) (tofits A' rs) /\
    j + 2 * length (queue A') <= 5 * length os + 2 * length (queue A).
Proof.
  intros Hf Hc. revert s t Hf. induction Hc as [A _|A o r A1 os rs A2 _ Hcall Hcs IH]; intros s t Hf.
  - exists 0. split; [by apply costs_back|cbn; lia].
  - cbn [omm_run_c]. assert (keys_within cmp n A1) as Hkeys by (by inversion Hcs).
    destruct (step_c_Ok s A t o r A1 Hf Hcall Hkeys) as (j & Hj & Hle).
    destruct Hj as ([s1 r'] & w & t1 & Hrun & Hw & [Hr' Hf1]). cbn in Hr', Hf1. subst r'.
    destruct (IH s1 t1 Hf1) as (j' & Hj' & Hle'). exists (j + j'). split; [|cbn [length]; lia].
    eapply (costs_bind n j j' _ t _ _ (fun p t' => p = (s1, r) /\ t' = t1)); [by eexists _, _, t1| |done].
    intros ? ? [-> ->]. eapply costs_fits; [exact Hj'|intros; by apply costs_back|last].
Qed.

Lemma history_fits os rs A :
  calls_within cmp c n start os rs A ->
  exists s w t, omm_run_c cmp alloc off om_init os = Ok ((s, rs), w) /\ fits s A t.
Proof.
  intros Hc. assert (fits om_init start E) as Hf.
  { destruct (repr_init (V := V) cmp alloc) as [(t & D & H) Hsz].
    pose proof (proj2 (core_empty cmp alloc _ _ t D H) eq_refl) as ->. split; [by exists D|]. split; [done|cbn; lia]. }
  destruct (run_c_Ok _ _ _ _ _ _ Hf Hc) as (j & ([s rs'] & w & t' & Hrun & _ & [Hrs Hf']) & _). cbn in Hrs, Hf'. subst rs'.
  by exists s, w, t'.
Qed.

Theorem history_cost os rs A :
  calls_within cmp c n start os rs A ->
  exists s w, omm_run_c cmp alloc off om_init os = Ok ((s, rs), w) /\ repr s A /\
    turns w <= length os * (10 + 15 * Nat.log2_up (n + 1)).
Proof.
  intros Hc. assert (fits om_init start E) as Hf.
  { destruct (repr_init (V := V) cmp alloc) as [(t & D & H) Hsz].
    pose proof (proj2 (core_empty cmp alloc _ _ t D H) eq_refl) as ->. split; [by exists D|]. split; [done|cbn; lia]. }
  destruct (run_c_Ok _ _ _ _ _ _ Hf Hc) as (j & ([s rs'] & w & t' & Hrun & Hw & [Hrs Hf']) & Hle). cbn in Hrs, Hf', Hle. subst rs'.
  exists s, w. split; [done|]. split; [by apply (fits_repr s A t')|].
  pose proof (spent_turns n j E w t' Hw eq_refl) as Hb. etransitivity; [exact Hb|].
  replace (10 + 15 * Nat.log2_up (n + 1)) with (5 * (2 + 3 * Nat.log2_up (n + 1))) by lia.
  rewrite Nat.mul_assoc. apply Nat.mul_le_mono_r. lia.
Qed.
End calls.
