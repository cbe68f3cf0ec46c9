(** The specification of the array backed ordered maps can be computed, and what
    follows from the invariant: removal and the other keys, walks, ranges, clearing,
    copying and freeing. *)
From Coq Require Import Sorting.Sorted.
From stdpp Require Import base numbers option gmap fin_maps list.
From Verif Require Import Common LinkHeap PathLemmas OrderSpec Counting MapOps MapSpec TreeModel TreeProofs MapProofs MapCases
  WavlModel WavlProofs WavlRank WavlRemove WavlNode WavlFrame OmProofs FlatOps FlatSpec FlatModel FlatProofs FlatCalls.

Local Ltac bind := cbn [mbind outcome_bind obind].

Section spec.
Context {K V : Type} (cmp : K -> K -> comparison) (Hcmp : total_preorder cmp).
Implicit Types (A : fview K V).
Notation facts := (facts cmp).

Lemma facts_ascending A : facts A -> ascending cmp (fv A).
Proof. intros ([Hs _] & _). exact Hs. Qed.
Lemma facts_vals A x : facts A -> x ∈ elems (fv A) -> is_Some (vals (fv A) !! x).
Proof. intros Hf Hx. destruct (facts_dat cmp A x Hf Hx) as [kv ?]. by exists kv. Qed.

Lemma fcovers A k : facts A ->
  (exists l1 x l2, present_at cmp A k l1 x l2) \/ (exists l1 l2, absent_at cmp A k l1 l2).
Proof.
  intros Hf. apply covers; [done|by apply facts_ascending|intros x; by apply facts_vals].
Qed.

Lemma frange_exact A a b : facts A -> cmp a b <> Gt ->
  exists l1 l2 l3, elems (fv A) = l1 ++ l2 ++ l3 /\
    first (fun z => keyed cmp (fv A) Lt a z \/ keyed cmp (fv A) Eq a z) (elems (fv A)) (hd 0 (l2 ++ l3)) /\
    first (keyed cmp (fv A) Lt b) (elems (fv A)) (hd 0 l3) /\
    Forall (keyed cmp (fv A) Gt a) l1 /\ Forall (inside cmp (fv A) a b) l2 /\ Forall (keyed cmp (fv A) Lt b) l3.
Proof.
  intros Hf Hab. destruct (range_exists cmp (Contract true true true) (fv A) a b) as (x & y & Hcall).
  destruct (range_exact cmp (fv A) _ a b x y Hcmp (facts_ascending A Hf) (fun z => facts_vals A z Hf) Hab Hcall)
    as (l1 & l2 & l3 & He & -> & -> & ? & ? & ?).
  inversion Hcall; subst. by exists l1, l2, l3.
Qed.
Lemma frrange_exact A a b : facts A -> cmp b a <> Gt ->
  exists l1 l2 l3, rev (elems (fv A)) = l1 ++ l2 ++ l3 /\
    first (fun z => keyed cmp (fv A) Gt a z \/ keyed cmp (fv A) Eq a z) (rev (elems (fv A))) (hd 0 (l2 ++ l3)) /\
    first (keyed cmp (fv A) Gt b) (rev (elems (fv A))) (hd 0 l3) /\
    Forall (keyed cmp (fv A) Lt a) l1 /\ Forall (inside cmp (fv A) b a) l2 /\ Forall (keyed cmp (fv A) Gt b) l3.
Proof.
  intros Hf Hab. destruct (rrange_exists cmp (Contract true true true) (fv A) a b) as (x & y & Hcall).
  destruct (rrange_exact cmp (fv A) _ a b x y Hcmp (facts_ascending A Hf) (fun z => facts_vals A z Hf) Hab Hcall)
    as (l1 & l2 & l3 & He & -> & -> & ? & ? & ?).
  inversion Hcall; subst. by exists l1, l2, l3.
Qed.

(** Removal moves one element to another slot; every element keeps its data. *)
Lemma fremoved_vals A l1 x l2 z :
  facts A -> elems (fv A) = l1 ++ x :: l2 -> z ∈ l1 ++ l2 ->
  vals (fv (fremoved A l1 x l2)) !! moved (count A) x z = vals (fv A) !! z.
Proof.
  intros Hf He Hz. pose proof (facts_NoDup cmp Hcmp A Hf) as Hnd. rewrite He, <- Permutation_middle in Hnd.
  apply NoDup_cons in Hnd as [Hx _]. assert (z <> x) as Hzx by (by intros ->).
  assert (x ∈ elems (fv A)) as Hxin by (rewrite He, elem_of_app; right; left).
  apply (facts_range cmp A x Hf) in Hxin.
  destruct (facts_dat cmp A (count A) Hf) as [kn Hkn]; [apply (facts_range cmp A _ Hf); lia|].
  cbn [fremoved with_fv fv vals]. rewrite Hkn. unfold moved. destruct (Nat.eqb_spec z (count A)) as [-> |Hne].
  - rewrite lookup_delete_ne by done. by rewrite lookup_insert.
  - rewrite lookup_delete_ne, lookup_insert_ne by done. done.
Qed.

(** Other keys do not notice: what is found under them is the same data, and
    what was absent stays absent. *)
Lemma fremoved_present A k l1 x l2 k' m1 y m2 kv :
  facts A -> present_at cmp A k l1 x l2 -> cmp k k' <> Eq ->
  present_at cmp A k' m1 y m2 -> shown_at A y kv ->
  exists n1 n2, present_at cmp (fremoved A l1 x l2) k' n1 (moved (count A) x y) n2 /\
    shown_at (fremoved A l1 x l2) (moved (count A) x y) kv.
Proof.
  intros Hf (He & kx & Hx & Hk) Hne (He' & ky & Hy & Hk') Hs. unfold shown_at in *. assert (ky = kv) as -> by congruence.
  assert (y <> x) as Hyx.
  { intros ->. simplify_eq. apply Hne. rewrite <- (cmp_eq_r cmp Hcmp _ _ k Hk') in Hk.
    rewrite <- Hk. apply (cmp_eq_r cmp Hcmp). by apply (cmp_refl cmp Hcmp). }
  assert (y ∈ l1 ++ l2) as Hin.
  { assert (y ∈ elems (fv A)) as Hin by (rewrite He', elem_of_app; right; left).
    rewrite He in Hin. rewrite elem_of_app in *. rewrite elem_of_cons in Hin. naive_solver. }
  pose proof (fremoved_vals A l1 x l2 y Hf He Hin) as Hv. rewrite Hy in Hv.
  assert (moved (count A) x y ∈ elems (fv (fremoved A l1 x l2))) as Hm by (cbn; by apply elem_of_list_fmap_1).
  apply elem_of_list_split in Hm as (n1 & n2 & Hm). exists n1, n2. split; [|done]. split; [done|]. by exists kv.
Qed.
Lemma fremoved_absent A k l1 x l2 k' m1 m2 :
  facts A -> present_at cmp A k l1 x l2 -> absent_at cmp A k' m1 m2 ->
  exists n1 n2, absent_at cmp (fremoved A l1 x l2) k' n1 n2.
Proof.
  intros Hf (He & kx & Hx & Hk) Hab. pose proof (facts_removed cmp Hcmp A l1 x l2 Hf He) as Hf'.
  destruct (fcovers (fremoved A l1 x l2) k' Hf') as [(n1 & w & n2 & Hw & kw & Hkw & Hc)|]; [|done]. exfalso.
  assert (w ∈ elems (fv (fremoved A l1 x l2))) as Hin by (rewrite Hw, elem_of_app; right; left).
  cbn [fremoved with_fv fv elems] in Hin. apply elem_of_list_fmap in Hin as (z & -> & Hz).
  change (moved _ _ z) with (moved (count A) x z) in Hkw.
  rewrite (fremoved_vals A l1 x l2 z Hf He Hz) in Hkw.
  assert (z ∈ elems (fv A)) as Hin. { rewrite He. rewrite elem_of_app in *. rewrite elem_of_cons. tauto. }
  apply elem_of_list_split in Hin as (p1 & p2 & Hp).
  eapply (absent_or_present_excl cmp (fv A) k'); [exact Hab|]. split; [exact Hp|]. by exists kw.
Qed.

Lemma fcall_clear_contents c A (fn : bool) : NoDup (elems (fv A)) -> clears_unused c fn = true \/ used A = true ->
  fcall cmp c A (FClear fn) (XDestroyed OK (if fn then contents (fv A) else [])) (with_fv A (View [] ∅)).
Proof. intros Hnd H. destruct (contents_spec (fv A) fn Hnd). by apply fcall_clear. Qed.

Lemma fcalls_app c A os rs B os' rs' C :
  fcalls cmp c A os rs B -> fcalls cmp c B os' rs' C -> fcalls cmp c A (os ++ os') (rs ++ rs') C.
Proof. induction 1; [done|]. intros H'. cbn. econstructor; [done|]. by apply IHfcalls. Qed.
End spec.

Section states.
Context {K V : Type} (cmp : K -> K -> comparison) (Hcmp : total_preorder cmp).
Context (good : wavl -> tree -> Prop) (seal : flat K V -> outcome (flat K V)) (HT : tree_facts good seal).
Implicit Types (s : flat K V) (A : fview K V).
Notation repr := (repr cmp good).
Notation reprT := (reprT cmp good).

Lemma repr_facts s A : repr s A -> facts cmp A.
Proof. intros [t Ht]. by apply (reprT_facts cmp good s A t). Qed.

(** The elements with their data in key order. *)
Lemma repr_walk s A : repr s A ->
  exists ps, flat_iter s true = Ok ps /\ flat_iter s false = Ok (rev ps) /\
    map fst ps = elems (fv A) /\ Forall (fun p => vals (fv A) !! fst p = Some (snd p)) ps /\
    StronglySorted (fun p q => cmp (fst (snd p)) (fst (snd q)) = Lt) ps.
Proof.
  intros [t Hr]. pose proof (reprT_facts cmp good s A t Hr) as Hf.
  destruct (with_data (vals (fv A)) (elems (fv A))) as (ps & Hps & HF). { intros x. by apply (facts_dat cmp). }
  exists ps. split_and!; [| |done|done|].
  - by apply (iter_Ok cmp good seal HT s A t true).
  - apply (iter_Ok cmp good seal HT s A t false); [done| |by apply Forall_rev]. by rewrite map_rev, Hps.
  - apply (ascending_walk cmp (fv A)); [by apply facts_ascending|done|done].
Qed.

Lemma walk_perm s A ps (fn : bool) l : repr s A ->
  map fst ps = elems (fv A) -> Forall (fun p => vals (fv A) !! fst p = Some (snd p)) ps -> NoDup l ->
  (forall x kv, (x, kv) ∈ l <-> fn = true /\ x ∈ elems (fv A) /\ vals (fv A) !! x = Some kv) ->
  l ≡ₚ (if fn then ps else []).
Proof.
  intros Hr Hps HF Hnd Hl. pose proof (facts_NoDup cmp Hcmp A (repr_facts s A Hr)) as HndA.
  apply NoDup_Permutation; [done| |].
  - destruct fn; [|constructor]. rewrite <- Hps in HndA. by apply (NoDup_fmap_1 fst).
  - intros [x kv]. rewrite Hl. destruct fn.
    + rewrite <- Hps. rewrite Forall_forall in HF. split.
      * intros (_ & Hx & Hv). apply elem_of_list_fmap in Hx as ([y ky] & -> & Hy). cbn in *.
        specialize (HF _ Hy). cbn in HF. by simplify_eq.
      * intros Hx. specialize (HF _ Hx). cbn in HF. split_and!; [done| |done].
        apply elem_of_list_fmap. by exists (x, kv).
    + split; [by intros [? _]|intros H; by apply elem_of_nil in H].
Qed.

(** Clearing and freeing: every element is destroyed exactly once. *)
Lemma destroyed_all s A ps : repr s A -> used A = true ->
  map fst ps = elems (fv A) -> Forall (fun p => vals (fv A) !! fst p = Some (snd p)) ps ->
  exists l, destroy_all s = Ok l /\ l ≡ₚ ps.
Proof.
  intros [t Hr] Hu Hps HF. destruct (clear_Ok cmp good seal HT s A t true Hr Hu) as (s' & l & Hc & _ & Hnd & Hl).
  exists l. split.
  - unfold flat_clear in Hc. destruct (destroy_all s) as [l'| |]; try done. revert Hc. bind.
    destruct (size_set s 1). congruence.
  - apply (walk_perm s A ps true l); [by exists t|done|done|done|done].
Qed.

(** ** Copying *)

Definition keys (h : links) (p : gmap nat bool) : gset nat :=
  dom (lf h) ∪ dom (rt h) ∪ dom (pa h) ∪ dom p.

Lemma blit_outside d s :
  let X := elements (filter (fun z => ~ (is_Some (lf (wl (tr s)) !! z) /\ is_Some (rt (wl (tr s)) !! z) /\
    is_Some (pa (wl (tr s)) !! z) /\ is_Some (wp (tr s) !! z))) (keys (wl (tr d)) (wp (tr d)))) in
  wroot (tr d) = wroot (tr s) -> outside X (tr s) (tr (blit d s)) /\ (forall i, i ∈ X -> ~ alive (tr s) i).
Proof.
  intros X Hroot.
  assert (forall i, i ∈ X -> ~ alive (tr s) i) as HX.
  { intros i Hi [(Hl & Hr & Hp) Hb]. unfold X in Hi. rewrite elem_of_elements, elem_of_filter in Hi.
    destruct Hi as [Hi _]. by apply Hi. }
  split; [|done].
  assert (forall z, z ∉ X -> (is_Some (lf (wl (tr s)) !! z) /\ is_Some (rt (wl (tr s)) !! z) /\
    is_Some (pa (wl (tr s)) !! z) /\ is_Some (wp (tr s) !! z)) \/
    (lf (wl (tr d)) !! z = None /\ rt (wl (tr d)) !! z = None /\ pa (wl (tr d)) !! z = None /\ wp (tr d) !! z = None)) as Hz.
  { intros z Hz. unfold X in Hz. rewrite elem_of_elements, elem_of_filter in Hz.
    destruct (decide (is_Some (lf (wl (tr s)) !! z) /\ is_Some (rt (wl (tr s)) !! z) /\
      is_Some (pa (wl (tr s)) !! z) /\ is_Some (wp (tr s) !! z))) as [H|H]; [by left|]. right.
    assert (z ∉ keys (wl (tr d)) (wp (tr d))) as Hk by (intros Hk; by apply Hz).
    unfold keys in Hk. rewrite !not_elem_of_union, !not_elem_of_dom in Hk. naive_solver. }
  assert (forall (B : Type) (m m' : gmap nat B) z, is_Some (m !! z) \/ m' !! z = None -> (m ∪ m') !! z = m !! z) as Hu.
  { intros B m m' z [[b Hb]|Hn].
    - rewrite Hb. by apply lookup_union_Some_l.
    - destruct (m !! z) as [b|] eqn:E; [by apply lookup_union_Some_l|]. by apply lookup_union_None. }
  split_and!; [|intros z Hzx; cbn; apply Hu; specialize (Hz z Hzx); naive_solver|done].
  intros z Hzx. specialize (Hz z Hzx). cbn. rewrite !Hu by naive_solver. done.
Qed.

Lemma blit_alive d s i : alive (tr s) i \/ alive (tr d) i -> alive (tr (blit d s)) i.
Proof.
  assert (forall (B : Type) (m m' : gmap nat B) z, is_Some (m !! z) \/ is_Some (m' !! z) -> is_Some ((m ∪ m') !! z)) as Hu.
  { intros B m m' z H. rewrite <- !elem_of_dom in *. rewrite dom_union. set_solver. }
  intros [[(? & ? & ?) ?]|[(? & ? & ?) ?]]; split; [split_and!| |split_and!|]; cbn; apply Hu; auto.
Qed.

Lemma copy_Ok d B s A (fn : bool) ans :
  repr d B -> repr s A -> room A <= room B \/ fn = true /\ is_Some ans ->
  exists d', flat_copy d s fn ans = (d', OK) /\ repr d' (FView (fv A) (room A `max` room B) (used A)).
Proof.
  intros [t' Hd] [t Hs] Hok. destruct (reprT_slots cmp good d B t' Hd) as [Hcd Had].
  destruct (reprT_slots cmp good s A t Hs) as [Hcs Has]. unfold flat_copy.
  assert (exists d1, flat_copy d s fn ans = (blit d1 s, OK) /\ wroot (tr d1) = wroot (tr s) /\ sz d1 = sz s /\
    cap d1 = room A `max` room B /\ (forall i, i < cap d1 -> alive (tr d1) i)) as (d1 & Hc & Hroot & Hsz & Hcap & Hal).
  { unfold flat_copy. destruct (Nat.ltb_spec (cap d) (cap s)) as [Hlt|Hge].
    - destruct Hok as [?|[-> [junk ->]]]; [lia|]. cbn [andb negb]. eexists. split; [done|]. split_and!.
      + destruct (fresh_outside (with_root (tr d) (wroot (tr s))) junk (seq (cap d) (cap s - cap d))) as (_ & _ & Hfr).
        exact Hfr.
      + done.
      + cbn. lia.
      + apply (grow_slots (set_sz (set_root d (wroot (tr s))) (sz s)) (cap s) junk); [done|cbn; lia].
    - cbn [andb]. eexists. split; [done|]. split_and!; [done|done|cbn; lia|done]. }
  unfold flat_copy in Hc. rewrite Hc. eexists. split; [done|]. exists t. clear Hc Hd Had.
  assert (slots (blit d1 s) (FView (fv A) (room A `max` room B) (used A))) as Hsl.
  { split; [done|]. intros i Hi. apply blit_alive. right. by apply Hal. }
  destruct (blit_outside d1 s Hroot) as [Hout HX]. set (X := elements _) in *.
  destruct Hs as [Hu [(_ & Hf & Hsz0 & -> & He & Hr0)|((_ & Hf & Hdat & Hg & Hn) & Hsz0 & Hle)]].
  - split; [cbn; intros ?%Hu; lia|]. left. split_and!; try done; cbn; [by rewrite Hsz|by rewrite Hroot].
  - split; [cbn; intros ?%Hu; lia|]. right. cbn. rewrite Hsz. split_and!; [|done|lia]. split_and!; try done.
    + intros x Hx. destruct (facts_dat cmp A x Hf Hx) as [kv Hkv]. cbn [fv]. rewrite Hkv.
      cbn [blit dat]. apply lookup_union_Some_l. by rewrite Hdat.
    + apply (good_outside _ _ HT X (tr s)); [done|done| |].
      * intros H0. apply (HX 0 H0). apply Has. lia.
      * intros z Hz Hzt. apply (HX z Hz), Has. rewrite Hn, (facts_range cmp A z Hf) in Hzt. lia.
Qed.
End states.

Section histories.
Context {K V : Type} (cmp : K -> K -> comparison) (Hcmp : total_preorder cmp).
Context (c : fcontract) (good : wavl -> tree -> Prop) (seal : flat K V -> outcome (flat K V)) (HT : tree_facts good seal).
Context {H : Type} (find : flat K V -> K -> outcome (flat K V * option nat * H)).
Context (link : flat K V -> H -> nat -> outcome (flat K V * option nat)).
Context (hint_ok : tree -> list nat -> list nat -> H -> Prop) (HF : find_facts cmp good find link hint_ok).
Context (contains : flat K V -> K -> outcome (flat K V * bool)).
Context (remove : flat K V -> user K V -> outcome (flat K V * fent * cell K V)).
Context (remove_at : flat K V -> nat -> outcome (flat K V * nat)).
Context (range : flat K V -> bool -> K -> K -> outcome (flat K V * option nat * option nat)).
Context (clear : flat K V -> bool -> outcome (flat K V * result * list (nat * (K * V)))).
Context (validate : flat K V -> outcome bool).
Context (HC : call_facts cmp c good contains remove remove_at range clear validate).
Notation run := (flat_run (grows c) seal find link contains remove remove_at range clear validate).
Notation repr := (repr cmp good).
Implicit Types (ops : list (flat_op K V)) (A : fview K V).

Lemma fhistory_repr n junk ops rs A :
  fcalls cmp c (fstart n) ops rs A ->
  exists s rs', run (flat_init n junk) ops = Ok (s, rs') /\ Forall2 fagree rs rs' /\ repr s A.
Proof.
  intros Hc. apply (run_Ok cmp Hcmp c good seal HT _ _ hint_ok HF _ _ _ _ _ _ HC _ (fstart n)); [apply repr_init|done].
Qed.

Lemma fhistory n junk ops rs A :
  fcalls cmp c (fstart n) ops rs A ->
  exists s rs', run (flat_init n junk) ops = Ok (s, rs') /\ Forall2 fagree rs rs' /\
    fshown A (flat_size s) (flat_capacity s) (flat_iter s true) (flat_iter s false) (validate s).
Proof.
  intros Hc. destruct (fhistory_repr n junk ops rs A Hc) as (s & rs' & Hrun & Hag & Hr). exists s, rs'.
  split; [done|]. split; [done|]. by apply (shows_Ok cmp c good seal HT _ _ _ _ _ _ HC).
Qed.

Lemma fhistory_facts n ops rs A : fcalls cmp c (fstart n) ops rs A -> facts cmp A.
Proof.
  intros Hc. destruct (fhistory_repr n (fun _ => Node 0 0 0 false) ops rs A Hc) as (s & rs' & _ & _ & Hr).
  by apply (repr_facts cmp good s).
Qed.

Lemma fhistory_covers n ops rs A k :
  fcalls cmp c (fstart n) ops rs A ->
  (exists l1 x l2, present_at cmp A k l1 x l2) \/ (exists l1 l2, absent_at cmp A k l1 l2).
Proof. intros Hc. apply (fcovers cmp Hcmp). by apply (fhistory_facts n ops rs). Qed.

Lemma fhistory_walk n junk ops rs A :
  fcalls cmp c (fstart n) ops rs A ->
  exists s rs' ps, run (flat_init n junk) ops = Ok (s, rs') /\
    flat_iter s true = Ok ps /\ flat_iter s false = Ok (rev ps) /\
    map fst ps = elems (fv A) /\ Forall (fun p => vals (fv A) !! fst p = Some (snd p)) ps /\
    StronglySorted (fun p q => cmp (fst (snd p)) (fst (snd q)) = Lt) ps.
Proof.
  intros Hc. destruct (fhistory_repr n junk ops rs A Hc) as (s & rs' & Hrun & _ & Hr).
  destruct (repr_walk cmp good seal HT s A Hr) as (ps & ?). by exists s, rs', ps.
Qed.

Lemma fhistory_range n junk ops rs A a b :
  fcalls cmp c (fstart n) ops rs A -> cmp a b <> Gt ->
  exists s rs' s' l1 l2 l3, run (flat_init n junk) ops = Ok (s, rs') /\ elems (fv A) = l1 ++ l2 ++ l3 /\
    range s true a b = Ok (s', bound A (hd 0 (l2 ++ l3)), bound A (hd 0 l3)) /\
    Forall (keyed cmp (fv A) Gt a) l1 /\ Forall (inside cmp (fv A) a b) l2 /\ Forall (keyed cmp (fv A) Lt b) l3.
Proof.
  intros Hc Hab. destruct (fhistory_repr n junk ops rs A Hc) as (s & rs' & Hrun & _ & Hr).
  destruct (frange_exact cmp Hcmp A a b (repr_facts cmp good s A Hr) Hab) as (l1 & l2 & l3 & He & HX & HY & ?).
  destruct Hr as [t Ht]. destruct (range_Ok _ _ _ _ _ _ _ _ _ HC s A t true a b _ _ Ht HX HY) as (s' & Hrg & _).
  by exists s, rs', s', l1, l2, l3.
Qed.

Lemma fhistory_rrange n junk ops rs A a b :
  fcalls cmp c (fstart n) ops rs A -> cmp b a <> Gt ->
  exists s rs' s' l1 l2 l3, run (flat_init n junk) ops = Ok (s, rs') /\ rev (elems (fv A)) = l1 ++ l2 ++ l3 /\
    range s false a b = Ok (s', bound A (hd 0 (l2 ++ l3)), bound A (hd 0 l3)) /\
    Forall (keyed cmp (fv A) Lt a) l1 /\ Forall (inside cmp (fv A) b a) l2 /\ Forall (keyed cmp (fv A) Gt b) l3.
Proof.
  intros Hc Hab. destruct (fhistory_repr n junk ops rs A Hc) as (s & rs' & Hrun & _ & Hr).
  destruct (frrange_exact cmp Hcmp A a b (repr_facts cmp good s A Hr) Hab) as (l1 & l2 & l3 & He & HX & HY & ?).
  destruct Hr as [t Ht]. destruct (range_Ok _ _ _ _ _ _ _ _ _ HC s A t false a b _ _ Ht HX HY) as (s' & Hrg & _).
  by exists s, rs', s', l1, l2, l3.
Qed.

(** Removing one key leaves what is stored under the others. *)
Lemma fhistory_others n junk ops rs A nd kv k' :
  fcalls cmp c (fstart n) ops rs A -> cmp (fst kv) k' <> Eq ->
  exists s rs' p r q, run (flat_init n junk) (ops ++ [FGet k'; FRemove (nd, kv); FGet k']) =
      Ok (s, rs' ++ [XPtr p; r; XPtr q]) /\ Forall2 fagree rs rs' /\ option_map snd p = option_map snd q.
Proof.
  intros Hc Hne. pose proof (fhistory_facts n ops rs A Hc) as Hf.
  assert (exists p r q A', fcalls cmp c A [FGet k'; FRemove (nd, kv); FGet k'] [XPtr p; r; XPtr q] A' /\
    option_map snd p = option_map snd q) as (p & r & q & A' & Hc' & Hpq).
  { destruct (fcovers cmp Hcmp A (fst kv) Hf) as [(l1 & x & l2 & Hp)|(l1 & l2 & Ha)].
    - pose proof Hp as (_ & old & Hold & _).
      destruct (fcovers cmp Hcmp A k' Hf) as [(m1 & y & m2 & Hp')|(m1 & m2 & Ha')].
      + pose proof Hp' as (_ & ky & Hy & _).
        destruct (fremoved_present cmp Hcmp A _ l1 x l2 k' m1 y m2 ky Hf Hp Hne Hp' Hy) as (n1 & n2 & Hpn & Hsn).
        eexists _, _, _, _. split; [|shelve]. repeat eapply fcalls_cons; [..|apply fcalls_nil].
        * by eapply fcall_get_yes. * by eapply fcall_remove_yes. * by eapply fcall_get_yes.
        Unshelve. done.
      + destruct (fremoved_absent cmp Hcmp A _ l1 x l2 k' m1 m2 Hf Hp Ha') as (n1 & n2 & Hn).
        eexists _, _, _, _. split; [|shelve]. repeat eapply fcalls_cons; [..|apply fcalls_nil].
        * by eapply fcall_get_no. * by eapply fcall_remove_yes. * by eapply fcall_get_no.
        Unshelve. done.
    - destruct (fcovers cmp Hcmp A k' Hf) as [(m1 & y & m2 & Hp')|(m1 & m2 & Ha')].
      + pose proof Hp' as (_ & ky & Hy & _).
        eexists _, _, _, _. split; [|shelve]. repeat eapply fcalls_cons; [..|apply fcalls_nil].
        * by eapply fcall_get_yes. * by eapply fcall_remove_no. * by eapply fcall_get_yes.
        Unshelve. done.
      + eexists _, _, _, _. split; [|shelve]. repeat eapply fcalls_cons; [..|apply fcalls_nil].
        * by eapply fcall_get_no. * by eapply fcall_remove_no. * by eapply fcall_get_no.
        Unshelve. done. }
  destruct (fhistory_repr n junk _ _ _ (fcalls_app cmp c _ _ _ _ _ _ _ Hc Hc')) as (s & rs' & Hrun & Hag & _).
  apply Forall2_app_inv_l in Hag as (r1 & r2 & H1 & H2 & ->).
  inversion H2 as [|? ? ? ? Ha1 H3]; subst. inversion H3 as [|? ? ? ? Ha2 H4]; subst. inversion H4 as [|? ? ? ? Ha3 H5]; subst.
  inversion H5; subst. cbn in Ha1, Ha3. subst. by eexists s, r1, p, _, q.
Qed.

(** An insertion that gets no memory says so and changes nothing. *)
Lemma fhistory_refused n junk ops rs A nd kv ans l1 l2 o :
  fcalls cmp c (fstart n) ops rs A -> absent_at cmp A (fst kv) l1 l2 -> room A < S (S (count A)) ->
  grows c = false \/ ans = None -> o ∈ [FInsert (nd, kv) ans; FTryInsert (nd, kv) ans; FAssign (nd, kv) ans] ->
  exists s rs' ps s', run (flat_init n junk) ops = Ok (s, rs') /\ flat_iter s true = Ok ps /\
    run s [o] = Ok (s', [XEnt false true None (Some kv)]) /\
    flat_iter s' true = Ok ps /\ flat_size s' = flat_size s /\ flat_capacity s' = flat_capacity s.
Proof.
  intros Hc Hab Hr Hor Ho. destruct (fhistory_repr n junk ops rs A Hc) as (s & rs' & Hrun & _ & Hs).
  assert (fcall cmp c A o (XEnt false (frefused None) None (Some kv)) A) as Hcall.
  { pose proof (fadded_refused c A l1 l2 kv ans Hr Hor) as Hadd.
    rewrite !elem_of_cons, elem_of_nil in Ho. destruct Ho as [-> |[-> |[-> |[]]]].
    - by eapply fcall_insert_new. - by eapply (fcall_try_new _ _ _ _ _ _ _ _ None). - by eapply (fcall_assign_new _ _ _ _ _ _ _ _ None). }
  destruct (run_Ok cmp Hcmp c good seal HT _ _ hint_ok HF _ _ _ _ _ _ HC s A [o] _ A Hs
    (fcalls_cons cmp c _ _ _ _ _ _ _ Hcall (fcalls_nil cmp c A))) as (s' & rs2 & Hrun' & Hag & Hs').
  inversion Hag as [|? ? ? ? Ha1 H1]; subst. inversion H1; subst. cbn in Ha1. subst.
  destruct (shows_Ok cmp c good seal HT _ _ _ _ _ _ HC s A Hs) as (E1 & E2 & _ & ps & Hps & HFp & E3 & _).
  destruct (shows_Ok cmp c good seal HT _ _ _ _ _ _ HC s' A Hs') as (E1' & E2' & _ & ps' & Hps' & HFp' & E3' & _).
  assert (ps' = ps) as ->.
  { rewrite <- Hps in Hps'. clear -HFp HFp' Hps'. revert ps' HFp' Hps'.
    induction HFp as [|[x kx] ps Hx HF IH]; intros [|[x' kx'] ps'] HF' Hps'; try done.
    apply Forall_cons in HF' as [Hx' HF']. cbn in *. injection Hps' as -> ?. rewrite (IH ps') by done. congruence. }
  exists s, rs', ps, s'. split_and!; congruence.
Qed.

(** Freeing: every element is destroyed once, the memory is gone, but the size
    stays. *)
Lemma fhistory_free n junk ops rs A (fn : bool) :
  fcalls cmp c (fstart n) ops rs A -> fn = false \/ used A = true ->
  exists s rs' ps s' l, run (flat_init n junk) ops = Ok (s, rs') /\ flat_iter s true = Ok ps /\
    flat_clear_and_free (grows c) s fn = Ok (s', if grows c then OK else NO_ALLOC, l) /\ l ≡ₚ (if fn then ps else []) /\
    flat_size s' = flat_size s /\ flat_begin s' true = Ok 0 /\ flat_capacity s' = if grows c then 0 else flat_capacity s.
Proof.
  intros Hc Hfn. destruct (fhistory_repr n junk ops rs A Hc) as (s & rs' & Hrun & _ & Hr).
  destruct (repr_walk cmp good seal HT s A Hr) as (ps & Hit & _ & Hps & HFp & _).
  assert (exists l, (if fn then destroy_all s else Ok []) = Ok l /\ l ≡ₚ (if fn then ps else [])) as (l & Hd & Hl).
  { destruct fn; [|by exists []]. destruct Hfn as [|Hu]; [done|]. by apply (destroyed_all cmp Hcmp good seal HT s A). }
  exists s, rs', ps. unfold flat_clear_and_free. rewrite Hd. bind.
  destruct (grows c); eexists _, l; (split; [done|]); (split; [done|]); (split; [done|]); (split; [done|]);
    (split; [done|]); (split; [|done]); unfold flat_begin; cbn; by destruct (sz s =? 0).
Qed.
End histories.

(** ** Permitted calls, computed *)
Section exec.
Context {K V : Type} (cmp : K -> K -> comparison) (c : fcontract).
Implicit Types (A : fview K V).

Definition where_is A (k : K) : option (list nat * nat * (K * V) * list nat + list nat * list nat) :=
  match position cmp (fv A) k (elems (fv A)) with
  | (l1, Some x, l2) => match vals (fv A) !! x with Some kv => Some (inl (l1, x, kv, l2)) | None => None end
  | (l1, None, l2) => if forallb (keyedb cmp (fv A) Lt k) l2 then Some (inr (l1, l2)) else None
  end.
Lemma where_present A k l1 x kv l2 :
  where_is A k = Some (inl (l1, x, kv, l2)) -> present_at cmp A k l1 x l2 /\ shown_at A x kv.
Proof.
  unfold where_is. destruct (position cmp (fv A) k (elems (fv A))) as [[m1 [y|]] m2] eqn:E.
  - destruct (vals (fv A) !! y) as [w|] eqn:Ey; [|done]. intros [= -> -> -> ->]. split; [|done]. by apply position_present.
  - by destruct (forallb _ _).
Qed.
Lemma where_absent A k l1 l2 : where_is A k = Some (inr (l1, l2)) -> absent_at cmp A k l1 l2.
Proof.
  unfold where_is. destruct (position cmp (fv A) k (elems (fv A))) as [[m1 [y|]] m2] eqn:E.
  - by destruct (vals (fv A) !! y).
  - destruct (forallb _ _) eqn:Ef; [|done]. intros [= -> ->]. by apply position_absent.
Qed.

Definition add A (l1 l2 : list nat) (kv : K * V) (ans : grant) : option nat * fview K V :=
  if S (S (count A)) <=? room A then (Some (S (count A)), pushed A l1 l2 kv (room A))
  else if grows c && match ans with Some _ => true | None => false end
  then (Some (S (count A)), pushed A l1 l2 kv (if room A =? 0 then 8 else 2 * room A))
  else (None, A).
Lemma add_spec A l1 l2 kv ans p A' : add A l1 l2 kv ans = (p, A') -> fadded c A l1 l2 kv ans p A'.
Proof.
  unfold add. destruct (Nat.leb_spec (S (S (count A))) (room A)) as [Hle|Hlt].
  - intros [= <- <-]. by apply fadded_room.
  - destruct (grows c) eqn:Eg, ans as [j|]; cbn [andb]; intros [= <- <-].
    + by apply fadded_grown.
    + apply fadded_refused; auto.
    + apply fadded_refused; auto.
    + apply fadded_refused; auto.
Qed.

Definition on_key {B} A k (yes : list nat -> nat -> K * V -> list nat -> B) (no : list nat -> list nat -> B) : option B :=
  match where_is A k with
  | Some (inl (l1, x, kv, l2)) => Some (yes l1 x kv l2)
  | Some (inr (l1, l2)) => Some (no l1 l2)
  | None => None
  end.
Definition eqb k k' : bool := match cmp k k' with Eq => true | _ => false end.
Definition provided (b : bool) {B} (o : option B) : option B := if b then o else None.

Definition fexec A (o : flat_op K V) : option (flat_res K V * fview K V) :=
  match o with
  | FContains k =>
    match where_is A k with
    | Some (inl _) => Some (XBool true, A)
    | Some (inr _) => provided (asks_empty c || negb (count A =? 0)) (Some (XBool false, A))
    | None => None
    end
  | FGet k => on_key A k (fun _ x kv _ => (XPtr (Some (x, kv)), A)) (fun _ _ => (XPtr None, A))
  | FInsert (_, kv) ans =>
    on_key A (fst kv)
      (fun _ x old _ => (XEnt true false (Some (if shows_new c then (Slot x, kv) else (Handle, old))) (Some old), put A x kv))
      (fun l1 l2 => let '(p, A') := add A l1 l2 kv ans in (XEnt false (frefused p) None (Some kv), A'))
  | FTryInsert (_, kv) ans =>
    on_key A (fst kv)
      (fun _ x old _ => (XEnt true false (Some (Slot x, old)) (Some kv), A))
      (fun l1 l2 => let '(p, A') := add A l1 l2 kv ans in (XEnt false (frefused p) (at_slot p kv) (Some kv), A'))
  | FAssign (_, kv) ans =>
    on_key A (fst kv)
      (fun _ x old _ => (XEnt true false (Some (Slot x, kv)) (Some kv), put A x kv))
      (fun l1 l2 => let '(p, A') := add A l1 l2 kv ans in (XEnt false (frefused p) (at_slot p kv) (Some kv), A'))
  | FRemove (_, kv) =>
    on_key A (fst kv)
      (fun l1 x old l2 => (if writes_handle c then XEnt true false (Some (Handle, old)) (Some old)
                           else XEnt true false (Some (Slot (count A), old)) (Some kv), fremoved A l1 x l2))
      (fun _ _ => (XEnt false false None (Some kv), A))
  | FEntry k =>
    on_key A k (fun _ x kv _ => (XEnt true false (Some (Slot x, kv)) None, A)) (fun _ _ => (XEnt false false None None, A))
  | FOrInsert k (_, kv) ans | FOrInsertW k (_, kv) ans =>
    provided (eqb k (fst kv)) (on_key A k (fun _ x old _ => (XPtr (Some (x, old)), A))
      (fun l1 l2 => let '(p, A') := add A l1 l2 kv ans in (XPtr (ptr_to p kv), A')))
  | FInsertEntry k (_, kv) ans | FInsertEntryW k (_, kv) ans =>
    provided (eqb k (fst kv)) (on_key A k (fun _ x old _ => (XPtr (Some (x, kv)), put A x kv))
      (fun l1 l2 => let '(p, A') := add A l1 l2 kv ans in (XPtr (ptr_to p kv), A')))
  | FAndModify k f =>
    on_key A k (fun _ x kv _ => (XPtr (Some (x, (fst kv, f (snd kv)))), put A x (fst kv, f (snd kv)))) (fun _ _ => (XPtr None, A))
  | FRemoveEntry k =>
    on_key A k (fun l1 x old l2 => (XEnt true false (Some (Slot (count A), old)) None, fremoved A l1 x l2))
      (fun _ _ => (XEnt false false None None, A))
  | FTryInsertW k (_, (_, v)) ans =>
    on_key A k (fun _ x kv _ => (XEnt true false (Some (Slot x, kv)) None, A))
      (fun l1 l2 => let '(p, A') := add A l1 l2 (k, v) ans in (XEnt false (frefused p) (at_slot p (k, v)) None, A'))
  | FAssignW k (_, (_, v)) ans =>
    on_key A k (fun _ x kv _ => (XEnt true false (Some (Slot x, (k, v))) None, put A x (k, v)))
      (fun l1 l2 => let '(p, A') := add A l1 l2 (k, v) ans in (XEnt false (frefused p) (at_slot p (k, v)) None, A'))
  | FBegin => Some (XIter (hd 0 (elems (fv A))), A)
  | FRBegin => Some (XIter (hd 0 (rev (elems (fv A)))), A)
  | FNext e => match around e (elems (fv A)) with Some (_, l2) => Some (XIter (hd 0 l2), A) | None => None end
  | FRNext e => match around e (elems (fv A)) with Some (l1, _) => Some (XIter (hd 0 (rev l1)), A) | None => None end
  | FRange a b =>
    Some (XRange (bound A (firstb (fun z => keyedb cmp (fv A) Lt a z || keyedb cmp (fv A) Eq a z) (elems (fv A))))
      (bound A (firstb (keyedb cmp (fv A) Lt b) (elems (fv A)))), A)
  | FRRange a b =>
    Some (XRange (bound A (firstb (fun z => keyedb cmp (fv A) Gt a z || keyedb cmp (fv A) Eq a z) (rev (elems (fv A)))))
      (bound A (firstb (keyedb cmp (fv A) Gt b) (rev (elems (fv A))))), A)
  | FClear fn =>
    provided ((clears_unused c fn || used A) && bool_decide (NoDup (elems (fv A))))
      (Some (XDestroyed OK (if fn then contents (fv A) else []), with_fv A (View [] ∅)))
  | FSize => Some (XNum (count A), A)
  | FCapacity => Some (XNum (room A), A)
  | FIsEmpty => Some (XBool (count A =? 0), A)
  | FValidate => Some (XBool true, A)
  end.

Lemma eqb_spec k k' : eqb k k' = true -> cmp k k' = Eq.
Proof. unfold eqb. by destruct (cmp k k'). Qed.

Lemma fexec_sound A o r A' : fexec A o = Some (r, A') -> fcall cmp c A o r A'.
Proof.
  assert (forall B k (yes : list nat -> nat -> K * V -> list nat -> B) no b, on_key A k yes no = Some b ->
    (exists l1 x kv l2, present_at cmp A k l1 x l2 /\ shown_at A x kv /\ yes l1 x kv l2 = b) \/
    (exists l1 l2, absent_at cmp A k l1 l2 /\ no l1 l2 = b)) as Hkey.
  { intros B k yes no b. unfold on_key. destruct (where_is A k) as [[[[[l1 x] kv] l2]|[l1 l2]]|] eqn:E; [| |done].
    - intros [= <-]. apply where_present in E as [? ?]. left. by exists l1, x, kv, l2.
    - intros [= <-]. apply where_absent in E. right. by exists l1, l2. }
  assert (forall b (B : Type) (o : option B) y, provided b o = Some y -> b = true /\ o = Some y) as Hguard.
  { intros b B o' y. unfold provided. by destruct b. }
  destruct o as [k|k|[nd kv] ans|[nd kv] ans|[nd kv] ans|[nd kv]|k|k [nd kv] ans|k [nd kv] ans|k f|k|k [nd kv] ans|k [nd kv] ans
    |k [nd [k' v]] ans|k [nd [k' v]] ans| | |e|e|a b|a b|fn| | | |]; cbn [fexec].
  - destruct (where_is A k) as [[[[[l1 x] kv] l2]|[l1 l2]]|] eqn:E; [| |done].
    + intros [= <- <-]. apply where_present in E as [? ?]. by eapply fcall_contains_yes.
    + intros [Hg [= <- <-]]%Hguard. apply where_absent in E. eapply fcall_contains_no; [done|].
      apply orb_true_iff in Hg as [?|Hg]; [by left|]. right. intros He. unfold count in Hg. by rewrite He in Hg.
  - intros [(l1 & x & kv & l2 & ? & ? & [= <- <-])|(l1 & l2 & ? & [= <- <-])]%Hkey; [by eapply fcall_get_yes|by eapply fcall_get_no].
  - intros [(l1 & x & old & l2 & ? & ? & [= <- <-])|(l1 & l2 & ? & He)]%Hkey; [by eapply fcall_insert_old|].
    destruct (add A l1 l2 kv ans) as [p B] eqn:E. injection He as <- <-. apply add_spec in E. by eapply fcall_insert_new.
  - intros [(l1 & x & old & l2 & ? & ? & [= <- <-])|(l1 & l2 & ? & He)]%Hkey; [by eapply fcall_try_old|].
    destruct (add A l1 l2 kv ans) as [p B] eqn:E. injection He as <- <-. apply add_spec in E. by eapply fcall_try_new.
  - intros [(l1 & x & old & l2 & ? & ? & [= <- <-])|(l1 & l2 & ? & He)]%Hkey; [by eapply fcall_assign_old|].
    destruct (add A l1 l2 kv ans) as [p B] eqn:E. injection He as <- <-. apply add_spec in E. by eapply fcall_assign_new.
  - intros [(l1 & x & old & l2 & ? & ? & [= <- <-])|(l1 & l2 & ? & [= <- <-])]%Hkey; [by eapply fcall_remove_yes|by eapply fcall_remove_no].
  - intros [(l1 & x & kv & l2 & ? & ? & [= <- <-])|(l1 & l2 & ? & [= <- <-])]%Hkey; [by eapply fcall_entry_yes|by eapply fcall_entry_no].
  - intros [Hg%eqb_spec [(l1 & x & old & l2 & ? & ? & [= <- <-])|(l1 & l2 & ? & He)]%Hkey]%Hguard; [by eapply fcall_or_insert_old|].
    destruct (add A l1 l2 kv ans) as [p B] eqn:E. injection He as <- <-. apply add_spec in E. by eapply fcall_or_insert_new.
  - intros [Hg%eqb_spec [(l1 & x & old & l2 & ? & ? & [= <- <-])|(l1 & l2 & ? & He)]%Hkey]%Hguard; [by eapply fcall_insert_entry_old|].
    destruct (add A l1 l2 kv ans) as [p B] eqn:E. injection He as <- <-. apply add_spec in E. by eapply fcall_insert_entry_new.
  - intros [(l1 & x & kv & l2 & ? & ? & [= <- <-])|(l1 & l2 & ? & [= <- <-])]%Hkey; [by eapply fcall_modify_yes|by eapply fcall_modify_no].
  - intros [(l1 & x & kv & l2 & ? & ? & [= <- <-])|(l1 & l2 & ? & [= <- <-])]%Hkey; [by eapply fcall_remove_entry_yes|by eapply fcall_remove_entry_no].
  - intros [Hg%eqb_spec [(l1 & x & old & l2 & ? & ? & [= <- <-])|(l1 & l2 & ? & He)]%Hkey]%Hguard; [by eapply fcall_or_insert_w_old|].
    destruct (add A l1 l2 kv ans) as [p B] eqn:E. injection He as <- <-. apply add_spec in E. by eapply fcall_or_insert_w_new.
  - intros [Hg%eqb_spec [(l1 & x & old & l2 & ? & ? & [= <- <-])|(l1 & l2 & ? & He)]%Hkey]%Hguard; [by eapply fcall_insert_entry_w_old|].
    destruct (add A l1 l2 kv ans) as [p B] eqn:E. injection He as <- <-. apply add_spec in E. by eapply fcall_insert_entry_w_new.
  - intros [(l1 & x & old & l2 & ? & ? & [= <- <-])|(l1 & l2 & ? & He)]%Hkey; [by eapply fcall_try_w_old|].
    destruct (add A l1 l2 (k, v) ans) as [p B] eqn:E. injection He as <- <-. apply add_spec in E. by eapply fcall_try_w_new.
  - intros [(l1 & x & old & l2 & ? & ? & [= <- <-])|(l1 & l2 & ? & He)]%Hkey; [by eapply fcall_assign_w_old|].
    destruct (add A l1 l2 (k, v) ans) as [p B] eqn:E. injection He as <- <-. apply add_spec in E. by eapply fcall_assign_w_new.
  - intros [= <- <-]. constructor.
  - intros [= <- <-]. constructor.
  - destruct (around e (elems (fv A))) as [[l1 l2]|] eqn:E; [|done]. intros [= <- <-]. apply around_spec in E. by eapply fcall_next.
  - destruct (around e (elems (fv A))) as [[l1 l2]|] eqn:E; [|done]. intros [= <- <-]. apply around_spec in E. by eapply fcall_rnext.
  - intros [= <- <-]. apply fcall_range; (eapply firstb_first; [|done]); intros; [apply keyedb2_spec|apply keyedb_spec].
  - intros [= <- <-]. apply fcall_rrange; (eapply firstb_first; [|done]); intros; [apply keyedb2_spec|apply keyedb_spec].
  - intros [Hg [= <- <-]]%Hguard. apply andb_true_iff in Hg as [Hg Hnd]. apply bool_decide_eq_true in Hnd.
    apply orb_true_iff in Hg. by apply fcall_clear_contents.
  - intros [= <- <-]. constructor.
  - intros [= <- <-]. constructor.
  - intros [= <- <-]. constructor.
  - intros [= <- <-]. constructor.
Qed.

Fixpoint fexecs A (os : list (flat_op K V)) : option (list (flat_res K V) * fview K V) :=
  match os with
  | [] => Some ([], A)
  | o :: os =>
    match fexec A o with
    | Some (r, A1) => match fexecs A1 os with Some (rs, A2) => Some (r :: rs, A2) | None => None end
    | None => None
    end
  end.
Lemma fexecs_sound A os rs A' : fexecs A os = Some (rs, A') -> fcalls cmp c A os rs A'.
Proof.
  revert A rs. induction os as [|o os IH]; intros A rs; cbn [fexecs].
  - intros [= <- <-]. constructor.
  - destruct (fexec A o) as [[r A1]|] eqn:E; [|done]. destruct (fexecs A1 os) as [[rs1 A2]|] eqn:E1; [|done].
    intros [= <- <-]. apply fexec_sound in E. apply IH in E1. by econstructor.
Qed.
(** A concrete history is permitted, with these answers. *)
Lemma permitted A os rs (P : fview K V -> bool) :
  match fexecs A os with Some (rs', A') => rs' = rs /\ P A' = true | None => False end ->
  exists A', fcalls cmp c A os rs A' /\ P A' = true.
Proof. destruct (fexecs A os) as [[rs' A']|] eqn:E; [|done]. intros [<- HP]. exists A'. split; [|done]. by apply fexecs_sound. Qed.
Lemma permitted_any A os :
  match fexecs A os with Some _ => true | None => false end = true -> exists rs A', fcalls cmp c A os rs A'.
Proof. destruct (fexecs A os) as [[rs A']|] eqn:E; [|done]. intros _. exists rs, A'. by apply fexecs_sound. Qed.
End exec.
