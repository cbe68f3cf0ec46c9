(** What validate of the two maps in buffers is worth in arbitrary memory. *)
From stdpp Require Import base numbers option gmap fin_maps list.
From Coq Require Import Sorting.Sorted.
From Verif Require Import Common LinkHeap OrderSpec MapSpec TreeModel TreeProofs WavlModel WavlNode WavlProofs WavlRemove WavlFrame
  MapProofs FlatOps FlatSpec FlatModel FlatProofs FlatCalls FlatCases FomModel FomProofs FrmModel ValidSpec TreeValid.

Local Ltac bind := cbn [mbind outcome_bind obind].

Section valid.
Context {K V : Type} (cmp : K -> K -> comparison) (Hcmp : total_preorder cmp).
Implicit Types (s : flat K V).

(** Memory that holds a map of [sz s] slots, in whatever state: the slots hold user
    data, their links are any slot numbers in use. *)
Definition flat_memory s : Prop :=
  sz s <= cap s /\ (forall i, i < cap s -> alive (tr s) i) /\ wroot (tr s) < sz s `max` 1 /\
  forall i, 1 <= i < sz s -> is_Some (dat s !! i) /\
    exists l r p, lf (wl (tr s)) !! i = Some l /\ rt (wl (tr s)) !! i = Some r /\ pa (wl (tr s)) !! i = Some p /\
      l < sz s /\ r < sz s /\ p < sz s.

(** The two checks that both validate make. *)
Definition checks s : outcome bool :=
  let h := wl (tr s) in
  let fuel := S (S (sz s + size (lf h))) in
  a ← subtrees_valid cmp 0 fuel (fun _ => false) (dat s) h 0 (wroot (tr s)) 0;
  if negb a then Ok false
  else
    n ← recursive_size 0 fuel h (wroot (tr s));
    if negb (n =? 0)%Z && negb (n =? Z.of_nat (sz s) - 1)%Z then Ok false
    else storing_parent 0 false fuel h 0 (wroot (tr s)).

(** The data of the slots in use. *)
Definition in_use s : gmap nat (K * V) := filter (fun p => 1 <= fst p < sz s) (dat s).

Lemma in_use_sub s : in_use s ⊆ dat s.
Proof. apply map_filter_subseteq. Qed.

Lemma in_use_Some s i : flat_memory s -> is_Some (in_use s !! i) <-> 1 <= i < sz s.
Proof.
  intros (_ & _ & _ & H). split.
  - intros [kv Hi]. by apply map_filter_lookup_Some in Hi as [_ ?].
  - intros Hi. destruct (H i Hi) as ([kv Hkv] & _). exists kv. by apply map_filter_lookup_Some.
Qed.

Lemma in_use_target s i : flat_memory s -> i < sz s -> target 0 (in_use s) i.
Proof. intros Hm Hi. destruct i as [|i]; [by left|]. right. apply in_use_Some; [done|]. lia. Qed.

Lemma memory_readable s : flat_memory s -> sz s <> 0 -> readable 0 (fun _ => false) (in_use s) (wl (tr s)).
Proof.
  intros Hm H0. pose proof Hm as (Hle & Ha & _ & H). split.
  - destruct (Ha 0) as [(_ & _ & ?) _]; [lia|done].
  - intros x Hx%in_use_Some; [|done]. split; [lia|]. split; [done|].
    destruct (H x Hx) as (_ & l & r & p & Hl & Hr & Hp & ? & ? & ?). exists l, r, p.
    split_and!; try done; [left|left|]; by apply in_use_target.
Qed.

Lemma checks_tree s : flat_memory s ->
  exists b, checks s = Ok b /\
    (b = true -> exists t, rep 0 (wl (tr s)) 0 t /\ wroot (tr s) = ptr 0 t /\ sorted cmp (in_use s) (nodes t) /\
      (t = E \/ sz s = S (length (nodes t)))).
Proof.
  intros Hm. pose proof Hm as (Hle & Ha & Hroot & Hl). unfold checks.
  destruct (decide (sz s = 0)) as [H0|H0].
  { assert (wroot (tr s) = 0) as -> by lia. exists true. split; [done|]. intros _. exists E.
    split_and!; [done|done|split; constructor|by left]. }
  pose proof (memory_readable s Hm H0) as Hmem. set (h := wl (tr s)) in *. set (fuel := S (S (sz s + size (lf h)))).
  destruct (subtrees_valid_total 0 cmp Hcmp (fun _ => false) (in_use s) h Hmem fuel 0 (wroot (tr s)) 0)
    as (b1 & Hb & Hb1).
  { by left. } { by left. } { left. apply in_use_target; [done|lia]. }
  { pose proof (room_size 0 cmp _ (in_use s) h Hmem 0 0). lia. }
  rewrite (subtrees_valid_sub cmp 0 _ (in_use s) (dat s) h fuel 0 (wroot (tr s)) 0 b1 (in_use_sub s) Hb). bind.
  destruct b1; cbn [negb]; [|by exists false].
  destruct Hb1 as (t & Hsh & Hpt & Hs & Hk); [done|]. rewrite <- Hpt.
  assert (length (nodes t) <= size (lf h)) as Hlen.
  { apply (sorted_size 0 cmp Hcmp _ (in_use s) h Hmem); [done|]. intros z Hz. by apply Hk. }
  rewrite (recursive_size_shape 0 h t) by (done || lia). bind.
  destruct (_ && _) eqn:Hn; [by exists false|].
  destruct (storing_parent_total 0 (fun _ => false) (in_use s) h Hmem false 0 t fuel) as (b2 & -> & Hb2).
  { done. } { intros z Hz'. by apply Hk. } { lia. }
  exists b2. split; [done|]. intros ->. exists t. split_and!; [by apply Hb2|done| |].
  - split; [done|]. apply Forall_forall. intros z Hz'. by apply Hk.
  - apply andb_false_iff in Hn as [Hn|Hn]; apply negb_false_iff, Z.eqb_eq in Hn; [left|right; lia].
    destruct t as [|a x b]; [done|]. cbn [nodes] in Hn. rewrite app_length in Hn. cbn in Hn. lia.
Qed.

(** The view of a validated map: its root is not lost. *)
Lemma checks_repr s : flat_memory s -> checks s = Ok true -> wroot (tr s) <> 0 \/ sz s <= 1 ->
  exists l, reprT cmp tree_ok s (FView (View (nodes l) (in_use s)) (cap s) (bool_decide (1 <= sz s /\ 2 <= cap s))) l.
Proof.
  intros Hm Hv Hne. destruct (checks_tree s Hm) as (b & Hv' & Hb). assert (b = true) as -> by congruence.
  destruct (Hb eq_refl) as (t & Hr & Hroot & Hs & Hsz). pose proof Hm as (Hle & Ha & Hwr & Hl). exists t.
  assert (t <> E -> sz s <> 0) as Hte. { intros ?. destruct Hsz; [done|lia]. }
  assert (NoDup (nodes t)) as Hnd by (by apply (sorted_NoDup cmp Hcmp (in_use s))).
  assert (length (nodes t) = sz s - 1) as Hlen.
  { destruct Hsz as [-> |Hsz]; [|lia]. cbn. destruct Hne as [Hne|?]; [|lia]. by rewrite Hroot in Hne. }
  assert (nodes t ≡ₚ seq 1 (length (nodes t))) as Hperm.
  { assert (nodes t ⊆+ seq 1 (length (nodes t))) as Hsub.
    { apply NoDup_submseteq; [done|]. intros x Hx. destruct Hs as [_ Hk]. rewrite Forall_forall in Hk.
      specialize (Hk x Hx). apply in_use_Some in Hk; [|done]. apply elem_of_seq. lia. }
    apply submseteq_Permutation_length_le; [by rewrite seq_length|done]. }
  split; [by intros ?%bool_decide_eq_true|].
  assert (slots s (FView (View (nodes t) (in_use s)) (cap s) (bool_decide (1 <= sz s /\ 2 <= cap s)))) as Hslots by (by split).
  assert (facts cmp (FView (View (nodes t) (in_use s)) (cap s) (bool_decide (1 <= sz s /\ 2 <= cap s)))) as Hfacts.
  { split_and!; [done|done|]. cbn. intros x Hx%in_use_Some; [|done]. rewrite Hperm, Hlen. apply elem_of_seq. lia. }
  destruct (decide (sz s = 0)) as [H0|H0].
  - left. assert (t = E) as Ht by (destruct t; [done|]; by destruct Hte).
    do 3 (split; [done|]). split; [done|]. split; [by rewrite Ht|]. rewrite Hroot. by rewrite Ht.
  - right. unfold count. cbn [fv elems]. split; [|split; [lia|done]].
    do 2 (split; [done|]). split; [|split; [|done]].
    + cbn. intros x Hx. rewrite Hperm, Hlen in Hx. apply elem_of_seq in Hx.
      destruct (proj2 (in_use_Some s x Hm)) as [kv Hkv]; [lia|]. rewrite Hkv. by apply (lookup_weaken (in_use s)), in_use_sub.
    + split_and!; [done..|]. apply Ha. lia.
Qed.

Lemma checks_walk s : flat_memory s -> checks s = Ok true -> wroot (tr s) <> 0 \/ sz s <= 1 ->
  exists t ps, flat_iter s true = Ok ps /\ flat_iter s false = Ok (rev ps) /\ length ps = flat_size s /\
    map fst ps = nodes t /\ Forall (fun p => dat s !! fst p = Some (snd p)) ps /\
    StronglySorted (fun p q => cmp (fst (snd p)) (fst (snd q)) = Lt) ps /\
    rep 0 (wl (tr s)) 0 t /\ wroot (tr s) = ptr 0 t /\ sorted cmp (dat s) (nodes t).
Proof.
  intros Hm Hv Hne. destruct (checks_repr s Hm Hv Hne) as (t & Hr).
  destruct (repr_walk cmp tree_ok fom_seal (fom_tree (K := K) (V := V)) s _ (ex_intro _ t Hr)) as (ps & Hf & Hb & Hps & HF & Hs).
  cbn in Hps, HF. exists t, ps. pose proof (reprT_count cmp tree_ok s _ t Hr) as Hcnt. unfold count in Hcnt. cbn in Hcnt.
  assert (Forall (fun p => dat s !! fst p = Some (snd p)) ps) as HF'.
  { eapply Forall_impl; [exact HF|]. intros p Hp. by apply (lookup_weaken (in_use s)), in_use_sub. }
  destruct (checks_tree s Hm) as (b & Hv' & Hb'). assert (b = true) as -> by congruence.
  split_and!; try done.
  - unfold flat_size. rewrite Hcnt, <- Hps. by rewrite map_length.
  - destruct Hr as [_ [(_ & _ & _ & -> & _)|((_ & _ & _ & (_ & ? & _) & _) & _)]]; done.
  - destruct Hr as [_ [(_ & _ & _ & -> & _ & ->)|((_ & _ & _ & (? & _) & _) & _)]]; done.
  - pose proof (reprT_facts cmp tree_ok s _ t Hr) as (Hss & _). cbn in Hss. apply (sorted_same cmp Hcmp (in_use s)); [done|].
    intros x Hx. destruct (sorted_dat cmp _ _ _ Hss Hx) as [kv Hkv]. rewrite Hkv.
    by apply (lookup_weaken (in_use s)), in_use_sub.
Qed.

Lemma checks_decide s : flat_memory s -> exists b, checks s = Ok b.
Proof. intros Hm. destruct (checks_tree s Hm) as (b & ? & _). by exists b. Qed.

(** ** The splay map *)

Lemma fom_validate_decides s : flat_memory s -> exists b, fom_validate cmp s = Ok b.
Proof. apply checks_decide. Qed.

Lemma fom_validate_consistent s : flat_memory s -> fom_validate cmp s = Ok true -> wroot (tr s) <> 0 \/ sz s <= 1 ->
  consistent cmp (Ok (Z.of_nat (flat_size s))) (flat_iter s true) (flat_iter s false)
    (fun k e => exists s', flat_get (fom_find cmp) s k = Ok (s', Some e)).
Proof.
  intros Hm Hv Hne. destruct (checks_walk s Hm Hv Hne) as (t & ps & Hf & Hb & Hlen & Hps & HF & Hs & _).
  exists ps. split_and!; [by rewrite Hlen|done..|]. intros e kv He.
  destruct (checks_repr s Hm Hv Hne) as (t' & Hr).
  destruct (repr_walk cmp tree_ok fom_seal (fom_tree (K := K) (V := V)) s _ (ex_intro _ t' Hr)) as (ps' & Hf' & _ & Hps' & HF' & _).
  assert (ps' = ps) as -> by congruence. cbn in Hps', HF'.
  assert (e ∈ nodes t') as Hin. { rewrite <- Hps'. apply elem_of_list_fmap. by exists (e, kv). }
  apply elem_of_list_split in Hin as (l1 & l2 & Hl). rewrite Forall_forall in HF'. specialize (HF' _ He). cbn [fst snd] in HF'.
  assert (present_at cmp (FView (View (nodes t') (in_use s)) (cap s) (bool_decide (1 <= sz s /\ 2 <= cap s))) (fst kv) l1 e l2) as Hp.
  { split; [done|]. exists kv. split; [done|]. apply (cmp_refl cmp Hcmp). }
  unfold flat_get, fom_find. pose proof (root_empty cmp s _ t' Hr) as ->.
  rewrite (empty_no cmp s _ t' Hr (present_ne cmp _ _ _ _ _ Hp)).
  destruct (splay_present cmp Hcmp s _ t' (fst kv) l1 e l2 Hr Hp) as (w & a & b & kv' & -> & _ & _ & _ & _ & Hc). bind.
  cbn [dat set_tr]. rewrite Hc. bind. by eexists.
Qed.

Lemma fom_validate_usable s (alloc : bool) : flat_memory s -> fom_validate cmp s = Ok true -> wroot (tr s) <> 0 \/ sz s <= 1 ->
  exists A, fshown A (flat_size s) (flat_capacity s) (flat_iter s true) (flat_iter s false) (fom_validate cmp s) /\
    (forall i kv, vals (fv A) !! i = Some kv <-> 1 <= i < sz s /\ dat s !! i = Some kv) /\
    (used A = true <-> 1 <= sz s /\ 2 <= cap s) /\
    forall ops rs A', fcalls cmp (fom_contract alloc) A ops rs A' ->
    exists s' rs', fom_run cmp alloc s ops = Ok (s', rs') /\ Forall2 fagree rs rs' /\
      fshown A' (flat_size s') (flat_capacity s') (flat_iter s' true) (flat_iter s' false) (fom_validate cmp s').
Proof.
  intros Hm Hv Hne. destruct (checks_repr s Hm Hv Hne) as (t & Hr). eexists.
  split; [|split; [|split]].
  - apply (fom_shows_Ok cmp Hcmp alloc). by exists t.
  - intros i kv. cbn. unfold in_use. rewrite map_filter_lookup_Some. cbn. tauto.
  - cbn. by rewrite bool_decide_eq_true.
  - intros ops rs A' Hc.
    destruct (fom_run_Ok cmp Hcmp alloc s _ ops rs A' (ex_intro _ t Hr) Hc) as (s' & rs' & ? & ? & Hr').
    exists s', rs'. split_and!; [done|done|..]; by apply (fom_shows_Ok cmp Hcmp alloc).
Qed.

(** ** The realtime map *)

Lemma frm_validate_checks s : flat_memory s ->
  frm_validate cmp s = Ok false /\ sz s <> 0 /\ wp (tr s) !! 0 = Some false \/ frm_validate cmp s = checks s.
Proof.
  intros (Hle & Ha & _). unfold frm_validate. destruct (Nat.eqb_spec (sz s) 0) as [_|H0]; [by right|].
  destruct (Ha 0) as [_ [b Hb]]; [lia|]. unfold parity. rewrite Hb. bind. destruct b; cbn [negb]; [by right|by left].
Qed.

Lemma frm_validate_decides s : flat_memory s -> exists b, frm_validate cmp s = Ok b.
Proof.
  intros Hm. destruct (frm_validate_checks s Hm) as [(? & _)| ->]; [by exists false|]. by apply checks_decide.
Qed.

(** ccc_frm_get_key_val whose loop may take [n] iterations. *)
Definition frm_get_in (n : nat) s (k : K) : outcome (option nat) :=
  q ← tree_find 0 n cmp (dat s) (wl (tr s)) (wroot (tr s)) k; Ok (FrmModel.hit q).

Lemma frm_validate_consistent s : flat_memory s -> frm_validate cmp s = Ok true -> wroot (tr s) <> 0 \/ sz s <= 1 ->
  consistent cmp (Ok (Z.of_nat (flat_size s))) (flat_iter s true) (flat_iter s false)
    (fun k e => exists n, frm_get_in n s k = Ok (Some e)).
Proof.
  intros Hm Hv Hne. destruct (frm_validate_checks s Hm) as [(? & _)|Hch]; [congruence|]. rewrite Hch in Hv.
  destruct (checks_walk s Hm Hv Hne) as (t & ps & Hf & Hb & Hlen & Hps & HF & Hs & Hr & Hroot & Hso).
  exists ps. split_and!; [by rewrite Hlen|done..|]. intros e kv He.
  exists (S (length (nodes t))). unfold frm_get_in. rewrite Hroot. rewrite Forall_forall in HF.
  rewrite (tree_find_in 0 cmp Hcmp (dat s) (wl (tr s)) 0 t e kv); [done|done|done| |by apply (HF (e, kv))].
  rewrite <- Hps. apply elem_of_list_fmap. by exists (e, kv).
Qed.
End valid.
