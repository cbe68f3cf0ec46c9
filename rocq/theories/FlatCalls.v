(** Calls on the array backed ordered maps, but for what differs between the two. *)
From Coq Require Import Sorted.
From stdpp Require Import base numbers option gmap fin_maps list.
From Verif Require Import Common LinkHeap PathLemmas OrderSpec Counting TreeModel TreeProofs WavlModel WavlProofs WavlRank
  WavlRemove WavlNode WavlFrame OmProofs MapSpec MapProofs FlatOps FlatSpec FlatModel FlatProofs.

Local Ltac bind := cbn [mbind outcome_bind obind].

Section calls.
Context {K V : Type} (cmp : K -> K -> comparison) (Hcmp : total_preorder cmp).
Context (c : fcontract) (good : wavl -> tree -> Prop) (seal : flat K V -> outcome (flat K V)).
Implicit Types (s : flat K V) (A : fview K V).
Notation alloc := (grows c).
Notation facts := (facts cmp).
Notation core := (core cmp good).
Notation unborn := (unborn cmp).
Notation reprT := (reprT cmp good).
Notation repr := (repr cmp good).

(** What the tree predicate and the write to slot 0 have to provide. *)
Record tree_facts : Prop := {
  good_zin : forall w t, good w t -> zin 0 (wl w) (wroot w) [] t;
  good_outside : forall X w w' t,
    good w t -> outside X w w' -> 0 ∉ X -> (forall z, z ∈ X -> z ∉ nodes t) -> good w' t;
  good_clear : forall w t, good w t -> good (with_root w 0) E;
  seal_Ok : forall s, alive (tr s) 0 -> exists w, seal s = Ok (set_tr s w) /\
    outside [0] (tr s) w /\ (forall i, alive (tr s) i -> alive w i) /\
    (wroot (tr s) = 0 -> good w E) /\
    (forall w0 t, good w0 t -> outside [0] w0 (tr s) -> good w t)
}.
Context (HT : tree_facts).

Definition resized A (r : nat) : fview K V := FView (fv A) r (used A).
Definition ready s A t : Prop := core s A t /\ sz s = S (count A) /\ sz s <= cap s.

Lemma grow_slots s n junk :
  (forall i, i < cap s -> alive (tr s) i) -> cap s <= n ->
  forall i, i < n -> alive (tr (grow s n junk)) i.
Proof.
  intros Ha Hn i Hi. cbn. apply fresh_alive. destruct (decide (i < cap s)); [auto|].
  right. apply elem_of_seq. lia.
Qed.

Lemma grow_core s A t n junk :
  core s A t -> 0 < cap s -> cap s <= n -> S (count A) <= cap s ->
  core (grow s n junk) (resized A n) t.
Proof.
  intros ((Hc & Ha) & Hf & Hd & Hg & Hn) H0 Hle Hcnt. split_and!; try done.
  - split; [done|]. by apply grow_slots.
  - eapply (good_outside HT (seq (cap s) (n - cap s))); [done|cbn; apply fresh_outside| |].
    + rewrite elem_of_seq. lia.
    + intros z Hz%elem_of_seq. rewrite Hn, (facts_range cmp A z Hf). lia.
Qed.

(** Slot 0 comes to life. *)
Lemma seal_born s A t :
  unborn s A t -> 0 < cap s ->
  exists s', seal (set_sz s 1) = Ok s' /\ ready s' A t /\ dat s' = dat s /\ cap s' = cap s /\ sz s' = 1.
Proof.
  intros ((Hc & Ha) & Hf & Hsz & -> & He & Hroot) H0.
  destruct (seal_Ok HT (set_sz s 1)) as (w & -> & Ho & Hal & Hb & _); [by apply Ha|].
  eexists. split; [done|]. cbn. split_and!; try done. unfold ready, count. rewrite He. cbn.
  split_and!; [|done|lia]. split_and!; try done.
  - split; [done|]. cbn. auto.
  - intros x. rewrite He. by intros ?%elem_of_nil.
  - by apply Hb.
Qed.

Definition room_for A : nat :=
  if room A <? S (S (count A)) then if room A =? 0 then 8 else 2 * room A else room A.
Definition allowed A (ans : grant) : Prop :=
  S (S (count A)) <= room A \/ alloc = true /\ is_Some ans.
Definition denied A (ans : grant) : Prop :=
  room A < S (S (count A)) /\ (alloc = false \/ ans = None).

Lemma back_allowed s A t ans :
  ready s A t -> 0 < cap s -> allowed A ans ->
  exists s', buf_alloc_back alloc s ans = (s', Some (S (count A))) /\ core s' (resized A (room_for A)) t /\
    sz s' = S (S (count A)) /\ sz s' <= cap s' /\ dat s' = dat s.
Proof.
  intros (Hcore & Hsz & Hle) H0 Hal. unfold buf_alloc_back.
  assert (cap s = room A) as Hc by (destruct Hcore as ((?&_)&_); done).
  destruct (Nat.eqb_spec (sz s) (cap s)) as [He|Hne].
  - destruct Hal as [?|[-> [junk ->]]]; [lia|]. eexists. split; [by rewrite Hsz|].
    unfold room_for. rewrite (proj2 (Nat.ltb_lt (room A) (S (S (count A))))) by lia.
    rewrite Hc, (proj2 (Nat.eqb_neq (room A) 0)) by lia. rewrite (Nat.mul_comm (room A) 2).
    cbn [set_sz sz cap dat]. split_and!; [|lia|cbn; lia|done].
    apply (grow_core s A t); auto; lia.
  - eexists. split; [by rewrite Hsz|]. unfold room_for.
    rewrite (proj2 (Nat.ltb_ge (room A) (S (S (count A))))) by lia. cbn [set_sz sz cap dat].
    split_and!; [|lia|lia|done]. destruct Hcore as (Hsl & Hf & Hd & Hg).
    exact (conj Hsl (conj Hf (conj Hd Hg))).
Qed.

Lemma back_denied s A t ans :
  ready s A t -> denied A ans -> buf_alloc_back alloc s ans = (s, None).
Proof.
  intros (Hcore & Hsz & Hle) [Hr Hd]. unfold buf_alloc_back.
  assert (cap s = room A) as Hc by (destruct Hcore as ((?&_)&_); done).
  rewrite (proj2 (Nat.eqb_eq (sz s) (cap s))) by lia. destruct Hd as [-> | ->]; [done|]. by destruct alloc.
Qed.

Lemma alloc_allowed s A t ans :
  reprT s A t -> allowed A ans ->
  exists s', alloc_back alloc seal s ans = Ok (s', Some (S (count A))) /\ core s' (resized A (room_for A)) t /\
    sz s' = S (S (count A)) /\ sz s' <= cap s' /\ dat s' = dat s.
Proof.
  intros [Hu [Hub|Hre]] Hal; unfold alloc_back.
  - assert (count A = 0) as Hcnt by (destruct Hub as (_ & _ & _ & _ & He & _); unfold count; by rewrite He).
    assert (sz s = 0 /\ cap s = room A) as [-> Hc] by (destruct Hub as ((? & _) & _ & ? & _); done).
    cbn [Nat.eqb]. destruct (decide (cap s = 0)) as [H0|H0].
    + destruct Hal as [?|[Hg [junk ->]]]; [lia|]. unfold buf_alloc_back at 1.
      assert (sz s = 0) as -> by (by destruct Hub as (_ & _ & ? & _)).
      rewrite H0, Hg. cbn [Nat.eqb].
      destruct (seal_born (grow s 8 junk) (resized A 8) t) as (s1 & -> & Hrdy & Hd & Hcap & Hsz); [|cbn; lia|].
      { destruct Hub as ((_ & Ha) & Hf & ? & ? & ? & Hr). split_and!; try done.
        - split; [done|]. apply grow_slots; [done|lia].
        - cbn. by destruct (fresh_outside (tr s) junk (seq (cap s) (8 - cap s))) as (_ & _ & ->). }
      bind. destruct (back_allowed s1 (resized A 8) t (Some junk) Hrdy) as (s2 & Hb & Hcore & Hsz2 & Hle2 & Hd2).
      { rewrite Hcap. cbn; lia. }
      { left. unfold count in *. cbn. lia. }
      rewrite Hg in Hb. rewrite Hb. exists s2. split; [done|]. unfold count, resized in *. cbn [fv room used] in *.
      split_and!; [|done|done|by rewrite Hd2, Hd].
      unfold room_for, count in *. cbn [fv room used] in *. rewrite Hcnt in *. cbn in *.
      rewrite <- Hc, H0. done.
    + unfold buf_alloc_back at 1. assert (sz s = 0) as Hs0 by (by destruct Hub as (_ & _ & ? & _)).
      rewrite Hs0. rewrite (proj2 (Nat.eqb_neq 0 (cap s))) by done.
      destruct (seal_born s A t Hub) as (s1 & -> & Hrdy & Hd & Hcap & Hsz); [lia|]. bind.
      destruct (back_allowed s1 A t ans Hrdy) as (s2 & -> & ? & ? & ? & Hd2); [lia|done|].
      exists s2. split_and!; try done. by rewrite Hd2.
  - destruct (sz s =? 0) eqn:Hz; [apply Nat.eqb_eq in Hz; destruct Hre as (_ & ? & _); lia|].
    destruct (back_allowed s A t ans Hre) as (s2 & -> & ? & ? & ? & Hd2); [destruct Hre; lia|done|].
    exists s2. by split_and!.
Qed.

Lemma alloc_denied s A t ans :
  reprT s A t -> denied A ans ->
  exists s', alloc_back alloc seal s ans = Ok (s', None) /\ reprT s' A t.
Proof.
  intros [Hu [Hub|Hre]] Hal; unfold alloc_back.
  - assert (count A = 0) as Hcnt by (destruct Hub as (_ & _ & _ & _ & He & _); unfold count; by rewrite He).
    assert (sz s = 0 /\ cap s = room A) as [Hs0 Hc] by (destruct Hub as ((? & _) & _ & ? & _); done).
    rewrite Hs0. cbn [Nat.eqb]. destruct Hal as [Hlt Hor].
    assert (used A <> true) as Hnu by (intros [? ?]%Hu; lia).
    destruct (decide (cap s = 0)) as [H0|H0].
    + unfold buf_alloc_back at 1. rewrite Hs0, H0. cbn [Nat.eqb]. exists s. split.
      * destruct Hor as [-> | ->]; [done|]. by destruct alloc.
      * split; [done|by left].
    + unfold buf_alloc_back at 1. rewrite Hs0. rewrite (proj2 (Nat.eqb_neq 0 (cap s))) by done.
      destruct (seal_born s A t Hub) as (s1 & -> & Hrdy & Hd & Hcap & Hsz); [lia|]. bind.
      rewrite (back_denied s1 A t ans Hrdy) by done.
      exists s1. split; [done|]. split; [done|by right].
  - destruct (sz s =? 0) eqn:Hz; [apply Nat.eqb_eq in Hz; destruct Hre as (_ & ? & _); lia|].
    rewrite (back_denied s A t ans Hre) by done. exists s. split; [done|]. split; [done|by right].
Qed.

(** ** A new element in the tree *)

Lemma facts_pushed A l1 l2 kv r :
  facts A -> absent_at cmp A (fst kv) l1 l2 -> facts (pushed A l1 l2 kv r).
Proof.
  intros Hf Hab. pose proof Hf as (Hs & Hp & Hd). pose proof (absent_sides cmp _ _ _ _ Hab) as (He & H1 & H2).
  set (n := S (count A)) in *.
  assert (n ∉ elems (fv A)) as Hn by (rewrite (facts_range cmp A n Hf); lia).
  assert (forall z, z ∈ elems (fv A) -> <[n := kv]> (vals (fv A)) !! z = vals (fv A) !! z) as Hsame.
  { intros z Hz. apply lookup_insert_ne. by intros ->. }
  assert (forall d k z, z ∈ elems (fv A) -> side cmp (vals (fv A)) d k z -> side cmp (<[n := kv]> (vals (fv A))) d k z) as Hside.
  { intros d k z Hz (w & Hw & Hk). exists w. by rewrite Hsame. }
  split_and!; cbn.
  - apply (sorted_insert cmp Hcmp _ _ _ _ kv).
    + rewrite <- He. by apply (sorted_same cmp Hcmp (vals (fv A))).
    + apply lookup_insert.
    + intros z Hz. apply Hside; [rewrite He; apply elem_of_app; by left|auto].
    + intros z Hz. apply Hside; [rewrite He; apply elem_of_app; by right|auto].
  - rewrite <- Permutation_middle, <- He, Hp. unfold count. cbn [length].
    rewrite seq_length, (seq_S (length _)). rewrite Permutation_app_comm. done.
  - intros x Hx. destruct (decide (x = n)) as [-> |Hne]; [apply elem_of_app; right; left|].
    rewrite lookup_insert_ne in Hx by done. apply Hd in Hx. rewrite He, elem_of_app in Hx. rewrite elem_of_app, elem_of_cons. tauto.
Qed.

Context {H : Type} (find : flat K V -> K -> outcome (flat K V * option nat * H)).
Context (link : flat K V -> H -> nat -> outcome (flat K V * option nat)).
(** The remembered place lies between [l1] and [l2]. *)
Context (hint_ok : tree -> list nat -> list nat -> H -> Prop).

Record find_facts : Prop := {
  find_yes : forall s A t k l1 x l2, reprT s A t -> present_at cmp A k l1 x l2 ->
    exists s' t' h, find s k = Ok (s', Some x, h) /\ reprT s' A t' /\ sz s' = sz s /\ cap s' = cap s;
  find_no : forall s A t k l1 l2, reprT s A t -> absent_at cmp A k l1 l2 ->
    exists s' t' h, find s k = Ok (s', None, h) /\ reprT s' A t' /\ hint_ok t' l1 l2 h;
  link_Ok : forall s A t l1 l2 h kv, core s A t -> hint_ok t l1 l2 h -> absent_at cmp A (fst kv) l1 l2 ->
    sz s = S (S (count A)) -> sz s <= cap s -> dat s !! S (count A) = Some kv ->
    exists w t', link s h (S (count A)) = Ok (set_tr s w, Some (S (count A))) /\ good w t' /\
      nodes t' = l1 ++ S (count A) :: l2 /\ (forall i, alive (tr s) i -> alive w i)
}.
Context (HF : find_facts).

(** Writing the new slot and linking it. *)
Lemma linked_Ok s A t l1 l2 h nd kv r :
  core s (resized A r) t -> hint_ok t l1 l2 h -> absent_at cmp A (fst kv) l1 l2 ->
  sz s = S (S (count A)) -> sz s <= cap s ->
  exists s1 s' t', write s (S (count A)) (nd, Some kv) = Ok s1 /\
    link s1 h (S (count A)) = Ok (s', Some (S (count A))) /\
    reprT s' (pushed A l1 l2 kv r) t'.
Proof.
  intros ((Hc & Ha) & Hf & Hd & Hg & Hn) Hh Hab Hsz Hle. set (n := S (count A)) in *. cbn in Hn, Hd.
  assert (facts A) as HfA by done.
  assert (n ∉ elems (fv A)) as Hnn by (rewrite (facts_range cmp A n HfA); lia).
  rewrite write_Ok by (apply Ha; lia). cbn [fst snd put_data].
  set (s1 := Flat (put_fnode (tr s) n nd) (<[n := kv]> (dat s)) (sz s) (cap s)).
  assert (outside [n] (tr s) (tr s1)) as Ho by apply outside_put.
  assert (forall i, alive (tr s) i -> alive (tr s1) i) as Hal by (intros i Hi; apply alive_put; by left).
  assert (core s1 (resized A r) t) as Hcore.
  { split_and!; try done.
    - split; [done|]. intros i Hi. by apply Hal, Ha.
    - intros x Hx. cbn. rewrite lookup_insert_ne; [by apply Hd|]. by intros ->.
    - eapply (good_outside HT); [done|exact Ho| |].
      + rewrite elem_of_list_singleton. lia.
      + intros z ->%elem_of_list_singleton. by rewrite Hn. }
  destruct (link_Ok HF s1 (resized A r) t l1 l2 h kv Hcore Hh Hab) as (w & t' & Hl & Hgw & Hnt & Haw);
    [done|done|apply lookup_insert|].
  eexists s1, _, t'. split; [done|]. split; [exact Hl|]. cbn [set_tr].
  split; [cbn; lia|]. right. unfold count. cbn [pushed fv set_elems elems sz set_tr cap].
  split_and!; [|rewrite app_length; cbn; destruct Hab as (He & _); unfold n, count in Hsz; rewrite He, app_length in Hsz; cbn in *; lia|done].
  split_and!.
  - split; [done|]. cbn. intros i Hi. by apply Haw, Hal, Ha.
  - by apply facts_pushed.
  - intros x Hx. cbn in Hx |- *. fold n in Hx |- *. destruct (decide (x = n)) as [-> |Hne]; [by rewrite !lookup_insert|].
    rewrite !lookup_insert_ne by done. apply Hd. destruct Hab as (-> & _). rewrite elem_of_app, elem_of_cons in Hx.
    rewrite elem_of_app. tauto.
  - done.
  - done.
Qed.

Lemma fadded_allowed A l1 l2 kv ans n A' :
  fadded c A l1 l2 kv ans (Some n) A' -> n = S (count A) /\ allowed A ans /\ A' = pushed A l1 l2 kv (room_for A).
Proof.
  intros Hadd. unfold room_for. inversion Hadd; subst.
  - rewrite (proj2 (Nat.ltb_ge _ _)) by done. split_and!; [done|by left|done].
  - rewrite (proj2 (Nat.ltb_lt _ _)) by done. split_and!; [done|by right|done].
Qed.
Lemma fadded_denied A l1 l2 kv ans A' : fadded c A l1 l2 kv ans None A' -> denied A ans /\ A' = A.
Proof. intros Hadd. by inversion Hadd; subst. Qed.

Definition inserts (f : flat K V -> H -> cell K V -> grant -> outcome (flat K V * option nat)) : Prop :=
  forall s A t l1 l2 h nd kv ans p A', reprT s A t -> hint_ok t l1 l2 h -> absent_at cmp A (fst kv) l1 l2 ->
    fadded c A l1 l2 kv ans p A' ->
    exists s', f s h (nd, Some kv) ans = Ok (s', p) /\ repr s' A'.

Lemma maybe_alloc_insert_Ok : inserts (maybe_alloc_insert alloc seal link).
Proof.
  intros s A t l1 l2 h nd kv ans [n|] A' Hr Hh Hab Hadd; unfold maybe_alloc_insert.
  - apply fadded_allowed in Hadd as (-> & Hal & ->).
    destruct (alloc_allowed s A t ans Hr Hal) as (s1 & -> & Hcore & Hsz & Hle & Hd). bind.
    destruct (linked_Ok s1 A t l1 l2 h nd kv _ Hcore Hh Hab Hsz Hle) as (s2 & s3 & t' & Hw & Hl & Hr').
    replace (sz s1 - 1) with (S (count A)) by lia. rewrite Hw. bind. rewrite Hl. exists s3. split; [done|]. by exists t'.
  - apply fadded_denied in Hadd as (Hal & ->).
    destruct (alloc_denied s A t ans Hr Hal) as (s1 & -> & Hr'). bind. exists s1. split; [done|]. by exists t.
Qed.
Lemma literal_insert_Ok : inserts (literal_insert alloc seal link).
Proof.
  intros s A t l1 l2 h nd kv ans [n|] A' Hr Hh Hab Hadd; unfold literal_insert.
  - apply fadded_allowed in Hadd as (-> & Hal & ->).
    destruct (alloc_allowed s A t ans Hr Hal) as (s1 & -> & Hcore & Hsz & Hle & Hd). bind.
    destruct (linked_Ok s1 A t l1 l2 h nd kv _ Hcore Hh Hab Hsz Hle) as (s2 & s3 & t' & Hw & Hl & Hr').
    replace (sz s1 - 1) with (S (count A)) by lia. rewrite Hw. bind. rewrite Hl. bind. exists s3. split; [done|]. by exists t'.
  - apply fadded_denied in Hadd as (Hal & ->).
    destruct (alloc_denied s A t ans Hr Hal) as (s1 & -> & Hr'). bind. exists s1. split; [done|]. by exists t.
Qed.

(** ** Elements that are there *)

Lemma present_in A k l1 x l2 : present_at cmp A k l1 x l2 -> x ∈ elems (fv A).
Proof. intros (-> & _). rewrite elem_of_app. right. left. Qed.

Lemma present_dat A k l1 x l2 : present_at cmp A k l1 x l2 -> exists old, vals (fv A) !! x = Some old /\ cmp k (fst old) = Eq.
Proof. intros (_ & kv & ? & ?). by exists kv. Qed.

Lemma eq_sym_cmp a b : cmp a b = Eq -> cmp b a = Eq.
Proof. intros Hab. by rewrite (tp_opp _ Hcmp), Hab. Qed.

Lemma overwrite_Ok s A t x old nd kv :
  reprT s A t -> vals (fv A) !! x = Some old -> cmp (fst old) (fst kv) = Eq ->
  exists s' nd', overwrite s x (nd, kv) = Ok (s', (nd', Some kv)) /\ reprT s' (put A x kv) t.
Proof.
  intros Hr Hx He. pose proof (reprT_facts cmp good s A t Hr) as Hf.
  assert (x ∈ elems (fv A)) as Hin by (destruct Hf as (_ & _ & Hd); eauto).
  pose proof (proj1 (facts_range cmp A x Hf) Hin) as Hrange.
  destruct (reprT_born cmp good s A t x Hr Hin) as (((Hc & Ha) & _ & Hv & Hg & Hn) & Hsz & Hle).
  assert (alive (tr s) x) as Hal by (apply Ha; lia). destruct (alive_fnode _ _ Hal) as [n Hnode].
  unfold overwrite. rewrite (read_Ok s x n Hnode). bind. rewrite write_Ok by done. bind. cbn [fst snd put_data].
  rewrite (put_fnode_same _ _ _ Hnode). eexists _, n. split; [done|].
  apply (reprT_put cmp Hcmp good s A t x old); try done; [apply lookup_insert|].
  intros z _ Hz. by apply lookup_insert_ne.
Qed.

Lemma literal_overwrite_Ok s A t x old nd kv :
  reprT s A t -> vals (fv A) !! x = Some old -> cmp (fst old) (fst kv) = Eq ->
  exists s', literal_overwrite s x (nd, Some kv) = Ok s' /\ reprT s' (put A x kv) t.
Proof.
  intros Hr Hx He. destruct (overwrite_Ok s A t x old nd kv Hr Hx He) as (s' & nd' & Ho & Hr').
  exists s'. split; [|done]. unfold overwrite in Ho. unfold literal_overwrite. cbn [fst snd] in *.
  destruct (read s x) as [cl| |]; [|done..]. revert Ho. bind.
  destruct (write s x (fst cl, Some kv)) as [s1| |]; bind; congruence.
Qed.

(** The exchange with the user's struct through slot 0. *)
Lemma exchange_Ok s A t x old kv :
  reprT s A t -> vals (fv A) !! x = Some old -> cmp (fst old) (fst kv) = Eq ->
  exists s' n,
    (c ← read s x; s2 ← write s 0 (fst c, Some kv); u2 ← read s2 x; c0 ← read s2 0; s3 ← write s2 x c0;
     s4 ← seal s3; Ok (s4, u2)) = Ok (s', (n, Some old)) /\ reprT s' (put A x kv) t.
Proof.
  intros Hr Hx He. pose proof (reprT_facts cmp good s A t Hr) as Hf.
  assert (x ∈ elems (fv A)) as Hin by (destruct Hf as (_ & _ & Hd); eauto).
  pose proof (proj1 (facts_range cmp A x Hf) Hin) as Hrange.
  destruct (reprT_born cmp good s A t x Hr Hin) as (((Hc & Ha) & _ & Hv & Hg & Hn) & Hsz & Hle).
  assert (alive (tr s) x) as Hal by (apply Ha; lia). destruct (alive_fnode _ _ Hal) as [n Hnode].
  assert (alive (tr s) 0) as Hal0 by (apply Ha; lia).
  assert (x <> 0) as Hx0 by lia.
  rewrite (read_Ok s x n Hnode). bind. cbn [fst snd]. rewrite write_Ok by done. bind. cbn [fst snd put_data].
  erewrite (read_Ok _ x n); [|by apply fnode_put_ne]. bind. cbn [dat]. rewrite lookup_insert_ne by done.
  erewrite (read_Ok _ 0 n); [|apply fnode_put]. bind. cbn [dat]. rewrite lookup_insert.
  rewrite write_Ok by (apply alive_put; by left). bind. cbn [fst snd put_data tr dat sz cap].
  rewrite (put_fnode_same _ x) by (by apply fnode_put_ne).
  set (s3 := Flat (put_fnode (tr s) 0 n) (<[x := kv]> (<[0 := kv]> (dat s))) (sz s) (cap s)).
  destruct (seal_Ok HT s3) as (w & -> & Ho & Halw & _ & Hgw); [apply alive_put; by right|]. bind.
  eexists _, n. rewrite Hv, Hx by done. split; [done|]. unfold set_tr. cbn [dat sz cap s3].
  apply (reprT_put cmp Hcmp good s A t x old); try done.
  - apply (Hgw (tr s)); [done|]. apply outside_put.
  - intros i Hi. apply Halw, alive_put. by left.
  - apply lookup_insert.
  - intros z Hz0 Hzx. by rewrite !lookup_insert_ne.
Qed.

Lemma modify_Ok s A t x old v :
  reprT s A t -> vals (fv A) !! x = Some old ->
  reprT (set_dat s x (fst old, v)) (put A x (fst old, v)) t.
Proof.
  intros Hr Hx. pose proof (reprT_facts cmp good s A t Hr) as Hf.
  assert (x ∈ elems (fv A)) as Hin by (destruct Hf as (_ & _ & Hd); eauto).
  destruct (reprT_born cmp good s A t x Hr Hin) as ((_ & _ & _ & Hg & Hn) & Hsz & Hle).
  apply (reprT_put cmp Hcmp good s A t x old); try done.
  - by apply cmp_refl.
  - apply lookup_insert.
  - intros z _ Hz. by apply lookup_insert_ne.
Qed.

(** ** Walking *)

Lemma ready_rep s A t : ready s A t ->
  wroot (tr s) = ptr 0 t /\ rep 0 (wl (tr s)) 0 t /\ NoDup (nodes t) /\ live (wl (tr s)) 0.
Proof. intros ((_ & _ & _ & Hg & _) & _). apply (good_zin HT) in Hg. by apply zin_plug in Hg. Qed.

Lemma begin_Ok s A t d : reprT s A t -> flat_begin s d = Ok (hd 0 (ord d (elems (fv A)))).
Proof.
  intros Hr. pose proof (reprT_nodes cmp good s A t Hr) as Hn. unfold flat_begin.
  destruct Hr as [_ [(_ & _ & -> & _ & -> & _)|Hrdy]]; [by destruct d|].
  rewrite (proj2 (Nat.eqb_neq (sz s) 0)) by (destruct Hrdy as (_ & ? & _); lia).
  destruct (ready_rep s A t Hrdy) as (Hroot & Hr & Hnd & _). rewrite Hroot.
  assert (t = E \/ t <> E) as [-> |Hne] by (destruct t; auto).
  - rewrite <- Hn. by destruct d.
  - rewrite (ptr_eqb 0 _ _ _ Hr). destruct (isE_spec t) as [|_]; [done|].
    destruct (edge_Ok 0 _ (negb d) t 0 Hr Hnd Hne) as (l & x & Ho & ->).
    rewrite Hn, ord_negb in Ho. apply (f_equal (@rev nat)) in Ho. rewrite rev_involutive, rev_app_distr in Ho.
    by rewrite Ho.
Qed.

Lemma fnext_Ok s A t d n l1 l2 :
  reprT s A t -> ord d (elems (fv A)) = l1 ++ n :: l2 -> fnext s d n = Ok (hd 0 l2).
Proof.
  intros Hr Ho. pose proof (reprT_nodes cmp good s A t Hr) as Hn.
  pose proof (reprT_facts cmp good s A t Hr) as Hf.
  assert (n ∈ elems (fv A)) as Hin. { apply (elem_of_ord d). rewrite Ho, elem_of_app. right. left. }
  destruct (ready_rep s A t (reprT_born cmp good s A t n Hr Hin)) as (Hroot & Hrep & Hnd & _).
  apply (facts_range cmp A n Hf) in Hin. unfold fnext.
  rewrite (proj2 (Nat.eqb_neq n 0)) by lia. rewrite Hroot.
  rewrite (tree_next_Ok 0 _ d t n l1 l2); [|done|done|by rewrite Hn]. by destruct l2.
Qed.

Lemma next_Ok s A t d n l1 l2 :
  reprT s A t -> ord d (elems (fv A)) = l1 ++ n :: l2 -> flat_next s d n = Ok (hd 0 l2).
Proof.
  intros Hr Ho. unfold flat_next. rewrite (fnext_Ok s A t d n l1 l2) by done.
  assert (n ∈ elems (fv A)) as Hin. { apply (elem_of_ord d). rewrite Ho, elem_of_app. right. left. }
  destruct (reprT_born cmp good s A t n Hr Hin) as (_ & Hsz & _).
  by rewrite (proj2 (Nat.eqb_neq (sz s) 0)) by lia.
Qed.

Lemma walk_Ok s A t d ps l1 fuel :
  reprT s A t -> ord d (elems (fv A)) = l1 ++ map fst ps -> Forall (fun p => vals (fv A) !! fst p = Some (snd p)) ps ->
  length ps < fuel -> walk fuel s d (hd 0 (map fst ps)) = Ok ps.
Proof.
  intros Hr. revert ps l1. induction fuel as [|f IH]; intros ps l1 Ho HF' Hlen; [lia|].
  destruct ps as [|[x kv] ps]; [done|]. cbn [map fst hd walk].
  apply Forall_cons in HF' as [Hx HF']. cbn [fst snd] in Hx.
  assert (x ∈ elems (fv A)) as Hin. { apply (elem_of_ord d). rewrite Ho, elem_of_app. right. left. }
  apply (facts_range cmp A x (reprT_facts cmp good s A t Hr)) in Hin.
  rewrite (proj2 (Nat.eqb_neq x 0)) by lia.
  rewrite (reprT_value cmp good s A t x kv) by done. bind. cbn [map fst] in Ho.
  rewrite (next_Ok s A t d x l1 (map fst ps)) by done. bind.
  rewrite (IH ps (l1 ++ [x])); [done| |done|cbn in Hlen; lia]. by rewrite <- app_assoc.
Qed.

Lemma iter_Ok s A t d ps :
  reprT s A t -> map fst ps = ord d (elems (fv A)) -> Forall (fun p => vals (fv A) !! fst p = Some (snd p)) ps ->
  flat_iter s d = Ok ps.
Proof.
  intros Hr Hps HF'. unfold flat_iter. rewrite (begin_Ok s A t) by done. bind. rewrite <- Hps.
  apply (walk_Ok s A t d ps []); try done.
  pose proof (reprT_count cmp good s A t Hr) as Hlen. apply (f_equal length) in Hps. rewrite map_length, ord_length in Hps.
  unfold count in Hlen. lia.
Qed.

(** The three traversals of validate. *)
Lemma checks_Ok s A t fuel :
  reprT s A t -> sz s < fuel ->
  subtrees_valid cmp 0 fuel (fun _ => false) (dat s) (wl (tr s)) 0 (wroot (tr s)) 0 = Ok true /\
  recursive_size 0 fuel (wl (tr s)) (wroot (tr s)) = Ok (Z.of_nat (count A)) /\
  storing_parent 0 false fuel (wl (tr s)) 0 (wroot (tr s)) = Ok true.
Proof.
  intros Hr Hfuel. pose proof (reprT_nodes cmp good s A t Hr) as Hn. pose proof (reprT_facts cmp good s A t Hr) as Hf.
  pose proof (reprT_count cmp good s A t Hr) as Hcnt.
  destruct Hr as [_ [(_ & _ & Hsz & -> & He & ->)|Hrdy]].
  - destruct fuel as [|f]; [lia|]. unfold count. rewrite He. done.
  - destruct (ready_rep s A t Hrdy) as (Hroot & Hr & Hnd & _). rewrite Hroot.
    destruct Hrdy as ((_ & _ & Hd & _) & Hsz & _). unfold count in *.
    split_and!.
    + apply (subtrees_valid_Ok 0 cmp Hcmp _ _ _ 0 t); [done| |rewrite Hn; lia|done|by left|by left].
      rewrite Hn. destruct Hf as (Hs & _). by apply (sorted_same cmp Hcmp (vals (fv A))).
    + rewrite <- Hn. apply (recursive_size_Ok 0 _ 0); [done|]. rewrite Hn. lia.
    + apply storing_parent_Ok; [done|]. rewrite Hn. lia.
Qed.

(** ** Clearing *)

Lemma destroy_Ok s ps i fuel :
  map fst ps = seq i (length ps) -> Forall (fun p => dat s !! fst p = Some (snd p)) ps ->
  i + length ps = sz s -> length ps < fuel -> destroy fuel s i = Ok ps.
Proof.
  revert ps i. induction fuel as [|f IH]; intros ps i Hps HF' Hsz Hlen; [lia|]. cbn [destroy].
  destruct ps as [|[x kv] ps]; cbn [length] in *.
  - by rewrite (proj2 (Nat.eqb_eq i (sz s))) by lia.
  - rewrite (proj2 (Nat.eqb_neq i (sz s))) by lia. cbn in Hps. injection Hps as -> Hps.
    apply Forall_cons in HF' as [Hx HF']. cbn in Hx. unfold value. rewrite Hx. bind.
    rewrite (IH ps (S i)); [done|done|done|lia|lia].
Qed.

Lemma cleared_Ok s A t s' :
  ready s A t -> s' = Flat (with_root (tr s) 0) (dat s) 1 (cap s) -> 2 <= cap s ->
  repr s' (with_fv A (View [] ∅)).
Proof.
  intros (((Hc & Ha) & _ & _ & Hg & _) & _) -> H2. exists E. split; [cbn; lia|]. right.
  unfold count. cbn. split_and!; [|done|lia]. split_and!; cbn.
  - split; [done|]. cbn. intros i Hi. by destruct (Ha i Hi).
  - apply facts_empty.
  - by intros x ?%elem_of_nil.
  - by apply (good_clear HT _ t).
  - done.
Qed.

Lemma clear_Ok s A t fn :
  reprT s A t -> used A = true ->
  exists s' l, flat_clear s fn = Ok (s', OK, l) /\ repr s' (with_fv A (View [] ∅)) /\ NoDup l /\
    (forall x kv, (x, kv) ∈ l <-> fn = true /\ x ∈ elems (fv A) /\ vals (fv A) !! x = Some kv).
Proof.
  intros Hr Hu. pose proof (reprT_facts cmp good s A t Hr) as Hf.
  destruct Hr as [Huse [(_ & _ & Hsz & _)|Hrdy]]; [destruct (Huse Hu); lia|]. destruct (Huse Hu) as [_ H2].
  pose proof Hrdy as ((_ & _ & Hd & _) & Hsz & Hle).
  unfold flat_clear, size_set. cbn [set_root set_tr cap]. rewrite (proj2 (Nat.ltb_ge (cap s) 1)) by lia.
  destruct fn.
  - destruct (with_data (vals (fv A)) (seq 1 (count A))) as (ps & Hps & HF').
    { intros x Hx%elem_of_seq. apply (facts_dat cmp A x Hf), (facts_range cmp A x Hf). lia. }
    assert (length ps = count A) as Hlen by (apply (f_equal length) in Hps; by rewrite map_length, seq_length in Hps).
    unfold destroy_all. destruct (cap s) as [|[|n]] eqn:Hcap; [lia|lia|]. rewrite <- Hcap in *.
    rewrite (destroy_Ok s ps 1); [|by rewrite Hlen| |lia|lia].
    + bind. eexists _, ps. split; [done|]. split; [by apply (cleared_Ok s A t)|].
      assert (NoDup (map fst ps)) as Hnd by (rewrite Hps; apply NoDup_seq).
      split; [by apply (NoDup_fmap_1 fst)|]. intros x kv. split.
      * intros Hin. rewrite Forall_forall in HF'. specialize (HF' _ Hin). cbn in HF'. split_and!; [done| |done].
        apply (facts_range cmp A x Hf). assert (x ∈ map fst ps) as Hx by (apply elem_of_list_fmap; by exists (x, kv)).
        rewrite Hps, elem_of_seq in Hx. lia.
      * intros (_ & Hin & Hv). apply (facts_range cmp A x Hf) in Hin.
        assert (x ∈ map fst ps) as Hx by (rewrite Hps, elem_of_seq; lia).
        apply elem_of_list_fmap in Hx as ([y w] & Hy & Hin'). cbn in Hy. subst y.
        rewrite Forall_forall in HF'. specialize (HF' _ Hin'). cbn in HF'. by simplify_eq.
    + apply Forall_forall. intros [x w] Hin. rewrite Forall_forall in HF'. specialize (HF' _ Hin). cbn in *.
      rewrite Hd; [done|]. apply (facts_range cmp A x Hf).
      assert (x ∈ map fst ps) as Hx by (apply elem_of_list_fmap; by exists (x, w)). rewrite Hps, elem_of_seq in Hx. lia.
  - eexists _, []. split; [done|]. split; [by apply (cleared_Ok s A t)|]. split; [constructor|].
    intros x kv. split; [by intros ?%elem_of_nil|by intros [? _]].
Qed.

(** ** Removal *)

Lemma facts_removed A l1 x l2 :
  facts A -> elems (fv A) = l1 ++ x :: l2 -> facts (fremoved A l1 x l2).
Proof.
  intros Hf He. pose proof (facts_NoDup cmp Hcmp A Hf) as Hnd. pose proof (fun y => facts_range cmp A y Hf) as Hrange.
  destruct Hf as (Hs & Hp & Hd). set (n := count A) in *.
  assert (n = S (length (l1 ++ l2))) as Hlen by (unfold n, count; rewrite He, !app_length; cbn; lia).
  assert (x ∈ elems (fv A)) as Hxin by (rewrite He, elem_of_app; right; left).
  assert (forall z, z ∈ l1 ++ l2 -> z ∈ elems (fv A) /\ z <> x) as Hsub.
  { intros z Hz. rewrite He in Hnd. rewrite <- Permutation_middle in Hnd. apply NoDup_cons in Hnd as [Hx _].
    split; [|by intros ->]. rewrite He. rewrite elem_of_app in *. rewrite elem_of_cons. tauto. }
  assert (n ∈ elems (fv A)) as Hnin by (apply Hrange; lia).
  destruct (sorted_dat _ _ _ _ Hs Hnin) as [kn Hkn].
  set (D := delete n (<[x := kn]> (vals (fv A)))).
  assert (forall z, z ∈ l1 ++ l2 -> D !! moved n x z = vals (fv A) !! z) as HD.
  { intros z Hz. destruct (Hsub z Hz) as [Hzin Hzx]. unfold D, moved. destruct (Nat.eqb_spec z n) as [-> |Hzn].
    - rewrite lookup_delete_ne by done. by rewrite lookup_insert.
    - rewrite lookup_delete_ne, lookup_insert_ne by done. done. }
  assert (elems (fv (fremoved A l1 x l2)) = map (moved n x) (l1 ++ l2)) as HE by done.
  assert (vals (fv (fremoved A l1 x l2)) = D) as HV by (unfold fremoved; cbn; fold n; by rewrite Hkn).
  assert (map (moved n x) (l1 ++ l2) ≡ₚ seq 1 (n - 1)) as Hperm.
  { assert (x :: l1 ++ l2 ≡ₚ n :: seq 1 (n - 1)) as Hp'.
    { rewrite Permutation_middle, <- He, Hp. fold n. replace n with (S (n - 1)) at 1 by lia.
      rewrite seq_S. replace (1 + (n - 1)) with n by lia. by rewrite Permutation_app_comm. }
    rewrite He, <- Permutation_middle in Hnd. apply NoDup_cons in Hnd as [_ Hnd].
    destruct (decide (x = n)) as [Hxn|Hxn].
    - rewrite Hxn in *. apply Permutation_cons_inv in Hp'. rewrite <- Hp'.
      assert (map (moved n n) (l1 ++ l2) = l1 ++ l2) as ->; [|done].
      rewrite <- (map_id (l1 ++ l2)) at 2. apply map_ext. intros z. unfold moved. by destruct (Nat.eqb_spec z n).
    - assert (n ∈ l1 ++ l2) as Hn2.
      { assert (n ∈ x :: l1 ++ l2) as Hn' by (rewrite Hp'; left). by apply elem_of_cons in Hn' as [?|?]. }
      apply elem_of_Permutation in Hn2 as [R HR]. rewrite HR in Hp' |- *. rewrite HR in Hnd.
      apply NoDup_cons in Hnd as [HnR _].
      assert (x :: R ≡ₚ seq 1 (n - 1)) as <- by (apply (Permutation_cons_inv (a := n)); rewrite <- Hp'; apply Permutation_swap).
      cbn [map]. unfold moved at 1. rewrite Nat.eqb_refl. f_equiv.
      assert (map (moved n x) R = R) as ->; [|done].
      rewrite <- (map_id R) at 2. apply map_ext_in. intros z Hz. apply elem_of_list_In in Hz.
      unfold moved. destruct (Nat.eqb_spec z n) as [-> |]; done. }
  unfold facts. unfold count. rewrite HE, HV. split_and!.
  - rewrite He in Hs. apply sorted_remove in Hs. destruct Hs as [Hss Hall]. split.
    + assert (forall l, (forall z, z ∈ l -> D !! moved n x z = vals (fv A) !! z) ->
        StronglySorted (klt cmp (vals (fv A))) l -> StronglySorted (klt cmp D) (map (moved n x) l)) as Hmap.
      { clear. intros l Hl Hss. induction Hss as [|y l Hss IH Hy]; cbn [map]; constructor.
        - apply IH. intros z Hz. apply Hl. by right.
        - rewrite Forall_forall in Hy |- *. intros w (z & -> & Hz)%elem_of_list_fmap.
          specialize (Hy z Hz). unfold klt in *. rewrite !Hl by (by left || by right). done. }
      by apply Hmap.
    + rewrite Forall_forall in Hall |- *. intros w (z & -> & Hz)%elem_of_list_fmap. rewrite HD by done. by apply Hall.
  - rewrite map_length. by replace (length (l1 ++ l2)) with (n - 1) by lia.
  - intros z Hz. rewrite Hperm, elem_of_seq. unfold D in Hz.
    destruct (decide (z = n)) as [-> |Hzn]; [rewrite lookup_delete in Hz; by destruct Hz|]. rewrite lookup_delete_ne in Hz by done.
    assert (z ∈ elems (fv A)) as Hzin.
    { destruct (decide (z = x)) as [-> |Hzx]; [done|]. rewrite lookup_insert_ne in Hz by done. by apply Hd. }
    apply Hrange in Hzin. lia.
Qed.

(** What a removal has to leave behind. *)
Lemma popped s A t l1 x l2 s' t' :
  reprT s A t -> elems (fv A) = l1 ++ x :: l2 ->
  sz s' = count A -> cap s' = cap s -> (forall i, alive (tr s) i -> alive (tr s') i) ->
  good (tr s') t' -> nodes t' = map (moved (count A) x) (l1 ++ l2) ->
  (x <> count A -> dat s' !! x = dat s !! count A) ->
  (forall z, z ∉ [0; x; count A] -> dat s' !! z = dat s !! z) ->
  reprT s' (fremoved A l1 x l2) t'.
Proof.
  intros Hr He Hsz Hcap Hal Hg Hn Hx Hz. pose proof (reprT_facts cmp good s A t Hr) as Hf.
  assert (x ∈ elems (fv A)) as Hxin by (rewrite He, elem_of_app; right; left).
  destruct (reprT_born cmp good s A t x Hr Hxin) as (((Hc & Ha) & _ & Hd & _) & Hsz0 & Hle).
  pose proof (facts_removed A l1 x l2 Hf He) as Hf'.
  assert (count (fremoved A l1 x l2) = count A - 1) as Hcnt.
  { unfold count. cbn [fremoved with_fv fv elems]. rewrite map_length, He, !app_length. cbn. lia. }
  pose proof (proj1 (facts_range cmp A x Hf) Hxin) as Hrx.
  assert (count A ∈ elems (fv A)) as Hnin by (apply (facts_range cmp A _ Hf); lia).
  split; [cbn; destruct Hr as [Hu _]; intros ?%Hu; lia|]. right. rewrite Hcnt. split_and!; [|lia|lia].
  split_and!; try done.
  - split; [cbn; lia|]. rewrite Hcap. auto.
  - intros z Hzin. apply (facts_range cmp _ _ Hf') in Hzin. rewrite Hcnt in Hzin.
    cbn [fremoved with_fv fv vals]. destruct (facts_dat cmp A _ Hf Hnin) as [kn Hkn]. rewrite Hkn.
    rewrite lookup_delete_ne by lia. destruct (decide (z = x)) as [-> |Hne].
    + rewrite lookup_insert, Hx, Hd by (done || lia). done.
    + rewrite lookup_insert_ne by done. rewrite Hz, Hd; [done|apply (facts_range cmp A _ Hf); lia|].
      rewrite !elem_of_cons, elem_of_nil. lia.
Qed.

(** ** Steps *)

Context (contains : flat K V -> K -> outcome (flat K V * bool)).
Context (remove : flat K V -> user K V -> outcome (flat K V * fent * cell K V)).
Context (remove_at : flat K V -> nat -> outcome (flat K V * nat)).
Context (range : flat K V -> bool -> K -> K -> outcome (flat K V * option nat * option nat)).
Context (clear : flat K V -> bool -> outcome (flat K V * result * list (nat * (K * V)))).
Context (validate : flat K V -> outcome bool).

Record call_facts : Prop := {
  contract_new : shows_new c = true;
  clear_unused : forall s A t fn, reprT s A t -> clears_unused c fn = true ->
    fn = false /\ exists s', clear s fn = Ok (s', OK, []) /\ repr s' (with_fv A (View [] ∅));
  contains_yes : forall s A t k l1 x l2, reprT s A t -> present_at cmp A k l1 x l2 ->
    exists s', contains s k = Ok (s', true) /\ repr s' A;
  contains_no : forall s A t k l1 l2, reprT s A t -> absent_at cmp A k l1 l2 ->
    asks_empty c = true \/ elems (fv A) <> [] ->
    exists s', contains s k = Ok (s', false) /\ repr s' A;
  remove_no : forall s A t nd kv l1 l2, reprT s A t -> absent_at cmp A (fst kv) l1 l2 ->
    exists s' nd', remove s (nd, kv) = Ok (s', FEnt None false false, (nd', Some kv)) /\ repr s' A;
  remove_yes : forall s A t nd kv l1 x l2 old, reprT s A t -> present_at cmp A (fst kv) l1 x l2 ->
    shown_at A x old ->
    exists s' nd', remove s (nd, kv) =
      Ok (s', FEnt (Some (if writes_handle c then Handle else Slot (count A))) true false,
          (nd', Some (if writes_handle c then old else kv))) /\
      repr s' (fremoved A l1 x l2) /\ dat s' !! count A = Some old;
  remove_at_Ok : forall s A t l1 x l2 old, reprT s A t -> elems (fv A) = l1 ++ x :: l2 -> shown_at A x old ->
    exists s', remove_at s x = Ok (s', count A) /\ repr s' (fremoved A l1 x l2) /\ dat s' !! count A = Some old;
  range_Ok : forall s A t d a b X Y, reprT s A t ->
    first (fun z => keyed cmp (fv A) (dirc (negb d)) a z \/ keyed cmp (fv A) Eq a z) (ord d (elems (fv A))) X ->
    first (keyed cmp (fv A) (dirc (negb d)) b) (ord d (elems (fv A))) Y ->
    exists s', range s d a b = Ok (s', bound A X, bound A Y) /\ repr s' A;
  clear_is : forall s fn s' l, flat_clear s fn = Ok (s', OK, l) -> clear s fn = Ok (s', OK, l);
  validate_Ok : forall s A t, reprT s A t -> validate s = Ok true
}.
Context (HC : call_facts).
Notation step := (flat_step alloc seal find link contains remove remove_at range clear validate).

Lemma value_of s A t x kv : reprT s A t -> shown_at A x kv -> value (dat s) x = Ok kv.
Proof. apply reprT_value. Qed.
Lemma value_put s A t x kv : reprT s (put A x kv) t -> value (dat s) x = Ok kv.
Proof. intros Hr. apply (reprT_value cmp good s _ t x kv Hr). cbn. apply lookup_insert. Qed.
Lemma value_pushed s A l1 l2 kv r : repr s (pushed A l1 l2 kv r) -> value (dat s) (S (count A)) = Ok kv.
Proof. intros [t Hr]. apply (reprT_value cmp good s _ t _ kv Hr). cbn. apply lookup_insert. Qed.

Lemma see_added s A l1 l2 kv ans p A' :
  fadded c A l1 l2 kv ans p A' -> repr s A' -> see s p = Ok (XPtr (ptr_to p kv)).
Proof.
  intros Hadd Hr. destruct p as [n|]; [|done]. apply fadded_allowed in Hadd as (-> & _ & ->).
  cbn [see]. by rewrite (value_pushed s A l1 l2 kv _ Hr).
Qed.
Lemma look_added s A l1 l2 kv ans p A' u :
  fadded c A l1 l2 kv ans p A' -> repr s A' ->
  look s (inserted_ent p) u = Ok (XEnt false (frefused p) (at_slot p kv) (match u with Some c => snd c | None => None end)).
Proof.
  intros Hadd Hr. destruct p as [n|]; [|done]. apply fadded_allowed in Hadd as (-> & _ & ->).
  unfold look. cbn [inserted_ent fp focc ferr]. by rewrite (value_pushed s A l1 l2 kv _ Hr).
Qed.

Lemma present_shown A k l1 x l2 kv : present_at cmp A k l1 x l2 -> shown_at A x kv -> cmp k (fst kv) = Eq.
Proof. intros (_ & w & Hw & Hk) Hs. unfold shown_at in Hs. by simplify_eq. Qed.

Lemma step_Ok s A o r A' :
  repr s A -> fcall cmp c A o r A' ->
  exists s' r', step s o = Ok (s', r') /\ fagree r r' /\ repr s' A'.
Proof.
  intros [t Hr] Hc. destruct Hc; cbn [flat_step].
  - (* contains *) destruct (contains_yes HC s A t k l1 x l2 Hr H0) as (s' & -> & Hr'). bind. by eexists _, _.
  - destruct (contains_no HC s A t k l1 l2 Hr H0 H1) as (s' & -> & Hr'). bind. by eexists _, _.
  - (* get *) unfold flat_get. destruct (find_yes HF s A t k l1 x l2 Hr H0) as (s' & t' & h & -> & Hr' & _). bind.
    cbn [see]. rewrite (value_of s' A t' x kv) by done. bind. eexists _, _. split_and!; [done|done|by exists t'].
  - unfold flat_get. destruct (find_no HF s A t k l1 l2 Hr H0) as (s' & t' & h & -> & Hr' & _). bind.
    cbn [see]. bind. eexists _, _. split_and!; [done|done|by exists t'].
  - (* insert *) unfold flat_insert. cbn [fst snd].
    destruct (find_no HF s A t _ l1 l2 Hr H0) as (s1 & t1 & h & -> & Hr1 & Hh). bind.
    destruct (maybe_alloc_insert_Ok s1 A t1 l1 l2 h nd kv ans p A' Hr1 Hh H0 H1) as (s2 & E2 & Hr2).
    unfold cell_of. cbn [fst snd]. rewrite E2. bind. unfold look.
    destruct p; cbn [fp focc ferr snd]; bind; by eexists _, _.
  - unfold flat_insert. cbn [fst snd].
    destruct (find_yes HF s A t _ l1 x l2 Hr H0) as (s1 & t1 & h & -> & Hr1 & _). bind.
    destruct (exchange_Ok s1 A t1 x old kv Hr1 H1) as (s2 & n & Hex & Hr2).
    { by apply eq_sym_cmp, (present_shown A _ l1 x l2). }
    revert Hex. destruct (read s1 x) as [c1| |]; [|done..]. bind.
    destruct (write s1 0 _) as [s3| |]; [|done..]. bind.
    destruct (read s3 x) as [u2| |]; [|done..]. bind.
    destruct (read s3 0) as [c0| |]; [|done..]. bind.
    destruct (write s3 x c0) as [s4| |]; [|done..]. bind.
    destruct (seal s4) as [s5| |]; [|done..]. bind. intros [= -> ->].
    unfold look. cbn [fp focc ferr snd]. rewrite (value_put s2 A t1 x kv) by done. bind.
    rewrite (contract_new HC). eexists _, _. split_and!; [done|done|by exists t1].
  - (* try_insert *) unfold flat_try_insert. cbn [fst snd].
    destruct (find_no HF s A t _ l1 l2 Hr H0) as (s1 & t1 & h & -> & Hr1 & Hh). bind.
    destruct (maybe_alloc_insert_Ok s1 A t1 l1 l2 h nd kv ans p A' Hr1 Hh H0 H1) as (s2 & E2 & Hr2).
    unfold cell_of. cbn [fst snd]. rewrite E2. bind. rewrite (look_added s2 A l1 l2 kv ans p A') by done. bind.
    by eexists _, _.
  - unfold flat_try_insert. cbn [fst snd].
    destruct (find_yes HF s A t _ l1 x l2 Hr H0) as (s1 & t1 & h & -> & Hr1 & _). bind.
    unfold look. cbn [fp focc ferr]. rewrite (value_of s1 A t1 x old) by done. bind.
    eexists _, _. split_and!; [done|done|by exists t1].
  - (* insert_or_assign *) unfold flat_insert_or_assign. cbn [fst snd].
    destruct (find_no HF s A t _ l1 l2 Hr H0) as (s1 & t1 & h & -> & Hr1 & Hh). bind.
    destruct (maybe_alloc_insert_Ok s1 A t1 l1 l2 h nd kv ans p A' Hr1 Hh H0 H1) as (s2 & E2 & Hr2).
    unfold cell_of. cbn [fst snd]. rewrite E2. bind. rewrite (look_added s2 A l1 l2 kv ans p A') by done. bind.
    by eexists _, _.
  - unfold flat_insert_or_assign. cbn [fst snd].
    destruct (find_yes HF s A t _ l1 x l2 Hr H0) as (s1 & t1 & h & -> & Hr1 & _). bind.
    destruct (present_dat A _ _ _ _ H0) as (old & Hold & Hk).
    destruct (overwrite_Ok s1 A t1 x old nd kv Hr1 Hold) as (s2 & nd' & -> & Hr2); [by apply eq_sym_cmp|]. bind.
    unfold look. cbn [fp focc ferr snd]. rewrite (value_put s2 A t1 x kv) by done. bind.
    eexists _, _. split_and!; [done|done|by exists t1].
  - (* remove *) destruct (remove_no HC s A t nd kv l1 l2 Hr H0) as (s' & nd' & -> & Hr'). bind.
    unfold look. cbn [fp focc ferr snd]. bind. by eexists _, _.
  - destruct (remove_yes HC s A t nd kv l1 x l2 old Hr H0 H1) as (s' & nd' & -> & Hr' & Hd). bind.
    unfold look. cbn [fp focc ferr snd]. destruct (writes_handle c); bind; [by eexists _, _|].
    unfold value. rewrite Hd. bind. by eexists _, _.
  - (* entry *) unfold flat_entry. destruct (find_yes HF s A t _ l1 x l2 Hr H0) as (s1 & t1 & h & -> & Hr1 & _). bind.
    unfold tlook, look. cbn [te fp focc ferr]. rewrite (value_of s1 A t1 x kv) by done. bind.
    eexists _, _. split_and!; [done|done|by exists t1].
  - unfold flat_entry. destruct (find_no HF s A t _ l1 l2 Hr H0) as (s1 & t1 & h & -> & Hr1 & Hh). bind.
    unfold tlook, look. cbn [te fp focc ferr]. bind. eexists _, _. split_and!; [done|done|by exists t1].
  - (* or_insert *) unfold flat_entry.
    destruct (find_no HF s A t _ l1 l2 Hr H1) as (s1 & t1 & h & -> & Hr1 & Hh). bind.
    unfold flat_or_insert. cbn [te hint]. apply (absent_key cmp Hcmp _ _ _ _ _ H0) in H1.
    destruct (maybe_alloc_insert_Ok s1 A t1 l1 l2 h nd kv ans p A' Hr1 Hh H1 H2) as (s2 & E2 & Hr2).
    unfold cell_of. cbn [fst snd]. rewrite E2. bind. rewrite (see_added s2 A l1 l2 kv ans p A') by done. bind.
    by eexists _, _.
  - unfold flat_entry. destruct (find_yes HF s A t _ l1 x l2 Hr H0) as (s1 & t1 & h & -> & Hr1 & _). bind.
    unfold flat_or_insert. cbn [te hint]. bind. cbn [see]. rewrite (value_of s1 A t1 x kv) by done. bind.
    eexists _, _. split_and!; [done|done|by exists t1].
  - (* insert_entry *) unfold flat_entry.
    destruct (find_no HF s A t _ l1 l2 Hr H1) as (s1 & t1 & h & -> & Hr1 & Hh). bind.
    unfold flat_insert_entry. cbn [te hint]. apply (absent_key cmp Hcmp _ _ _ _ _ H0) in H1.
    destruct (maybe_alloc_insert_Ok s1 A t1 l1 l2 h nd kv ans p A' Hr1 Hh H1 H2) as (s2 & E2 & Hr2).
    unfold cell_of. cbn [fst snd]. rewrite E2. bind. rewrite (see_added s2 A l1 l2 kv ans p A') by done. bind.
    by eexists _, _.
  - unfold flat_entry. destruct (find_yes HF s A t _ l1 x l2 Hr H1) as (s1 & t1 & h & -> & Hr1 & _). bind.
    unfold flat_insert_entry. cbn [te hint]. destruct (present_dat A _ _ _ _ H1) as (old & Hold & Hk).
    destruct (overwrite_Ok s1 A t1 x old nd kv Hr1 Hold) as (s2 & nd' & -> & Hr2).
    { rewrite <- (cmp_eq_l cmp Hcmp k (fst old)) by done. done. }
    bind. cbn [see]. rewrite (value_put s2 A t1 x kv) by done. bind.
    eexists _, _. split_and!; [done|done|by exists t1].
  - (* and_modify *) unfold flat_entry.
    destruct (find_yes HF s A t _ l1 x l2 Hr H0) as (s1 & t1 & h & -> & Hr1 & _). bind.
    unfold flat_and_modify. cbn [te hint]. rewrite (value_of s1 A t1 x kv) by done. bind.
    pose proof (modify_Ok s1 A t1 x kv (f (snd kv)) Hr1 H1) as Hr2. cbn [see].
    rewrite (value_put _ A t1 x _ Hr2). bind. eexists _, _. split_and!; [done|done|by exists t1].
  - unfold flat_entry. destruct (find_no HF s A t _ l1 l2 Hr H0) as (s1 & t1 & h & -> & Hr1 & Hh). bind.
    unfold flat_and_modify. cbn [te hint]. bind. cbn [see]. bind. eexists _, _. split_and!; [done|done|by exists t1].
  - (* remove_entry *) unfold flat_entry.
    destruct (find_yes HF s A t _ l1 x l2 Hr H0) as (s1 & t1 & h & -> & Hr1 & _). bind.
    unfold flat_remove_entry. cbn [te hint]. pose proof H0 as (He & _).
    destruct (remove_at_Ok HC s1 A t1 l1 x l2 old Hr1 He H1) as (s2 & -> & Hr2 & Hd). bind.
    unfold look. cbn [fp focc ferr]. unfold value. rewrite Hd. bind. by eexists _, _.
  - unfold flat_entry. destruct (find_no HF s A t _ l1 l2 Hr H0) as (s1 & t1 & h & -> & Hr1 & Hh). bind.
    unfold flat_remove_entry. cbn [te hint]. bind. unfold look. cbn [fp focc ferr]. bind.
    eexists _, _. split_and!; [done|done|by exists t1].
  - (* or_insert_w *) unfold flat_entry.
    destruct (find_no HF s A t _ l1 l2 Hr H1) as (s1 & t1 & h & -> & Hr1 & Hh). bind.
    unfold flat_or_insert_w. cbn [te hint]. apply (absent_key cmp Hcmp _ _ _ _ _ H0) in H1.
    destruct (literal_insert_Ok s1 A t1 l1 l2 h nd kv ans p A' Hr1 Hh H1 H2) as (s2 & E2 & Hr2).
    unfold cell_of. cbn [fst snd]. rewrite E2. bind. rewrite (see_added s2 A l1 l2 kv ans p A') by done. bind.
    by eexists _, _.
  - unfold flat_entry. destruct (find_yes HF s A t _ l1 x l2 Hr H0) as (s1 & t1 & h & -> & Hr1 & _). bind.
    unfold flat_or_insert_w. cbn [te hint]. bind. cbn [see]. rewrite (value_of s1 A t1 x kv) by done. bind.
    eexists _, _. split_and!; [done|done|by exists t1].
  - (* insert_entry_w *) unfold flat_entry.
    destruct (find_no HF s A t _ l1 l2 Hr H1) as (s1 & t1 & h & -> & Hr1 & Hh). bind.
    unfold flat_insert_entry_w. cbn [te hint]. apply (absent_key cmp Hcmp _ _ _ _ _ H0) in H1.
    destruct (literal_insert_Ok s1 A t1 l1 l2 h nd kv ans p A' Hr1 Hh H1 H2) as (s2 & E2 & Hr2).
    unfold cell_of. cbn [fst snd]. rewrite E2. bind. rewrite (see_added s2 A l1 l2 kv ans p A') by done. bind.
    by eexists _, _.
  - unfold flat_entry. destruct (find_yes HF s A t _ l1 x l2 Hr H1) as (s1 & t1 & h & -> & Hr1 & _). bind.
    unfold flat_insert_entry_w. cbn [te hint]. destruct (present_dat A _ _ _ _ H1) as (old & Hold & Hk).
    unfold cell_of. cbn [fst snd].
    destruct (literal_overwrite_Ok s1 A t1 x old nd kv Hr1 Hold) as (s2 & -> & Hr2).
    { rewrite <- (cmp_eq_l cmp Hcmp k (fst old)) by done. done. }
    bind. cbn [see]. rewrite (value_put s2 A t1 x kv) by done. bind.
    eexists _, _. split_and!; [done|done|by exists t1].
  - (* try_insert_w *) unfold flat_try_insert_w, flat_entry.
    destruct (find_no HF s A t _ l1 l2 Hr H0) as (s1 & t1 & h & -> & Hr1 & Hh). bind. cbn [te hint].
    destruct (literal_insert_Ok s1 A t1 l1 l2 h nd (k, v) ans p A' Hr1 Hh H0 H1) as (s2 & E2 & Hr2).
    unfold keyed_cell. cbn [fst snd]. rewrite E2. bind. rewrite (look_added s2 A l1 l2 (k, v) ans p A') by done. bind.
    by eexists _, _.
  - unfold flat_try_insert_w, flat_entry.
    destruct (find_yes HF s A t _ l1 x l2 Hr H0) as (s1 & t1 & h & -> & Hr1 & _). bind. cbn [te hint]. bind.
    unfold look. cbn [fp focc ferr]. rewrite (value_of s1 A t1 x kv) by done. bind.
    eexists _, _. split_and!; [done|done|by exists t1].
  - (* insert_or_assign_w *) unfold flat_insert_or_assign_w, flat_entry.
    destruct (find_no HF s A t _ l1 l2 Hr H0) as (s1 & t1 & h & -> & Hr1 & Hh). bind. cbn [te hint].
    destruct (literal_insert_Ok s1 A t1 l1 l2 h nd (k, v) ans p A' Hr1 Hh H0 H1) as (s2 & E2 & Hr2).
    unfold keyed_cell. cbn [fst snd]. rewrite E2. bind. rewrite (look_added s2 A l1 l2 (k, v) ans p A') by done. bind.
    by eexists _, _.
  - unfold flat_insert_or_assign_w, flat_entry.
    destruct (find_yes HF s A t _ l1 x l2 Hr H0) as (s1 & t1 & h & -> & Hr1 & _). bind. cbn [te hint].
    destruct (present_dat A _ _ _ _ H0) as (old & Hold & Hk). unfold keyed_cell. cbn [fst snd].
    destruct (literal_overwrite_Ok s1 A t1 x old nd (k, v) Hr1 Hold) as (s2 & -> & Hr2); [by apply eq_sym_cmp|].
    bind. unfold look. cbn [fp focc ferr]. rewrite (value_put s2 A t1 x (k, v)) by done. bind.
    eexists _, _. split_and!; [done|done|by exists t1].
  - (* begin *) rewrite (begin_Ok s A t true Hr). bind. eexists _, _. split_and!; [done|done|by exists t].
  - rewrite (begin_Ok s A t false Hr). bind. eexists _, _. split_and!; [done|done|by exists t].
  - rewrite (next_Ok s A t true e l1 l2 Hr H0). bind. eexists _, _. split_and!; [done|done|by exists t].
  - rewrite (next_Ok s A t false e (rev l2) (rev l1) Hr).
    + bind. eexists _, _. split_and!; [done|done|by exists t].
    + cbn [ord]. rewrite H0, rev_app_distr. cbn [rev]. by rewrite <- app_assoc.
  - (* ranges *) destruct (range_Ok HC s A t true a b x y Hr H0 H1) as (s' & -> & Hr'). bind. by eexists _, _.
  - destruct (range_Ok HC s A t false a b x y Hr H0 H1) as (s' & -> & Hr'). bind. by eexists _, _.
  - (* clear *) destruct H0 as [Hu|Hu].
    { destruct (clear_unused HC s A t fn Hr Hu) as (-> & s' & -> & Hr'). bind. eexists _, _. split_and!; [done| |done].
      split; [done|]. destruct ps as [|[x kv] ps]; [done|]. destruct (proj1 (H1 x kv)) as [? _]; [left|done]. }
    destruct (clear_Ok s A t fn Hr Hu) as (s' & l & Hcl & Hr' & Hnd & Hl). rewrite (clear_is HC _ _ _ _ Hcl). bind.
    eexists _, _. split_and!; [done| |done]. split; [done|]. apply NoDup_Permutation; [done|done|].
    intros [x kv]. by rewrite H1, Hl.
  - (* size *) unfold flat_size. rewrite (reprT_count cmp good s A t Hr). eexists _, _. split_and!; [done|done|by exists t].
  - unfold flat_capacity. destruct (reprT_slots cmp good s A t Hr) as [-> _].
    eexists _, _. split_and!; [done|done|by exists t].
  - unfold flat_is_empty, flat_size. rewrite (reprT_count cmp good s A t Hr).
    eexists _, _. split_and!; [done|done|by exists t].
  - (* validate *) rewrite (validate_Ok HC s A t Hr). bind. eexists _, _. split_and!; [done|done|by exists t].
Qed.

Lemma run_Ok s A os rs A' :
  repr s A -> fcalls cmp c A os rs A' ->
  exists s' rs', flat_run alloc seal find link contains remove remove_at range clear validate s os = Ok (s', rs') /\
    Forall2 fagree rs rs' /\ repr s' A'.
Proof.
  intros Hr Hcs. revert s Hr. induction Hcs as [A|A o r A1 os rs A2 Hc Hcs IH]; intros s Hr.
  - exists s, []. split_and!; [done|constructor|done].
  - destruct (step_Ok s A o r A1 Hr Hc) as (s1 & r' & Hs & Hag & Hr1).
    destruct (IH s1 Hr1) as (s2 & rs' & Hrun & Hags & Hr2).
    exists s2, (r' :: rs'). cbn [flat_run]. rewrite Hs. bind. rewrite Hrun. bind. split_and!; [done|by constructor|done].
Qed.

Lemma shows_Ok s A :
  repr s A -> fshown A (flat_size s) (flat_capacity s) (flat_iter s true) (flat_iter s false) (validate s).
Proof.
  intros [t Hr]. pose proof (reprT_facts cmp good s A t Hr) as Hf. split_and!.
  - by apply (reprT_count cmp good s A t).
  - by destruct (reprT_slots cmp good s A t Hr).
  - by apply (validate_Ok HC s A t).
  - destruct (with_data (vals (fv A)) (elems (fv A))) as (ps & Hps & HF'). { intros x. by apply (facts_dat cmp). }
    exists ps. split_and!; [done|done| |].
    + by apply (iter_Ok s A t true).
    + apply (iter_Ok s A t false); [done| |by apply Forall_rev]. by rewrite map_rev, Hps.
Qed.
End calls.
