(** Proofs about the double ended queue model. *)
From stdpp Require Import base numbers option list list_numbers.
From Verif Require Import Common BufferModel ArrayLemmas FdeqModel FdeqSpec.

Section proofs.
Context {A : Type}.
Implicit Types (d : fdeq A) (q : deq A) (s : slots A) (l vs : list A).

(** [s], read as a ring from [f], starts with the elements [l]. *)
Definition ring s (f : nat) l : Prop :=
  length l <= length s /\ (f < length s \/ (length s = 0 /\ f = 0)) /\
  forall i x, l !! i = Some x -> s !! ((f + i) mod length s) = Some (Some x).

Definition rep d q : Prop :=
  ring (d_slots d) (d_front d) (q_list q) /\ d_sz d = length (q_list q) /\
  length (d_slots d) = q_cap q /\ d_alloc d = q_grow q.

Ltac dd := repeat match goal with
  | H : context [decide ?P] |- _ => destruct (decide P); try lia
  | |- context [decide ?P] => destruct (decide P); try lia
  end.
Ltac nb :=
  repeat match goal with
  | |- context [?x <=? ?y] => destruct (Nat.leb_spec x y); try lia
  | |- context [?x <? ?y] => destruct (Nat.ltb_spec x y); try lia
  | |- context [?x =? ?y] => destruct (Nat.eqb_spec x y); try lia
  end.

Ltac nbi := dd;
  repeat match goal with
  | |- context [?x <? ?y] => destruct (Nat.ltb_spec x y); try lia
  end;
  repeat match goal with
  | |- context [?x =? ?y] => destruct (Nat.eqb_spec x y); try lia
  | |- context [?x <=? ?y] => destruct (Nat.leb_spec x y); try lia
  end; try done.

Ltac dsimp := unfold with_slots, with_front, with_size in *; unfold d_sz, d_slots, d_alloc, d_cap, b_cap, with_slots,
  with_front, with_size in *; cbn [d_buf d_front b_slots b_sz b_alloc] in *.

Lemma d_cap_length d : d_cap d = length (d_slots d).
Proof. done. Qed.

Lemma slot_get_Ok {X} (l : list X) i x : l !! i = Some x -> slot_get l i = Ok x.
Proof. unfold slot_get. by intros ->. Qed.
Lemma slot_set_Ok {X} (l : list X) i x : i < length l -> slot_set l i x = Ok (<[i:=x]> l).
Proof.
  intros H. unfold slot_set.
  destruct (Nat.ltb_spec i (length l)); [done|lia].
Qed.
Lemma omod_Ok x c : 0 < c -> omod x c = Ok (x mod c).
Proof. intros. unfold omod. nb. done. Qed.

Lemma ring_nil s f : f < length s \/ (length s = 0 /\ f = 0) -> ring s f [].
Proof. intros H. split; [simpl; lia|]. split; [done|]. intros i x. by rewrite lookup_nil. Qed.

(** Unrolling into fresh memory. *)
Lemma unroll_Ok d l (mem : slots A) :
  ring (d_slots d) (d_front d) l -> d_sz d = length l -> length l <= length mem ->
  exists m, unroll d mem = Ok m /\ length m = length mem /\
    forall i x, l !! i = Some x -> m !! i = Some (Some x).
Proof.
  intros (Hle & Hf & Hat) Hsz Hm. unfold unroll.
  change (d_cap d) with (length (d_slots d)).
  set (c := length (d_slots d)) in *. rewrite Hsz.
  set (fc := length l `min` (c - d_front d)).
  destruct (copy_out_Ok (d_slots d) (d_front d) fc) as (c1 & -> & Hl1 & H1).
  { fold c. lia. }
  simpl. destruct (copy_in_Ok mem 0 c1) as (m1 & -> & Hlm1 & Hin & Hout); [lia|].
  simpl.
  assert (Hfirst : forall i x, i < fc -> l !! i = Some x -> m1 !! i = Some (Some x)).
  { intros i x Hi Hx. rewrite Hin by lia. rewrite Nat.sub_0_r, H1 by lia.
    rewrite <- (Hat _ _ Hx). f_equal. rewrite ring_mod by lia. dd; lia. }
  destruct (Nat.ltb_spec fc (length l)).
  - destruct (copy_out_Ok (d_slots d) 0 (length l - fc)) as (c2 & -> & Hl2 & H2).
    { fold c. lia. }
    simpl. destruct (copy_in_Ok m1 fc c2) as (m2 & -> & Hlm2 & Hin2 & Hout2); [lia|].
    eexists. split; [done|]. split; [lia|]. intros i x Hx.
    pose proof (lookup_lt_Some _ _ _ Hx).
    destruct (decide (i < fc)).
    + rewrite Hout2 by lia. eauto.
    + rewrite Hin2 by lia. rewrite H2 by lia. rewrite <- (Hat _ _ Hx).
      f_equal. rewrite ring_mod by lia. dd; lia.
  - eexists. split; [done|]. split; [done|]. intros i x Hx.
    pose proof (lookup_lt_Some _ _ _ Hx). apply Hfirst; [lia|done].
Qed.

Lemma ring_flat (m : slots A) l : length l <= length m ->
  (forall i x, l !! i = Some x -> m !! i = Some (Some x)) -> ring m 0 l.
Proof.
  intros Hle H. split; [done|]. split; [lia|]. intros i x Hx. simpl.
  pose proof (lookup_lt_Some _ _ _ Hx).
  rewrite Nat.mod_small by lia. eauto.
Qed.

(** maybe_resize: what it leaves, whatever the allocator answers. *)
Lemma maybe_resize_Ok d q k ok :
  rep d q -> (q_grow q = false -> q_cap q <> 0) ->
  exists d1 r, maybe_resize d k ok = Ok (d1, r) /\
    match deq_room q k ok with
    | None => d1 = d /\ r = MEM_ERR /\ q_grow q = true
    | Some c => rep d1 (Deq (q_list q) c (q_grow q)) /\ 0 < c /\
        (is_ok r = false -> q_grow q = false /\ d1 = d /\ c = q_cap q
            /\ q_cap q <= length (q_list q) + k) /\
        (is_ok r = true -> length (q_list q) + k < q_cap q \/ q_grow q = true)
    end.
Proof.
  intros Hrep Hz. pose proof Hrep as (Hring & Hsz & Hcap & Hal).
  unfold maybe_resize, deq_room. rewrite Hsz, Hal.
  change (d_cap d) with (length (d_slots d)). rewrite Hcap.
  destruct (decide (length (q_list q) + k < q_cap q)).
  { nb. eexists _, _. split; [done|].
    split; [done|]. split; [lia|]. split; [done|]. auto. }
  destruct (Nat.ltb_spec (length (q_list q) + k) (q_cap q)); [lia|].
  destruct (q_grow q) eqn:Eg; simpl.
  2: { eexists _, _. split; [done|]. split; [|split; [|split]].
       - split_and!; done.
       - specialize (Hz eq_refl). lia.
       - intros _. auto.
       - done. }
  destruct ok; simpl.
  2: { eexists _, _. split; [done|]. done. }
  destruct Hring as (Hlen & Hf & Hat).
  assert (Hgo : forall nc, length (q_list q) <= nc -> 0 < nc ->
    exists m, (if length (q_list q) =? 0 then Ok (replicate nc None)
               else unroll d (replicate nc None)) = Ok m /\
              length m = nc /\ ring m 0 (q_list q)).
  { intros nc Hnc Hpos. destruct (Nat.eqb_spec (length (q_list q)) 0) as [E|E].
    - eexists. split; [done|]. rewrite replicate_length. split; [done|].
      apply nil_length_inv in E. rewrite E. apply ring_nil.
      rewrite replicate_length. lia.
    - destruct (unroll_Ok d (q_list q) (replicate nc None)) as (m & Hm & Hl & Hx).
      + done.
      + done.
      + rewrite replicate_length. done.
      + rewrite replicate_length in Hl. exists m. split; [done|]. split; [done|].
        apply ring_flat; [lia|done]. }
  destruct (Hgo (if q_cap q =? 0 then start_capacity else (q_cap q + k) * 2))
    as (m & Hm & Hlm & Hr).
  { unfold start_capacity. rewrite Hcap in Hlen. nb. }
  { unfold start_capacity. nb. }
  rewrite Hm. simpl. eexists _, _. split; [done|].
  split; [|split; [|split]].
  - split_and!; simpl; try done.
    cbn. rewrite Hlm. unfold start_capacity. destruct (q_cap q); done.
  - destruct (q_cap q); lia.
  - done.
  - auto.
Qed.

(** Writing one slot just past the back, or just before the front. *)
Lemma ring_push_back s f l x :
  ring s f l -> length l < length s ->
  ring (<[(f + length l) mod length s := Some x]> s) f (l ++ [x]).
Proof.
  intros (Hle & Hf & Hat) Hlt. split; [|split].
  - rewrite insert_length, app_length. simpl. lia.
  - by rewrite insert_length.
  - intros i y Hy. rewrite insert_length.
    pose proof (lookup_lt_Some _ _ _ Hy) as Hi. rewrite app_length in Hi; simpl in Hi.
    destruct (decide (i = length l)) as [->|].
    + rewrite list_lookup_middle in Hy by done. injection Hy as ->.
      apply list_lookup_insert. apply Nat.mod_upper_bound. lia.
    + rewrite lookup_app_l in Hy by lia.
      rewrite list_lookup_insert_ne; [by apply Hat|].
      rewrite !ring_mod by lia. dd; lia.
Qed.

Lemma ring_push_back_full s f l x :
  ring s f l -> length l = length s -> 0 < length s ->
  ring (<[(f + length l) mod length s := Some x]> s)
       (if f =? length s - 1 then 0 else f + 1) (drop 1 l ++ [x]).
Proof.
  intros (Hle & Hf & Hat) Heq Hpos. split; [|split].
  - rewrite insert_length, app_length, drop_length. simpl. lia.
  - rewrite insert_length. nb.
  - intros i y Hy. rewrite insert_length.
    pose proof (lookup_lt_Some _ _ _ Hy) as Hi.
    rewrite app_length, drop_length in Hi; simpl in Hi.
    destruct (decide (i = length l - 1)) as [->|].
    + rewrite lookup_app_r in Hy by (rewrite drop_length; lia).
      rewrite drop_length, Nat.sub_diag in Hy. injection Hy as ->.
      replace ((_ + (length l - 1)) mod length s) with ((f + length l) mod length s).
      { apply list_lookup_insert. apply Nat.mod_upper_bound. lia. }
      rewrite (ring_mod f) by lia. rewrite ring_mod by (nb; lia). nb; dd; lia.
    + rewrite lookup_app_l in Hy by (rewrite drop_length; lia).
      rewrite lookup_drop in Hy.
      pose proof (Hat _ _ Hy) as Ha.
      assert (((if f =? length s - 1 then 0 else f + 1) + i) mod length s
              = (f + (1 + i)) mod length s) as E.
      { rewrite (ring_mod f) by lia. rewrite ring_mod by (nb; lia). nb; dd; lia. }
      rewrite E.
      rewrite list_lookup_insert_ne; [done|].
      rewrite !ring_mod by lia. dd; lia.
Qed.

Lemma ring_push_front s f l x n :
  ring s f l -> 0 < length s -> n < length s -> n <= length l ->
  ring (<[front_free_slot f (length s) := Some x]> s)
       (front_free_slot f (length s)) (x :: take n l).
Proof.
  intros (Hle & Hf & Hat) Hpos Hn Hnl.
  assert (Hff : front_free_slot f (length s) < length s).
  { unfold front_free_slot. destruct f; lia. }
  split; [|split].
  - rewrite insert_length. simpl. rewrite take_length. lia.
  - rewrite insert_length. lia.
  - intros i y Hy. rewrite insert_length. destruct i as [|i].
    + injection Hy as ->. rewrite Nat.add_0_r, Nat.mod_small by done.
      by apply list_lookup_insert.
    + simpl in Hy. pose proof (lookup_lt_Some _ _ _ Hy) as Hi.
      rewrite take_length in Hi. rewrite lookup_take in Hy by lia.
      pose proof (Hat _ _ Hy) as Ha.
      assert ((front_free_slot f (length s) + S i) mod length s = (f + i) mod length s) as E.
      { rewrite (ring_mod f) by lia. rewrite ring_mod by lia.
        unfold front_free_slot. destruct f; dd; lia. }
      rewrite E. rewrite list_lookup_insert_ne; [done|].
      rewrite ring_mod by lia. unfold front_free_slot. destruct f; dd; lia.
Qed.

Lemma lastn_id c l : length l <= c -> lastn c l = l.
Proof. intros. unfold lastn. by replace (length l - c) with 0 by lia. Qed.

Lemma deref_Ok d i x : d_slots d !! i = Some (Some x) ->
  deref d (Some i) = Ok (DVal (Some x)).
Proof. intros H. unfold deref. by rewrite (slot_get_Ok _ _ _ H). Qed.

Lemma is_ok_full r : negb (is_ok r) = true -> is_ok r = false.
Proof. by destruct (is_ok r). Qed.

Lemma push_back_refines d q x ok :
  rep d q -> (q_grow q = false -> q_cap q <> 0) ->
  exists d' r, fdeq_push_back d x ok = Ok (d', r) /\
  match deq_room q 0 ok with
  | None => d' = d /\ r = None
  | Some c => deref d' r = Ok (DVal (Some x)) /\
      rep d' (Deq (if q_grow q then q_list q ++ [x] else lastn c (q_list q ++ [x])) c (q_grow q))
  end.
Proof.
  intros Hrep Hz. destruct (maybe_resize_Ok d q 0 ok Hrep Hz) as (d1 & r & E & Hpost).
  unfold fdeq_push_back, alloc_back. rewrite E. simpl.
  destruct (deq_room q 0 ok) as [c|] eqn:Er.
  2: { destruct Hpost as (-> & -> & Hg). destruct Hrep as (_&_&_&->).
       rewrite Hg. simpl. eauto. }
  destruct Hpost as (Hrep1 & Hpos & Hfull & Hok).
  destruct Hrep1 as (Hring & Hsz & Hcap & Hal). simpl in *.
  rewrite Hal.
  assert (Hc : q_grow q && negb (is_ok r) = false).
  { destruct (is_ok r); [by rewrite andb_false_r|]. destruct Hfull as (->&_); done. }
  rewrite Hc. unfold back_free_slot.
  change (d_cap d1) with (length (d_slots d1)) in *.
  rewrite omod_Ok by lia. simpl.
  set (p := (d_front d1 + d_sz d1) mod length (d_slots d1)).
  assert (Hp : p < length (d_slots d1)) by (apply Nat.mod_upper_bound; lia).
  assert (Hat : buf_at (d_buf d1) p = Some p).
  { unfold buf_at. change (b_cap (d_buf d1)) with (length (d_slots d1)). nb. done. }
  rewrite Hat.
  assert (Hd : forall f sz, deref (Fdeq (Buf (<[p:=Some x]> (d_slots d1)) sz (d_alloc d1)) f) (Some p)
     = Ok (DVal (Some x))).
  { intros. apply deref_Ok. simpl. by apply list_lookup_insert. }
  destruct (is_ok r) eqn:Eok; simpl.
  - rewrite slot_set_Ok by (cbn; done). simpl.
    eexists _, _. split; [done|]. split; [apply Hd|].
    assert (Hlt : length (q_list q) < length (d_slots d1)).
    { destruct (Hok eq_refl) as [H|H].
      - rewrite Hcap. unfold deq_room in Er. dd. injection Er as <-. lia.
      - unfold deq_room in Er. destruct Hrep as ((?&_&_)&Hs0&Hcap0&_).
        dd; [injection Er as <-; lia|].
        rewrite H in Er. simpl in Er. destruct ok; [|done].
        injection Er as <-. rewrite Hcap. rewrite Hcap0 in *. destruct (q_cap q); lia. }
    split_and!; simpl.
    + assert (Heq : (if q_grow q then q_list q ++ [x] else lastn c (q_list q ++ [x])) = q_list q ++ [x]).
      { destruct (q_grow q); [done|]. apply lastn_id. rewrite app_length; simpl. lia. }
      rewrite Heq. subst p. rewrite Hsz. by apply ring_push_back.
    + assert (Heq : (if q_grow q then q_list q ++ [x] else lastn c (q_list q ++ [x])) = q_list q ++ [x]).
      { destruct (q_grow q); [done|]. apply lastn_id. rewrite app_length; simpl. lia. }
      rewrite Heq, app_length. dsimp. simpl. lia.
    + dsimp. rewrite insert_length. done.
    + dsimp. done.
  - destruct (Hfull eq_refl) as (Hg & -> & -> & Hge). rewrite Hg in *.
    rewrite slot_set_Ok by (cbn; done). simpl.
    eexists _, _. split; [done|]. split; [apply Hd|].
    assert (Hlen : length (q_list q) = length (d_slots d)).
    { destruct Hring as (?&_). lia. }
    split_and!; simpl.
    + replace (lastn (q_cap q) (q_list q ++ [x])) with (drop 1 (q_list q) ++ [x]).
      2: { unfold lastn. rewrite app_length. simpl.
           replace (length (q_list q) + 1 - q_cap q) with 1 by lia.
           destruct (q_list q) eqn:El; simpl in *; [lia|done]. }
      subst p. rewrite Hsz. refine (ring_push_back_full (d_slots d) (d_front d) (q_list q) x Hring Hlen _). lia.
    + unfold lastn. rewrite drop_length, app_length. dsimp. simpl. lia.
    + dsimp. rewrite insert_length. done.
    + dsimp. done.
Qed.

Lemma push_front_refines d q x ok :
  rep d q -> (q_grow q = false -> q_cap q <> 0) ->
  exists d' r, fdeq_push_front d x ok = Ok (d', r) /\
  match deq_room q 0 ok with
  | None => d' = d /\ r = None
  | Some c => deref d' r = Ok (DVal (Some x)) /\
      rep d' (Deq (if q_grow q then x :: q_list q else take c (x :: q_list q)) c (q_grow q))
  end.
Proof.
  intros Hrep Hz. destruct (maybe_resize_Ok d q 0 ok Hrep Hz) as (d1 & r & E & Hpost).
  unfold fdeq_push_front, alloc_front. rewrite E. simpl.
  destruct (deq_room q 0 ok) as [c|] eqn:Er.
  2: { destruct Hpost as (-> & -> & Hg). destruct Hrep as (_&_&_&->).
       rewrite Hg. simpl. eauto. }
  destruct Hpost as (Hrep1 & Hpos & Hfull & Hok).
  destruct Hrep1 as (Hring & Hsz & Hcap & Hal). simpl in *.
  rewrite Hal.
  assert (Hc : q_grow q && negb (is_ok r) = false).
  { destruct (is_ok r); [by rewrite andb_false_r|]. destruct Hfull as (->&_); done. }
  rewrite Hc.
  change (d_cap d1) with (length (d_slots d1)) in *.
  destruct (Nat.eqb_spec (length (d_slots d1)) 0); [lia|].
  set (p := front_free_slot (d_front d1) (length (d_slots d1))).
  assert (Hp : p < length (d_slots d1)).
  { subst p. unfold front_free_slot. destruct Hring as (_&?&_). destruct (d_front d1); lia. }
  assert (Hat : buf_at (d_buf d1) p = Some p).
  { unfold buf_at. change (b_cap (d_buf d1)) with (length (d_slots d1)). nb. done. }
  rewrite Hat.
  assert (Hd : forall f sz, deref (Fdeq (Buf (<[p:=Some x]> (d_slots d1)) sz (d_alloc d1)) f) (Some p)
     = Ok (DVal (Some x))).
  { intros. apply deref_Ok. simpl. by apply list_lookup_insert. }
  destruct (is_ok r) eqn:Eok; simpl.
  - rewrite slot_set_Ok by (cbn; done). simpl.
    eexists _, _. split; [done|]. split; [apply Hd|].
    assert (Hlt : length (q_list q) < length (d_slots d1)).
    { destruct (Hok eq_refl) as [H|H].
      - rewrite Hcap. unfold deq_room in Er. dd. injection Er as <-. lia.
      - unfold deq_room in Er. destruct Hrep as ((?&_&_)&Hs0&Hcap0&_).
        dd; [injection Er as <-; lia|].
        rewrite H in Er. simpl in Er. destruct ok; [|done].
        injection Er as <-. rewrite Hcap. rewrite Hcap0 in *. destruct (q_cap q); lia. }
    assert (Heq : (if q_grow q then x :: q_list q else take c (x :: q_list q)) = x :: q_list q).
    { destruct (q_grow q); [done|]. apply take_ge. simpl. lia. }
    unfold rep. cbn [q_list q_cap q_grow]. rewrite Heq. split_and!; simpl.
    + pose proof (ring_push_front _ _ _ x (length (q_list q)) Hring ltac:(lia) Hlt ltac:(lia)) as Hr.
      rewrite take_ge in Hr by lia. done.
    + dsimp. simpl. lia.
    + dsimp. rewrite insert_length. done.
    + dsimp. done.
  - destruct (Hfull eq_refl) as (Hg & -> & -> & Hge). rewrite Hg in *.
    rewrite slot_set_Ok by (cbn; done). simpl.
    eexists _, _. split; [done|]. split; [apply Hd|].
    assert (Hlen : length (q_list q) = length (d_slots d)).
    { destruct Hring as (?&_). lia. }
    destruct (q_cap q) as [|c] eqn:Ecap; [lia|].
    split_and!; simpl.
    + refine (ring_push_front (d_slots d) (d_front d) (q_list q) x c Hring _ _ _); lia.
    + rewrite take_length. dsimp. lia.
    + dsimp. rewrite insert_length. done.
    + dsimp. done.
Qed.

(** A range written from position [p] of the ring by at most two copies. *)
Lemma ring_write s p vs n c : n = length vs -> c = length s ->
  n <= c -> p < c ->
  let chunk := min n (c - p) in
  exists s1 s2, copy_in s p (Some <$> take chunk vs) = Ok s1 /\
   (if n - chunk =? 0 then Ok s1
    else copy_in s1 ((p + chunk) mod c) (Some <$> drop chunk vs)) = Ok s2 /\
   length s2 = c /\
   (forall j x, vs !! j = Some x -> s2 !! ((p + j) mod c) = Some (Some x)) /\
   (forall j, n <= j < c -> s2 !! ((p + j) mod c) = s !! ((p + j) mod c)).
Proof.
  intros Hn0 Hc0 Hn Hp chunk.
  destruct (copy_in_Ok s p (Some <$> take chunk vs)) as (s1 & E1 & Hl1 & Hin1 & Hout1).
  { rewrite fmap_length, take_length. lia. }
  rewrite fmap_length, take_length in Hin1, Hout1.
  exists s1. rewrite E1.
  destruct (Nat.eqb_spec (n - chunk) 0) as [E|E].
  - exists s1. split; [done|]. split; [done|]. split; [lia|]. split.
    + intros j x Hx. pose proof (lookup_lt_Some _ _ _ Hx).
      rewrite ring_mod by lia. dd.
      rewrite Hin1 by lia. replace (p + j - p) with j by lia.
      rewrite list_lookup_fmap, lookup_take by lia. by rewrite Hx.
    + intros j Hj. apply Hout1. rewrite ring_mod by lia. dd; lia.
  - assert (Hm : (p + chunk) mod c = 0).
    { rewrite ring_mod by lia. dd; lia. }
    rewrite Hm.
    destruct (copy_in_Ok s1 0 (Some <$> drop chunk vs)) as (s2 & E2 & Hl2 & Hin2 & Hout2).
    { rewrite fmap_length, drop_length. lia. }
    rewrite fmap_length, drop_length in Hin2, Hout2.
    exists s2. split; [done|]. split; [done|]. split; [lia|]. split.
    + intros j x Hx. pose proof (lookup_lt_Some _ _ _ Hx).
      rewrite ring_mod by lia. dd.
      * rewrite Hout2 by lia. rewrite Hin1 by lia. replace (p + j - p) with j by lia.
        rewrite list_lookup_fmap, lookup_take by lia. by rewrite Hx.
      * rewrite Hin2 by lia. rewrite list_lookup_fmap, lookup_drop.
        replace (chunk + (p + j - c - 0)) with j by lia. by rewrite Hx.
    + intros j Hj. rewrite ring_mod by lia. dd.
      * rewrite Hout2 by lia. rewrite Hout1; [done|lia].
Qed.

Lemma overwrite_all_Ok d vs : d_cap d <= length vs -> 0 < d_cap d ->
  exists d', overwrite_all d vs = Ok d' /\
    rep d' (Deq (lastn (d_cap d) vs) (d_cap d) (d_alloc d)).
Proof.
  intros Hle Hpos. unfold overwrite_all.
  destruct (copy_in_Ok (d_slots d) 0 (Some <$> drop (length vs - d_cap d) vs))
    as (s1 & E1 & Hl1 & Hin1 & Hout1).
  { rewrite fmap_length, drop_length. change (length (d_slots d)) with (d_cap d). lia. }
  rewrite E1. simpl. eexists. split; [done|].
  rewrite fmap_length, drop_length in *.
  assert (Hlen : length (lastn (d_cap d) vs) = d_cap d).
  { unfold lastn. rewrite drop_length. lia. }
  split_and!; simpl; cbn [d_sz d_buf b_sz]; try done.
  apply ring_flat.
  - rewrite Hlen. change (d_cap d) with (length (d_slots d)). cbn. lia.
  - intros i x Hx. pose proof (lookup_lt_Some _ _ _ Hx).
    cbn. rewrite Hin1 by lia. rewrite Nat.sub_0_r, list_lookup_fmap.
    unfold lastn in Hx. by rewrite Hx.
Qed.

Lemma lastn_app_ge c l vs : c <= length vs -> lastn c (l ++ vs) = lastn c vs.
Proof.
  intros. unfold lastn. rewrite app_length.
  rewrite drop_app_ge by lia. f_equal. lia.
Qed.

Lemma push_back_range_refines d q vs ok :
  rep d q -> (q_grow q = false -> q_cap q <> 0) ->
  match deq_room q (length vs) ok with
  | None => fdeq_push_back_range d vs ok = Ok (d, MEM_ERR)
  | Some c => (q_grow q = true -> length vs <= c) ->
     exists d', fdeq_push_back_range d vs ok = Ok (d', OK) /\
      rep d' (Deq (if q_grow q then q_list q ++ vs else lastn c (q_list q ++ vs)) c (q_grow q))
  end.
Proof.
  intros Hrep Hz.
  destruct (maybe_resize_Ok d q (length vs) ok Hrep Hz) as (d1 & r & E & Hpost).
  unfold fdeq_push_back_range. rewrite E. simpl.
  destruct (deq_room q (length vs) ok) as [c|] eqn:Er.
  2: { destruct Hpost as (-> & -> & Hg). destruct Hrep as (_&_&_&->).
       rewrite Hg. simpl. eauto. }
  destruct Hpost as (Hrep1 & Hpos & Hfull & Hok). intros Hsmall.
  destruct Hrep1 as (Hring & Hsz & Hcap & Hal). simpl in *.
  rewrite Hal.
  assert (Hc : q_grow q && negb (is_ok r) = false).
  { destruct (is_ok r); [by rewrite andb_false_r|]. destruct Hfull as (->&_); done. }
  rewrite Hc.
  assert (Hfit : q_grow q = true -> length (q_list q) + length vs <= c).
  { intros Hg. unfold deq_room in Er. destruct Hrep as ((Hx&_&_)&Hs0&Hcap0&_).
    dd; [injection Er as <-; lia|].
    rewrite Hg in Er. simpl in Er. destruct ok; [|done].
    injection Er as <-. rewrite Hcap0 in Hx. specialize (Hsmall Hg).
    destruct (q_cap q); lia. }
  change (d_cap d1) with (length (d_slots d1)) in *. rewrite Hcap.
  destruct (Nat.leb_spec c (length vs)).
  { destruct (overwrite_all_Ok d1 vs) as (d2 & E2 & Hrep2).
    { change (d_cap d1) with (length (d_slots d1)). lia. }
    { change (d_cap d1) with (length (d_slots d1)). lia. }
    rewrite E2. simpl. eexists. split; [done|].
    change (d_cap d1) with (length (d_slots d1)) in Hrep2. rewrite Hcap, Hal in Hrep2.
    destruct (q_grow q) eqn:Eg.
    - specialize (Hfit eq_refl). assert (length (q_list q) = 0) as E0 by lia.
      apply nil_length_inv in E0. rewrite E0. simpl.
      rewrite lastn_id in Hrep2 by lia. done.
    - rewrite lastn_app_ge by done. done. }
  unfold back_free_slot. change (d_cap d1) with (length (d_slots d1)) in *.
  rewrite Hcap. rewrite (omod_Ok (d_front d1 + d_sz d1)) by lia. simpl.
  set (p := (d_front d1 + d_sz d1) mod c).
  assert (Hp : p < c) by (apply Nat.mod_upper_bound; lia).
  destruct (ring_write (d_slots d1) p vs (length vs) c)
    as (s1 & s2 & E1 & E2 & Hl2 & Hin & Hout); [done|done|lia|lia|].
  rewrite (omod_Ok (p + _)) by lia. simpl. rewrite E1. simpl. rewrite E2. simpl.
  destruct Hring as (Hle & Hf & Hat). rewrite Hcap in *.
  set (ns := d_sz d1 + length vs).
  assert (Hf2 : (if c <? ns then omod (d_front d1 + (ns - c)) c else Ok (d_front d1))
     = Ok ((d_front d1 + (ns - c)) mod c)).
  { destruct (Nat.ltb_spec c ns); [by rewrite omod_Ok by lia|].
    replace (ns - c) with 0 by lia. rewrite Nat.add_0_r, Nat.mod_small by lia. done. }
  rewrite Hf2. simpl. eexists. split; [done|].
  assert (Hq : (if q_grow q then q_list q ++ vs else lastn c (q_list q ++ vs))
               = drop (ns - c) (q_list q ++ vs)).
  { destruct (q_grow q) eqn:Eg.
    - specialize (Hfit eq_refl). subst ns. rewrite Hsz.
      replace (length (q_list q) + length vs - c) with 0 by lia. done.
    - unfold lastn. rewrite app_length. subst ns. by rewrite Hsz. }
  rewrite Hq. split_and!; simpl; try done.
  - split; [|split].
    + cbn. rewrite Hl2, drop_length, app_length. subst ns. lia.
    + cbn. rewrite Hl2. left. apply Nat.mod_upper_bound. lia.
    + intros i x Hx. cbn. rewrite Hl2.
      pose proof (lookup_lt_Some _ _ _ Hx) as Hi. rewrite drop_length, app_length in Hi.
      rewrite lookup_drop in Hx.
      assert (Hidx : ((d_front d1 + (ns - c)) mod c + i) mod c = (d_front d1 + (ns - c + i)) mod c).
      { rewrite Nat.add_mod_idemp_l by lia. f_equal. lia. }
      rewrite Hidx.
      destruct (decide (ns - c + i < length (q_list q))) as [Hlt|Hge].
      * rewrite lookup_app_l in Hx by done. specialize (Hat _ _ Hx).
        destruct Hf as [Hf|?]; [|lia].
        assert (Hj : (d_front d1 + (ns - c + i)) mod c
                   = (p + (ns - c + i + c - d_sz d1)) mod c).
        { subst p. rewrite Nat.add_mod_idemp_l by lia.
          replace (d_front d1 + d_sz d1 + (ns - c + i + c - d_sz d1))
            with (d_front d1 + (ns - c + i) + 1 * c) by lia.
          by rewrite Nat.mod_add by lia. }
        rewrite Hj. rewrite Hout by lia. rewrite <- Hj. done.
      * rewrite lookup_app_r in Hx by lia.
        specialize (Hin _ _ Hx).
        replace ((d_front d1 + (ns - c + i)) mod c)
          with ((p + (ns - c + i - length (q_list q))) mod c); [done|].
        subst p. rewrite Nat.add_mod_idemp_l by lia. f_equal. lia.
  - rewrite drop_length, app_length. cbn. subst ns. lia.
Qed.

Lemma push_front_range_refines d q vs ok :
  rep d q -> (q_grow q = false -> q_cap q <> 0) ->
  match deq_room q (length vs) ok with
  | None => fdeq_push_front_range d vs ok = Ok (d, MEM_ERR)
  | Some c => 0 < length vs <= c ->
     exists d', fdeq_push_front_range d vs ok = Ok (d', OK) /\
      rep d' (Deq (if q_grow q then vs ++ q_list q else take c (vs ++ q_list q)) c (q_grow q))
  end.
Proof.
  intros Hrep Hz.
  destruct (maybe_resize_Ok d q (length vs) ok Hrep Hz) as (d1 & r & E & Hpost).
  unfold fdeq_push_front_range. rewrite E. simpl.
  destruct (deq_room q (length vs) ok) as [c|] eqn:Er.
  2: { destruct Hpost as (-> & -> & Hg). destruct Hrep as (_&_&_&->).
       rewrite Hg. simpl. eauto. }
  destruct Hpost as (Hrep1 & Hpos & Hfull & Hok). intros Hsmall.
  destruct Hrep1 as (Hring & Hsz & Hcap & Hal). simpl in *.
  rewrite Hal.
  assert (Hc : q_grow q && negb (is_ok r) = false).
  { destruct (is_ok r); [by rewrite andb_false_r|]. destruct Hfull as (->&_); done. }
  rewrite Hc.
  assert (Hfit : q_grow q = true -> length (q_list q) + length vs <= c).
  { intros Hg. unfold deq_room in Er. destruct Hrep as ((Hx&_&_)&Hs0&Hcap0&_).
    dd; [injection Er as <-; lia|].
    rewrite Hg in Er. simpl in Er. destruct ok; [|done].
    injection Er as <-. rewrite Hcap0 in Hx.
    destruct (q_cap q); lia. }
  assert (Hq : (if q_grow q then vs ++ q_list q else take c (vs ++ q_list q))
               = take c (vs ++ q_list q)).
  { destruct (q_grow q) eqn:Eg; [|done]. specialize (Hfit eq_refl).
    rewrite take_ge; [done|]. rewrite app_length. lia. }
  rewrite Hq. clear Hq.
  change (d_cap d1) with (length (d_slots d1)) in *. rewrite Hcap.
  destruct (Nat.leb_spec c (length vs)).
  { destruct (overwrite_all_Ok d1 vs) as (d2 & E2 & Hrep2).
    { change (d_cap d1) with (length (d_slots d1)). lia. }
    { change (d_cap d1) with (length (d_slots d1)). lia. }
    rewrite E2. simpl. eexists. split; [done|].
    change (d_cap d1) with (length (d_slots d1)) in Hrep2. rewrite Hcap, Hal in Hrep2.
    rewrite lastn_id in Hrep2 by lia.
    rewrite take_app_alt by lia. done. }
  destruct Hring as (Hle & Hf & Hat). rewrite Hcap in *.
  remember (length vs) as n eqn:Hn.
  set (sa := front_free_slot (d_front d1) c + 1).
  assert (Hsa : 0 < sa <= c /\ sa mod c = d_front d1 mod c).
  { subst sa. unfold front_free_slot. destruct (d_front d1) as [|f].
    - split; [lia|]. replace (c - 1 + 1) with c by lia.
      rewrite Nat.mod_same by lia. by rewrite Nat.mod_0_l by lia.
    - split; [lia|]. f_equal. lia. }
  destruct Hsa as (Hsa & Hsam).
  set (i := if sa <? n then 0 else sa - n).
  set (chunk := min n sa).
  (* the new front *)
  set (p := if n - chunk =? 0 then i else c - (n - chunk)).
  assert (Hp : p < c /\ (p + n) mod c = d_front d1 mod c).
  { subst p i chunk. rewrite <- Hsam. destruct (Nat.ltb_spec sa n); nb; (split; [lia|]).
    - replace (c - (n - n `min` sa) + n) with (sa + 1 * c) by lia.
      by rewrite Nat.mod_add by lia.
    - f_equal. lia. }
  destruct Hp as (Hp & Hpn).
  destruct (copy_in_Ok (d_slots d1) i (Some <$> drop (n - chunk) vs))
    as (s1 & E1 & Hl1 & Hin1 & Hout1).
  { rewrite fmap_length, drop_length.  subst i chunk. nb; lia. }
  rewrite fmap_length, drop_length in Hin1, Hout1. 
  rewrite E1. simpl.
  assert (Hw : exists s2, (if n - chunk =? 0 then Ok s1
     else copy_in s1 (c - (n - chunk)) (Some <$> take (n - chunk) vs)) = Ok s2 /\
     length s2 = c /\
   (forall j x, vs !! j = Some x -> s2 !! ((p + j) mod c) = Some (Some x)) /\
   (forall j, n <= j < c -> s2 !! ((p + j) mod c) = d_slots d1 !! ((p + j) mod c))).
  { destruct (Nat.eqb_spec (n - chunk) 0) as [E0|E0].
    - exists s1. split; [done|]. split; [lia|].
      assert (i = p /\ i = sa - n /\ n <= sa) as (Hip & Hi & Hns).
      { subst p i chunk. nb; lia. }
      split.
      + intros j x Hx. pose proof (lookup_lt_Some _ _ _ Hx) as Hj.
        rewrite ring_mod by lia. dd.
        rewrite Hin1 by lia. rewrite list_lookup_fmap, lookup_drop.
        replace (n - chunk + (p + j - i)) with j by lia. by rewrite Hx.
      + intros j Hj. apply Hout1. rewrite ring_mod by lia. dd; lia.
    - destruct (copy_in_Ok s1 (c - (n - chunk)) (Some <$> take (n - chunk) vs))
        as (s2 & E2 & Hl2 & Hin2 & Hout2).
      { rewrite fmap_length, take_length.  subst chunk. lia. }
      rewrite fmap_length, take_length in Hin2, Hout2. 
      exists s2. split; [done|]. split; [lia|].
      assert (i = 0 /\ p = c - (n - chunk) /\ chunk = sa /\ sa < n) as (Hi & Hip & Hch & Hns).
      { subst p i chunk. nb; lia. }
      split.
      + intros j x Hx. pose proof (lookup_lt_Some _ _ _ Hx) as Hj.
        rewrite ring_mod by lia. dd.
        * rewrite Hin2 by lia. rewrite list_lookup_fmap, lookup_take by lia.
          replace (p + j - (c - (n - chunk))) with j by lia. by rewrite Hx.
        * rewrite Hout2 by lia. rewrite Hin1 by lia.
          rewrite list_lookup_fmap, lookup_drop.
          replace (n - chunk + (p + j - c - i)) with j by lia. by rewrite Hx.
      + intros j Hj. rewrite ring_mod by lia. dd.
        rewrite Hout2 by lia. apply Hout1. lia. }
  destruct Hw as (s2 & E2 & Hl2 & Hin & Hout). rewrite E2. simpl.
  eexists. split; [done|]. split_and!; simpl; try done.
  - split; [|split].
    + cbn. rewrite Hl2, take_length. lia.
    + cbn. rewrite Hl2. left. fold p. done.
    + intros j x Hx. cbn. rewrite Hl2. fold p.
      pose proof (lookup_lt_Some _ _ _ Hx) as Hj. rewrite take_length, app_length in Hj.
      rewrite lookup_take in Hx by lia.
      destruct (decide (j < n)) as [Hlt|Hge].
      * rewrite lookup_app_l in Hx by lia. eauto.
      * rewrite lookup_app_r in Hx by (lia). rewrite <- Hn in Hx.
        rewrite Hout by lia. specialize (Hat _ _ Hx).
        rewrite <- Hat. f_equal.
        replace (p + j) with (p + n + (j - n)) by lia.
        rewrite <- Nat.add_mod_idemp_l by lia. rewrite Hpn.
        by rewrite Nat.add_mod_idemp_l by lia.
  - rewrite take_length, app_length. cbn.  lia.
Qed.


(** Reading. *)
Lemma rep_contents d q : rep d q -> fdeq_contents d = Some <$> q_list q.
Proof.
  intros ((Hle & Hf & Hat) & Hsz & Hcap & Hal). apply list_eq. intros i.
  unfold fdeq_contents. rewrite !list_lookup_fmap. rewrite Hsz.
  destruct (decide (i < length (q_list q))) as [Hi|Hi].
  - rewrite lookup_seq_lt by done. simpl.
    destruct (lookup_lt_is_Some_2 _ _ Hi) as [x Hx]. rewrite Hx. simpl.
    change (d_cap d) with (length (d_slots d)). by rewrite (Hat _ _ Hx).
  - rewrite lookup_seq_ge by lia. rewrite (lookup_ge_None_2 (q_list q)) by lia. done.
Qed.

Lemma rep_at d q i x : rep d q -> q_list q !! i = Some x ->
  deref d (buf_at (d_buf d) ((d_front d + i) mod d_cap d)) = Ok (DVal (Some x)).
Proof.
  intros ((Hle & Hf & Hat) & Hsz & Hcap & Hal) Hx.
  pose proof (Hat _ _ Hx) as Ha. pose proof (lookup_lt_Some _ _ _ Ha).
  change (d_cap d) with (length (d_slots d)). unfold buf_at.
  change (b_cap (d_buf d)) with (length (d_slots d)). nb. by apply deref_Ok.
Qed.

Lemma rep_front_lt d q : rep d q -> q_list q <> [] -> d_front d < d_cap d.
Proof.
  intros ((Hle & Hf & Hat) & Hsz & Hcap & Hal) Hne. change (d_cap d) with (length (d_slots d)).
  destruct (q_list q); simpl in *; [done|]. lia.
Qed.

Lemma front_Ok d q : rep d q -> deref d (fdeq_front d) = Ok (DVal (head (q_list q))).
Proof.
  intros Hrep. pose proof Hrep as (_ & Hsz & _). unfold fdeq_front. rewrite Hsz.
  destruct (q_list q) as [|x l] eqn:E; [done|]. cbn [length Nat.eqb head].
  pose proof (rep_front_lt _ _ Hrep ltac:(by rewrite E)) as Hf.
  pose proof (rep_at d q 0 x Hrep ltac:(by rewrite E)) as H.
  rewrite Nat.add_0_r, Nat.mod_small in H by done. done.
Qed.

Lemma back_Ok d q : rep d q ->
  exists r, fdeq_back d = Ok r /\ deref d r = Ok (DVal (last (q_list q))).
Proof.
  intros Hrep. pose proof Hrep as (_ & Hsz & _). unfold fdeq_back, last_elem_index.
  rewrite Hsz. destruct (Nat.eqb_spec (length (q_list q)) 0) as [E|E].
  - apply nil_length_inv in E. rewrite E. eauto.
  - assert (Hne : q_list q <> []) by (intros H; rewrite H in E; done).
    pose proof (rep_front_lt _ _ Hrep Hne).
    rewrite omod_Ok by lia. simpl. eexists. split; [done|].
    destruct (last (q_list q)) as [x|] eqn:El.
    2: { by rewrite last_None in El. }
    rewrite last_lookup in El.
    replace (length (q_list q) - 1) with (pred (length (q_list q))) by lia.
    by eapply rep_at.
Qed.

Lemma at_Ok d q i : rep d q -> i < length (q_list q) \/ q_cap q <= i ->
  exists r, fdeq_at d i = Ok r /\ deref d r = Ok (DVal (q_list q !! i)).
Proof.
  intros Hrep Hi. pose proof Hrep as ((Hle & _) & Hsz & Hcap & _). unfold fdeq_at.
  change (d_cap d) with (length (d_slots d)). rewrite Hcap.
  destruct (Nat.leb_spec (q_cap q) i).
  - eexists. split; [done|]. rewrite lookup_ge_None_2 by lia. done.
  - destruct (lookup_lt_is_Some_2 (q_list q) i) as [x Hx]; [lia|]. rewrite Hx.
    unfold fdeq_at_. change (d_cap d) with (length (d_slots d)).
    rewrite omod_Ok by lia. simpl. eexists. split; [done|]. by apply (rep_at d q).
Qed.

(** Iteration. *)
Definition pos d i := (d_front d + i) mod d_cap d.

Lemma pos_lt d i : 0 < d_cap d -> pos d i < d_cap d.
Proof. intros. apply Nat.mod_upper_bound. lia. Qed.

Lemma buf_at_lt d i : i < d_cap d -> buf_at (d_buf d) i = Some i.
Proof. unfold buf_at, d_cap. intros. nb. done. Qed.

Lemma next_Ok d i : d_front d < d_cap d -> d_sz d <= d_cap d -> i < d_sz d ->
  fdeq_next d (pos d i) = Ok (if decide (S i < d_sz d) then Some (pos d (S i)) else None).
Proof.
  intros Hf Hle Hi. unfold fdeq_next.
  pose proof (pos_lt d i ltac:(lia)) as Hp.
  destruct (Nat.ltb_spec (pos d i) (d_cap d)); [|lia]. simpl.
  assert (Hinc : increment d (pos d i) = pos d (S i)).
  { unfold increment, pos. rewrite !ring_mod by lia. nb; dd; lia. }
  rewrite Hinc.
  pose proof (pos_lt d (S i) ltac:(lia)) as Hp'.
  destruct (decide (S i < d_sz d)) as [Hlt|Hge].
  - assert (((pos d (S i) =? d_front d) || (d_sz d <=? distance d (pos d (S i)) (d_front d))) = false) as ->.
    { unfold distance. unfold pos in *. rewrite ring_mod by lia. nbi. }
    by rewrite buf_at_lt.
  - assert (((pos d (S i) =? d_front d) || (d_sz d <=? distance d (pos d (S i)) (d_front d))) = true) as ->; [|done].
    unfold distance. unfold pos in *. rewrite ring_mod by lia. nbi.
Qed.

Lemma rnext_Ok d i : d_front d < d_cap d -> d_sz d <= d_cap d -> i < d_sz d ->
  fdeq_rnext d (pos d i) = Ok (match i with 0 => None | S j => Some (pos d j) end).
Proof.
  intros Hf Hle Hi. unfold fdeq_rnext, last_elem_index.
  pose proof (pos_lt d i ltac:(lia)) as Hp.
  destruct (Nat.ltb_spec (pos d i) (d_cap d)); [|lia]. cbn [oassert mbind outcome_bind obind].
  rewrite omod_Ok by lia. cbn [mbind outcome_bind obind].
  assert (Hd : decrement d (pos d i) = match i with 0 => pos d (d_cap d - 1) | S j => pos d j end).
  { unfold decrement, pos. destruct i as [|j].
    - rewrite !ring_mod by lia. dd; destruct (d_front d + 0) eqn:E; lia.
    - rewrite !ring_mod by lia. dd; destruct (d_front d + S j) eqn:E; try lia.
      all: case_match; lia. }
  rewrite Hd. destruct i as [|j].
  - assert (((pos d (d_cap d - 1) =? (d_front d + (d_sz d - 1)) mod d_cap d) ||
       (d_sz d <=? rdistance d (pos d (d_cap d - 1)) ((d_front d + (d_sz d - 1)) mod d_cap d))) = true) as ->; [|done].
    unfold rdistance, pos in *. rewrite !ring_mod by lia. nbi.
  - pose proof (pos_lt d j ltac:(lia)) as Hp'.
    assert (((pos d j =? (d_front d + (d_sz d - 1)) mod d_cap d) ||
       (d_sz d <=? rdistance d (pos d j) ((d_front d + (d_sz d - 1)) mod d_cap d))) = false) as ->.
    { unfold rdistance, pos in *. rewrite !ring_mod by lia. nbi. }
    by rewrite buf_at_lt.
Qed.

Lemma contents_length d : length (fdeq_contents d) = d_sz d.
Proof. unfold fdeq_contents. by rewrite fmap_length, seq_length. Qed.

Lemma contents_lookup d i : i < d_sz d -> fdeq_contents d !! i = Some (mjoin (d_slots d !! pos d i)).
Proof.
  intros H. unfold fdeq_contents. rewrite list_lookup_fmap, lookup_seq_lt by done. done.
Qed.

Lemma contents_get d i : d_front d < d_cap d -> d_sz d <= d_cap d -> i < d_sz d ->
  exists x, slot_get (d_slots d) (pos d i) = Ok x /\ fdeq_contents d !! i = Some x.
Proof.
  intros Hf Hle Hi. rewrite contents_lookup by done.
  destruct (lookup_lt_is_Some_2 (d_slots d) (pos d i)) as [x Hx].
  { change (length (d_slots d)) with (d_cap d). apply pos_lt. lia. }
  exists x. unfold slot_get. rewrite Hx. done.
Qed.

Lemma walk_forward d : d_front d < d_cap d -> d_sz d <= d_cap d ->
  forall k i f, i + k = d_sz d -> 0 < k -> k <= f ->
  fdeq_walk f (fdeq_next d) d (Some (pos d i)) = Ok (drop i (fdeq_contents d)).
Proof.
  intros Hf Hle. pose proof (contents_length d) as Hlen.
  induction k as [|k IH]; intros i f Hik Hk Hfuel; [lia|].
  destruct f as [|f]; [lia|]. cbn [fdeq_walk].
  destruct (contents_get d i Hf Hle ltac:(lia)) as (x & -> & Hx).
  cbn [mbind outcome_bind obind]. rewrite next_Ok by lia.
  cbn [mbind outcome_bind obind]. rewrite (drop_S _ _ _ Hx).
  destruct (decide (S i < d_sz d)).
  - rewrite (IH (S i) f) by lia. done.
  - rewrite (drop_ge _ (S i)) by lia. destruct f; done.
Qed.

Lemma walk_backward d : d_front d < d_cap d -> d_sz d <= d_cap d ->
  forall i f, i < d_sz d -> S i <= f ->
  fdeq_walk f (fdeq_rnext d) d (Some (pos d i)) = Ok (reverse (take (S i) (fdeq_contents d))).
Proof.
  intros Hf Hle.
  induction i as [|i IH]; intros f Hi Hfuel; (destruct f as [|f]; [lia|]); cbn [fdeq_walk].
  - destruct (contents_get d 0 Hf Hle Hi) as (x & -> & Hx).
    cbn [mbind outcome_bind obind]. rewrite rnext_Ok by lia. cbn [mbind outcome_bind obind].
    rewrite (take_S_r _ _ _ Hx), reverse_app. destruct f; done.
  - destruct (contents_get d (S i) Hf Hle Hi) as (x & -> & Hx).
    cbn [mbind outcome_bind obind]. rewrite rnext_Ok by lia. cbn [mbind outcome_bind obind].
    rewrite (take_S_r _ _ _ Hx), reverse_app.
    rewrite (IH f) by lia. done.
Qed.

Lemma begin_walk d fuel : d_front d < d_cap d -> d_sz d <= d_cap d -> d_sz d <= fuel ->
  fdeq_walk fuel (fdeq_next d) d (fdeq_begin d) = Ok (fdeq_contents d).
Proof.
  intros Hf Hle Hfuel. unfold fdeq_begin.
  destruct (Nat.eqb_spec (d_sz d) 0) as [E|E].
  - assert (fdeq_contents d = []) as -> by (apply nil_length_inv; by rewrite contents_length).
    destruct fuel; done.
  - rewrite buf_at_lt by done.
    pose proof (walk_forward d Hf Hle (d_sz d) 0 fuel ltac:(lia) ltac:(lia) Hfuel) as H0.
    unfold pos in H0. rewrite Nat.add_0_r, Nat.mod_small in H0 by done. done.
Qed.

Lemma rbegin_raw d : d_front d < d_cap d -> d_sz d <> 0 ->
  fdeq_rbegin d = Ok (Some (pos d (d_sz d - 1))) /\ last_elem_index d = Ok (pos d (d_sz d - 1)).
Proof.
  intros Hf E. unfold fdeq_rbegin, fdeq_back, last_elem_index.
  destruct (Nat.eqb_spec (d_sz d) 0); [done|].
  rewrite omod_Ok by lia. simpl. fold (pos d (d_sz d - 1)).
  rewrite buf_at_lt by (apply pos_lt; lia). done.
Qed.

Lemma rbegin_Ok d q : rep d q -> d_sz d <> 0 ->
  fdeq_rbegin d = Ok (Some (pos d (d_sz d - 1))) /\ last_elem_index d = Ok (pos d (d_sz d - 1)).
Proof.
  intros Hrep E. pose proof Hrep as (_ & Hsz & _). apply rbegin_raw; [|done].
  eapply rep_front_lt; [done|]. intros H; rewrite H in Hsz; done.
Qed.

Lemma rbegin_walk d fuel : d_front d < d_cap d -> d_sz d <= d_cap d -> d_sz d <= fuel ->
  exists r, fdeq_rbegin d = Ok r /\
  fdeq_walk fuel (fdeq_rnext d) d r = Ok (reverse (fdeq_contents d)).
Proof.
  intros Hf Hle Hfuel.
  destruct (decide (d_sz d = 0)) as [E|E].
  - unfold fdeq_rbegin, fdeq_back. rewrite E. exists None. split; [done|].
    assert (fdeq_contents d = []) as -> by (apply nil_length_inv; by rewrite contents_length).
    destruct fuel; done.
  - destruct (rbegin_raw d Hf E) as (-> & _). eexists. split; [done|].
    rewrite (walk_backward d) by lia.
    rewrite take_ge by (rewrite contents_length; lia). done.
Qed.

Lemma count_forward d q : rep d q -> forall k i f, i + k = d_sz d -> 0 < k -> k < f ->
  count_walk f (fdeq_next d) d (Some (pos d i)) i = Ok (Some (d_sz d)).
Proof.
  intros Hrep. pose proof Hrep as ((Hle & Hf & Hat) & Hsz & Hcap & Hal).
  change (length (d_slots d)) with (d_cap d) in *.
  induction k as [|k IH]; intros i f Hik Hk Hfuel; [lia|].
  destruct f as [|f]; [lia|]. cbn [count_walk].
  destruct (Nat.leb_spec (d_sz d) i); [lia|].
  rewrite next_Ok by lia. cbn [mbind outcome_bind obind].
  destruct (decide (S i < d_sz d)).
  - rewrite (IH (S i) f) by lia. done.
  - replace (S i) with (d_sz d) by lia. destruct f; done.
Qed.

Lemma count_backward d q : rep d q -> forall i f n, i + n + 1 = d_sz d -> S i < f ->
  count_walk f (fdeq_rnext d) d (Some (pos d i)) n = Ok (Some (d_sz d)).
Proof.
  intros Hrep. pose proof Hrep as ((Hle & Hf & Hat) & Hsz & Hcap & Hal).
  change (length (d_slots d)) with (d_cap d) in *.
  induction i as [|i IH]; intros f n Hi Hfuel;
  (destruct f as [|f]; [lia|]); cbn [count_walk].
  all: destruct (Nat.leb_spec (d_sz d) n); [lia|].
  all: rewrite rnext_Ok by lia; cbn [mbind outcome_bind obind].
  - replace (S n) with (d_sz d) by lia. destruct f; done.
  - apply IH; lia.
Qed.

Lemma validate_Ok d q : rep d q -> fdeq_validate d = Ok true.
Proof.
  intros Hrep. pose proof Hrep as (_ & Hsz & _). unfold fdeq_validate.
  destruct (Nat.eqb_spec (d_sz d) 0); [done|].
  assert (Hne : q_list q <> []) by (intros H; rewrite H in Hsz; done).
  pose proof (rep_front_lt _ _ Hrep Hne).
  assert (Hb : fdeq_begin d = Some (pos d 0)).
  { unfold fdeq_begin, pos. destruct (Nat.eqb_spec (d_sz d) 0); [done|].
    rewrite Nat.add_0_r, Nat.mod_small by done. by apply buf_at_lt. }
  assert (Hp0 : pos d 0 = d_front d) by (unfold pos; rewrite Nat.add_0_r, Nat.mod_small; done).
  rewrite Hb. rewrite bool_decide_true by (by rewrite Hp0). cbn [negb].
  rewrite (count_forward d q Hrep (d_sz d) 0) by lia. cbn [mbind outcome_bind obind].
  rewrite bool_decide_true by done. cbn [negb].
  destruct (rbegin_Ok _ _ Hrep ltac:(done)) as (-> & ->). cbn [mbind outcome_bind obind].
  rewrite bool_decide_true by done. cbn [negb].
  rewrite (count_backward d q Hrep) by lia. cbn [mbind outcome_bind obind].
  by rewrite bool_decide_true.
Qed.

(** Removal. *)
Lemma pop_front_refines d q x l : rep d q -> q_list q = x :: l ->
  exists d', fdeq_pop_front d = (d', OK) /\ rep d' (Deq l (q_cap q) (q_grow q)).
Proof.
  intros Hrep Hl. pose proof (rep_front_lt _ _ Hrep ltac:(by rewrite Hl)) as Hfl.
  destruct Hrep as ((Hle & Hf & Hat) & Hsz & Hcap & Hal). rewrite Hl in *. simpl in *.
  unfold fdeq_pop_front. rewrite Hsz. cbn [Nat.eqb].
  eexists. split; [done|].
  change (d_cap d) with (length (d_slots d)) in *.
  split_and!; simpl; try done; [|dsimp; lia].
  split; [|split].
  - dsimp. lia.
  - change (increment d (d_front d) < length (d_slots d) \/
            length (d_slots d) = 0 /\ increment d (d_front d) = 0).
    unfold increment. change (d_cap d) with (length (d_slots d)). nb.
  - intros i y Hy. specialize (Hat (S i) y Hy).
    change (d_slots d !! ((increment d (d_front d) + i) mod length (d_slots d)) = Some (Some y)).
    rewrite <- Hat. f_equal. pose proof (lookup_lt_Some _ _ _ Hy).
    unfold increment. change (d_cap d) with (length (d_slots d)).
    rewrite (ring_mod (d_front d)) by lia. rewrite ring_mod by (nb; lia). nb; dd; lia.
Qed.

Lemma pop_back_refines d q : rep d q -> q_list q <> [] ->
  exists d', fdeq_pop_back d = (d', OK) /\
    rep d' (Deq (take (length (q_list q) - 1) (q_list q)) (q_cap q) (q_grow q)).
Proof.
  intros Hrep Hne. destruct Hrep as ((Hle & Hf & Hat) & Hsz & Hcap & Hal).
  unfold fdeq_pop_back. rewrite Hsz.
  destruct (q_list q) as [|y l'] eqn:El; [done|]. rewrite <- El in *.
  assert (length (q_list q) <> 0) by (rewrite El; simpl; lia).
  nb. eexists. split; [done|].
  split_and!; simpl; try done; [|rewrite take_length; dsimp; lia].
  split; [|split].
  - rewrite take_length. dsimp. lia.
  - done.
  - intros i z Hz. apply Hat. rewrite lookup_take_Some in Hz. tauto.
Qed.

Lemma step_refines d q o q' r :
  rep d q -> deq_step q o = Some (q', r) ->
  exists d', fdeq_step d o = Ok (d', r) /\ rep d' q'.
Proof.
  intros Hrep. unfold deq_step.
  destruct (decide (q_grow q = false /\ q_cap q = 0)) as [|Hz]; [done|].
  assert (Hz' : q_grow q = false -> q_cap q <> 0) by tauto. clear Hz.
  destruct q as [l cap g]; simpl in *.
  destruct o as [x ok|x ok| | |vs ok|vs ok| | | |i| |]; simpl.
  - destruct (push_back_refines d _ x ok Hrep Hz') as (d' & r' & -> & H).
    cbn [mbind outcome_bind obind].
    destruct (deq_room (Deq l cap g) 0 ok); intros [= <- <-].
    + destruct H as (-> & Hr). simpl. eauto.
    + destruct H as (-> & ->). simpl. eauto.
  - destruct (push_front_refines d _ x ok Hrep Hz') as (d' & r' & -> & H).
    cbn [mbind outcome_bind obind].
    destruct (deq_room (Deq l cap g) 0 ok); intros [= <- <-].
    + destruct H as (-> & Hr). simpl. eauto.
    + destruct H as (-> & ->). simpl. eauto.
  - destruct l as [|x l]; intros [= <- <-].
    + unfold fdeq_pop_front. destruct (Hrep) as (_ & -> & _). simpl. eauto.
    + destruct (pop_front_refines d _ x l Hrep eq_refl) as (d' & -> & Hr). eauto.
  - destruct l as [|x l]; intros [= <- <-].
    + unfold fdeq_pop_back. pose proof Hrep as (Hring & Hsz & Hcap & Hal). rewrite Hsz. simpl.
      eexists. split; [done|]. split_and!; done.
    + destruct (pop_back_refines d _ Hrep ltac:(done)) as (d' & -> & Hr). eauto.
  - pose proof (push_back_range_refines d _ vs ok Hrep Hz') as H.
    destruct (deq_room (Deq l cap g) (length vs) ok) as [c|].
    + destruct (decide (g = true /\ c < length vs)) as [|Hn]; [done|]. intros [= <- <-].
      destruct H as (d' & -> & Hr). { simpl. intros ->. destruct (decide (length vs <= c)); [done|].
        exfalso. apply Hn. split; [done|lia]. }
      simpl. eauto.
    + intros [= <- <-]. rewrite H. simpl. eauto.
  - pose proof (push_front_range_refines d _ vs ok Hrep Hz') as H.
    destruct (deq_room (Deq l cap g) (length vs) ok) as [c|].
    + destruct (decide (c < length vs \/ vs = [])) as [|Hn]; [done|]. intros [= <- <-].
      destruct H as (d' & -> & Hr). { destruct vs; simpl in *; [tauto|lia]. }
      simpl. eauto.
    + intros [= <- <-]. rewrite H. simpl. eauto.
  - intros [= <- <-]. eexists. split; [done|].
    destruct Hrep as ((Hle & Hf & Hat) & Hsz & Hcap & Hal).
    split_and!; simpl; try done. apply ring_nil. dsimp. lia.
  - intros [= <- <-]. rewrite (front_Ok _ _ Hrep). simpl. eauto.
  - intros [= <- <-]. destruct (back_Ok _ _ Hrep) as (r' & -> & Hd). simpl. rewrite Hd. simpl. eauto.
  - destruct (decide (i < length l \/ cap <= i)) as [Hi|]; [|done]. intros [= <- <-].
    destruct (at_Ok _ _ i Hrep Hi) as (r' & -> & Hd). simpl. rewrite Hd. simpl. eauto.
  - intros [= <- <-]. destruct (Hrep) as (_ & -> & _). simpl. eauto.
  - intros [= <- <-]. rewrite (validate_Ok _ _ Hrep). simpl. eauto.
Qed.

Lemma run_refines d q os q' rs :
  rep d q -> deq_run q os = Some (q', rs) ->
  exists d', fdeq_run d os = Ok (d', rs) /\ rep d' q'.
Proof.
  revert d q rs. induction os as [|o os IH]; intros d q rs Hr; simpl.
  - intros [= <- <-]. eauto.
  - destruct (deq_step q o) as [[q1 r]|] eqn:E1; [|done]. simpl.
    destruct (deq_run q1 os) as [[q2 rs']|] eqn:E2; [|done]. simpl.
    intros [= <- <-].
    destruct (step_refines _ _ _ _ _ Hr E1) as (d1 & -> & Hr1). simpl.
    destruct (IH _ _ _ Hr1 E2) as (d2 & -> & Hr2). simpl. eauto.
Qed.

Lemma rep_fresh cap g : rep (fresh_fdeq cap g) (Deq [] cap g).
Proof.
  split_and!; simpl; try done.
  - apply ring_nil. cbn. rewrite replicate_length. lia.
  - cbn. by rewrite replicate_length.
Qed.

(** Reachable states are well formed. *)
Lemma rep_wf d q : rep d q ->
  d_sz d <= d_cap d /\ (d_front d < d_cap d \/ d_cap d = 0 /\ d_front d = 0).
Proof.
  intros ((Hle & Hf & _) & Hsz & _). change (d_cap d) with (length (d_slots d)).
  rewrite Hsz. done.
Qed.

Lemma history cap g os q rs :
  deq_run (Deq [] cap g) os = Some (q, rs) ->
  exists d, fdeq_run (fresh_fdeq cap g) os = Ok (d, rs) /\
    fdeq_contents d = Some <$> q_list q /\ d_sz d = length (q_list q) /\
    d_cap d = q_cap q /\ d_sz d <= d_cap d /\
    (d_front d < d_cap d \/ d_cap d = 0 /\ d_front d = 0).
Proof.
  intros H. destruct (run_refines _ _ _ _ _ (rep_fresh cap g) H) as (d & Hd & Hr).
  exists d. split; [done|]. destruct (rep_wf _ _ Hr). rewrite (rep_contents _ _ Hr).
  pose proof Hr as (_ & ? & ? & _). done.
Qed.

Lemma single_in_scope os : Forall deq_single os ->
  forall cap g l, (g = true \/ 0 < cap) -> exists q rs, deq_run (Deq l cap g) os = Some (q, rs).
Proof.
  induction 1 as [|o os Ho Hos IH]; intros cap g l Hc; [by eexists _, _|].
  cbn [deq_run].
  assert (exists q1 r, deq_step (Deq l cap g) o = Some (q1, r) /\
    (q_grow q1 = true \/ 0 < q_cap q1)) as (q1 & r & -> & Hc1).
  { unfold deq_step. destruct (decide _) as [[Hg Hz]|_]; simpl in *; [destruct Hc; [congruence|lia]|].
    destruct o; try done; simpl.
    1-2: unfold deq_room; cbn [q_list q_cap q_grow]; destruct (decide _);
         [eexists _, _; split; [done|]; simpl; lia|];
         destruct g; simpl; [|eexists _, _; split; [done|]; simpl; tauto];
         destruct ok; eexists _, _; (split; [done|]); simpl; tauto.
    1-2: destruct l; eexists _, _; (split; [done|]); simpl; tauto.
    all: eexists _, _; (split; [done|]); simpl; tauto. }
  destruct q1 as [l1 c1 g1]. destruct (IH c1 g1 l1 Hc1) as (q & rs & E).
  cbn [mbind option_bind]. rewrite E. simpl. eauto.
Qed.

(** Clear. *)
Lemma clear_null d d' (l : list nat) r : fdeq_clear d false = Ok (d', l, r) ->
  d_sz d' = 0 /\ l = [] /\ r = OK.
Proof. intros [= <- <- <-]. done. Qed.

Lemma clear_full d : d_sz d = d_cap d -> d_front d < d_cap d -> d_sz d <> 0 ->
  fdeq_clear d true = Ok (d, [], OK).
Proof.
  intros Hs Hf H0. unfold fdeq_clear, back_free_slot. simpl. rewrite omod_Ok by lia. simpl.
  assert (Hb : (d_front d + d_sz d) mod d_cap d = d_front d).
  { rewrite Hs. rewrite ring_mod by lia. dd; lia. }
  rewrite Hb. destruct (d_cap d); simpl; rewrite Nat.eqb_refl; done.
Qed.

Lemma destroy_loop_Ok d k i f : d_front d < d_cap d -> i + k < d_cap d -> k <= f ->
  destroy_loop f d (pos d i) (pos d (i + k)) = Ok (pos d <$> seq i k).
Proof.
  intros Hf. revert i f. induction k as [|k IH]; intros i f Hi Hfuel.
  - rewrite Nat.add_0_r. destruct f; simpl; rewrite Nat.eqb_refl; done.
  - destruct f as [|f]; [lia|]. cbn [destroy_loop].
    destruct (Nat.eqb_spec (pos d i) (pos d (i + S k))) as [E|E].
    { exfalso. unfold pos in E. rewrite !ring_mod in E by lia. dd; lia. }
    assert (Hinc : increment d (pos d i) = pos d (S i)).
    { unfold increment, pos. rewrite !ring_mod by lia. nb; dd; lia. }
    rewrite Hinc. replace (i + S k) with (S i + k) by lia.
    rewrite IH by lia. done.
Qed.

Lemma clear_destructor d : d_front d < d_cap d -> d_sz d < d_cap d ->
  fdeq_clear d true = Ok (d, (fun i => (d_front d + i) mod d_cap d) <$> seq 0 (d_sz d), OK).
Proof.
  intros Hf Hs. unfold fdeq_clear, back_free_slot. simpl negb.
  rewrite omod_Ok by lia. cbn [mbind outcome_bind obind].
  pose proof (destroy_loop_Ok d (d_sz d) 0 (d_cap d) Hf ltac:(lia) ltac:(lia)) as H.
  unfold pos in H at 1 2. rewrite Nat.add_0_r, (Nat.mod_small (d_front d)) in H by done.
  simpl in H. rewrite H. done.
Qed.

(** Copy. *)
Lemma copy_refines dst src q has_fn ok dst' :
  rep src q -> fdeq_copy dst src has_fn ok = Ok (dst', OK) ->
  fdeq_contents dst' = fdeq_contents src /\ d_sz dst' = d_sz src.
Proof.
  intros Hrep H.
  enough (rep dst' (Deq (q_list q) (d_cap dst') (d_alloc dst'))) as Hr.
  { rewrite (rep_contents _ _ Hr), (rep_contents _ _ Hrep). split; [done|].
    destruct Hr as (_ & -> & _). destruct Hrep as (_ & -> & _). done. }
  pose proof Hrep as (Hring & Hsz & Hcap & Hal). pose proof Hring as (Hle & Hf & Hat).
  unfold fdeq_copy in H.
  change (d_cap dst) with (length (d_slots dst)) in *.
  change (d_cap src) with (length (d_slots src)) in *.
  destruct ((length (d_slots dst) <? length (d_slots src)) && negb has_fn); [done|].
  destruct (Nat.eqb_spec (length (d_slots src)) 0) as [E|E].
  { injection H as <-. split_and!; simpl; try done.
    assert (length (q_list q) = 0) as El by lia. apply nil_length_inv in El. rewrite El.
    apply ring_nil. dsimp. lia. }
  change (d_cap (Fdeq (Buf ?s _ _) _)) with (length s) in H.
  destruct (Nat.ltb_spec (length (d_slots src)) (length (d_slots dst))) as [Hlt|Hge].
  { destruct (unroll_Ok src (q_list q) (d_slots dst) Hring Hsz ltac:(lia)) as (m & Em & Hlm & Hm).
    rewrite Em in H. simpl in H. injection H as <-.
    split_and!; simpl; try done. apply ring_flat; [dsimp; lia|done]. }
  assert (Hgo : forall b (b' : fdeq A), length (b_slots b) = length (d_slots src) -> b_sz b = d_sz src ->
    (s ← copy_in (b_slots b) 0 (d_slots src);
     Ok (Fdeq (Buf s (b_sz b) (b_alloc b)) (d_front src), OK)) = Ok (b', OK) ->
    rep b' (Deq (q_list q) (d_cap b') (d_alloc b'))).
  { intros b b' Hlb Hsb Hb. unfold copy_in in Hb. rewrite Hlb in Hb. simpl in Hb.
    rewrite Nat.leb_refl in Hb. simpl in Hb. rewrite drop_ge, app_nil_r in Hb by lia.
    injection Hb as <-. split_and!; simpl; try done. dsimp. congruence. }
  destruct (Nat.ltb_spec (length (d_slots dst)) (length (d_slots src))) as [Hlt2|Hge2].
  - unfold buf_alloc in H. destruct has_fn; simpl in H; [|done].
    destruct (Nat.eqb_spec (length (d_slots src)) 0); [done|]. simpl in H.
    destruct ok; simpl in H; [|done].
    refine (Hgo (Buf (realloc (d_slots dst) (length (d_slots src))) (d_sz src) (d_alloc dst)) _ _ _ H); [|done].
    simpl. unfold realloc. rewrite app_length, take_length, replicate_length. lia.
  - simpl in H. refine (Hgo (Buf (d_slots dst) (d_sz src) (d_alloc dst)) _ _ _ H); [simpl; lia|done].
Qed.

Lemma copy_defined dst src q has_fn ok :
  rep src q -> exists dst' r, fdeq_copy dst src has_fn ok = Ok (dst', r) /\
   ((d_cap src <= d_cap dst \/ has_fn = true /\ ok = true) -> r = OK).
Proof.
  intros Hrep. pose proof Hrep as (Hring & Hsz & Hcap & Hal). pose proof Hring as (Hle & Hf & Hat).
  unfold fdeq_copy.
  change (d_cap dst) with (length (d_slots dst)) in *.
  change (d_cap src) with (length (d_slots src)) in *.
  destruct (Nat.ltb_spec (length (d_slots dst)) (length (d_slots src))) as [H1|H1]; simpl.
  - destruct has_fn; simpl.
    2: { eexists _, _. split; [done|]. intros [?|[? _]]; [lia|done]. }
    destruct (Nat.eqb_spec (length (d_slots src)) 0); [lia|].
    change (d_cap (Fdeq (Buf ?s _ _) _)) with (length s).
    destruct (Nat.ltb_spec (length (d_slots src)) (length (d_slots dst))); [lia|].
    destruct (Nat.ltb_spec (length (d_slots dst)) (length (d_slots src))); [|lia].
    unfold buf_alloc. simpl. destruct (Nat.eqb_spec (length (d_slots src)) 0); [lia|]. simpl.
    destruct ok; simpl.
    + destruct (copy_in_Ok (realloc (d_slots dst) (length (d_slots src))) 0 (d_slots src))
        as (s & -> & _).
      { unfold realloc. rewrite app_length, take_length, replicate_length. lia. }
      simpl. eauto.
    + eexists _, _. split; [done|]. intros [?|[_ ?]]; [lia|done].
  - destruct (Nat.eqb_spec (length (d_slots src)) 0); [eauto|].
    change (d_cap (Fdeq (Buf ?s _ _) _)) with (length s).
    destruct (Nat.ltb_spec (length (d_slots src)) (length (d_slots dst))).
    + destruct (unroll_Ok src (q_list q) (d_slots dst) Hring Hsz ltac:(lia)) as (m & -> & _).
      simpl. eauto.
    + destruct (Nat.ltb_spec (length (d_slots dst)) (length (d_slots src))); [lia|]. simpl.
      destruct (copy_in_Ok (d_slots dst) 0 (d_slots src)) as (s & -> & _); [lia|]. simpl. eauto.
Qed.

(** Insertion in the middle when the new elements and the tail fit behind the
    contents without wrapping. *)
Lemma insert_mid_Ok d q k vs ok :
  rep d q -> 0 < k < length (q_list q) -> vs <> [] ->
  d_front d + length (q_list q) + length vs <= d_cap d ->
  length (q_list q) + length vs < d_cap d ->
  exists d', fdeq_insert_range d (Some (pos d k)) vs ok = Ok (d', Some (pos d' k)) /\
    rep d' (Deq (take k (q_list q) ++ vs ++ drop k (q_list q)) (q_cap q) (q_grow q)).
Proof.
  intros Hrep Hk Hvs Hfit Hlt. pose proof Hrep as ((Hle & Hf & Hat) & Hsz & Hcap & Hal).
  change (length (d_slots d)) with (d_cap d) in *.
  set (l := q_list q) in *. set (n := length vs) in *.
  assert (0 < n) by (unfold n; destruct vs; simpl; [done|lia]).
  assert (Hf' : d_front d < d_cap d) by lia.
  assert (Hpos : forall i, i <= length l -> pos d i = d_front d + i).
  { intros i Hi. unfold pos. apply Nat.mod_small. lia. }
  unfold fdeq_insert_range. fold n. destruct (Nat.eqb_spec n 0); [lia|].
  assert (Hb : fdeq_begin d = Some (d_front d)).
  { unfold fdeq_begin. destruct (Nat.eqb_spec (d_sz d) 0); [lia|]. by apply buf_at_lt. }
  rewrite Hb. rewrite decide_False.
  2: { intros E. rewrite Hpos in E by lia. injection E. lia. }
  unfold fdeq_push_range, maybe_resize. fold n.
  destruct (Nat.ltb_spec (d_sz d + n) (d_cap d)); [|lia].
  cbn [mbind outcome_bind obind is_ok negb]. rewrite andb_false_r.
  destruct (Nat.leb_spec (d_cap d) n); [lia|]. cbn [andb negb].
  rewrite Hpos by lia.
  destruct (Nat.ltb_spec (d_front d + k) (d_cap d)); [|lia].
  cbn [oassert mbind outcome_bind obind]. unfold back_free_slot.
  rewrite (omod_Ok (d_front d + d_sz d)) by lia. cbn [mbind outcome_bind obind].
  rewrite (Nat.mod_small (d_front d + d_sz d)) by lia.
  destruct (Nat.ltb_spec (d_front d + k) (d_front d + d_sz d)); [|lia].
  rewrite (omod_Ok (d_front d + k + n)) by lia. cbn [mbind outcome_bind obind].
  rewrite (Nat.mod_small (d_front d + k + n)) by lia.
  remember (d_front d + d_sz d - (d_front d + k)) as tm eqn:Htm.
  destruct (Nat.ltb_spec (d_cap d) (d_front d + k + n + tm)); [lia|].
  destruct (Nat.ltb_spec (d_front d + d_sz d) (d_front d + k)); [lia|].
  rewrite Nat.min_id, Nat.sub_diag. cbn [Nat.eqb].
  destruct (memmove_Ok (d_slots d) (d_front d + k + n) (d_front d + k) tm)
    as (s1 & -> & Hl1 & Hin1 & Hout1).
  1-2: change (length (d_slots d)) with (d_cap d); lia.
  change (length (d_slots d)) with (d_cap d) in Hl1.
  cbn [mbind outcome_bind obind].
  rewrite (Nat.min_l n) by lia. rewrite Nat.sub_diag. cbn [Nat.eqb].
  rewrite take_ge by (fold n; lia).
  destruct (copy_in_Ok s1 (d_front d + k) (Some <$> vs)) as (s2 & -> & Hl2 & Hin2 & Hout2).
  { rewrite fmap_length. fold n. lia. }
  rewrite fmap_length in Hin2, Hout2. fold n in Hin2, Hout2.
  cbn [mbind outcome_bind obind].
  destruct (Nat.ltb_spec (d_cap d) (d_sz d + n)); [lia|].
  cbn [mbind outcome_bind obind].
  rewrite Nat.min_r by lia.
  exists (Fdeq (Buf s2 (d_sz d + n) (d_alloc d)) (d_front d)). split.
  { assert (pos (Fdeq (Buf s2 (d_sz d + n) (d_alloc d)) (d_front d)) k = d_front d + k) as ->.
    2: done. change ((d_front d + k) mod length s2 = d_front d + k). rewrite Hl2, Hl1.
    apply Nat.mod_small. lia. }
  split_and!; cbn [q_list q_cap q_grow].
  2: { rewrite !app_length, take_length, drop_length. fold n. dsimp. lia. }
  2: { change (length s2 = q_cap q). rewrite Hl2, Hl1. done. }
  2: done.
  change (d_slots (Fdeq (Buf ?s _ _) _)) with s. cbn [d_front].
  split; [|split].
  - rewrite !app_length, take_length, drop_length. fold n. lia.
  - lia.
  - intros i x Hx. rewrite Hl2, Hl1.
    pose proof (lookup_lt_Some _ _ _ Hx) as Hi.
    rewrite !app_length, take_length, drop_length in Hi. fold n in Hi.
    rewrite Nat.mod_small by lia.
    assert (Hat' : forall i x, l !! i = Some x -> d_slots d !! (d_front d + i) = Some (Some x)).
    { intros i0 x0 Hx0. rewrite <- Hpos by (apply lookup_lt_Some in Hx0; lia). by apply Hat. }
    destruct (decide (i < k)) as [H1'|H1'].
    + rewrite lookup_app_l in Hx by (rewrite take_length; lia).
      rewrite lookup_take in Hx by done.
      rewrite Hout2, Hout1 by lia. by apply Hat'.
    + rewrite lookup_app_r, take_length in Hx by (rewrite take_length; lia).
      rewrite Nat.min_l in Hx by lia.
      destruct (decide (i - k < n)).
      * rewrite lookup_app_l in Hx by done.
        rewrite Hin2 by lia. rewrite list_lookup_fmap.
        replace (d_front d + i - (d_front d + k)) with (i - k) by lia. by rewrite Hx.
      * rewrite lookup_app_r in Hx by (fold n; lia). fold n in Hx.
        rewrite lookup_drop in Hx.
        rewrite Hout2 by lia. rewrite Hin1 by lia.
        rewrite <- (Hat' _ _ Hx). f_equal. lia.
Qed.

(** The same facts for states described by what a user sees. *)
Lemma rep_intro d l : fdeq_wf d -> fdeq_contents d = Some <$> l ->
  rep d (Deq l (d_cap d) (d_alloc d)).
Proof.
  intros (Hle & Hf) Hc. assert (Hlen : d_sz d = length l).
  { rewrite <- (contents_length d), Hc. apply fmap_length. }
  split_and!; try done. split; [|split]; simpl.
  - change (length (d_slots d)) with (d_cap d). lia.
  - done.
  - intros i x Hx. pose proof (lookup_lt_Some _ _ _ Hx) as Hi.
    assert (fdeq_contents d !! i = Some (Some x)) as Hi2
      by (rewrite Hc, list_lookup_fmap, Hx; done).
    rewrite contents_lookup in Hi2 by lia. unfold pos in Hi2.
    change (length (d_slots d)) with (d_cap d).
    destruct (d_slots d !! ((d_front d + i) mod d_cap d)) as [[y|]|]; simpl in Hi2; congruence.
Qed.

Lemma rep_elim d q : rep d q ->
  fdeq_wf d /\ fdeq_contents d = Some <$> q_list q /\ d_cap d = q_cap q /\ d_alloc d = q_grow q.
Proof.
  intros H. split; [by eapply rep_wf|]. split; [by apply rep_contents|].
  destruct H as (_ & _ & ? & ?). done.
Qed.

Lemma push_back_range_fixed d l vs ok :
  fdeq_wf d -> fdeq_contents d = Some <$> l -> d_alloc d = false -> 0 < d_cap d ->
  exists d', fdeq_push_back_range d vs ok = Ok (d', OK) /\ fdeq_wf d' /\ d_cap d' = d_cap d /\
    fdeq_contents d' = Some <$> lastn (d_cap d) (l ++ vs).
Proof.
  intros Hwf Hc Ha Hcap. pose proof (rep_intro d l Hwf Hc) as Hr.
  pose proof (push_back_range_refines d _ vs ok Hr) as H. rewrite Ha in H.
  unfold deq_room in H. cbn [q_list q_cap q_grow negb] in H.
  assert ((if decide (length l + length vs < d_cap d) then Some (d_cap d) else Some (d_cap d)) = Some (d_cap d)) as E
    by (by destruct (decide _)).
  rewrite E in H. destruct H as (d' & -> & Hr'); [lia|done|].
  destruct (rep_elim _ _ Hr') as (? & ? & ? & ?). eauto 10.
Qed.

Lemma push_back_range_grow d l vs ok :
  fdeq_wf d -> fdeq_contents d = Some <$> l -> d_alloc d = true ->
  0 < d_cap d \/ length vs <= 8 ->
  exists d' r, fdeq_push_back_range d vs ok = Ok (d', r) /\ fdeq_wf d' /\
    (r = OK /\ fdeq_contents d' = Some <$> l ++ vs \/ r = MEM_ERR /\ ok = false /\ d' = d).
Proof.
  intros Hwf Hc Ha Hcap. pose proof (rep_intro d l Hwf Hc) as Hr.
  pose proof (push_back_range_refines d _ vs ok Hr) as H. rewrite Ha in H.
  unfold deq_room in H. cbn [q_list q_cap q_grow negb] in H.
  specialize (H ltac:(done)).
  destruct (decide (length l + length vs < d_cap d)).
  - destruct H as (d' & -> & Hr'); [lia|].
    destruct (rep_elim _ _ Hr') as (? & ? & ? & ?). eauto 10.
  - destruct ok.
    + destruct H as (d' & -> & Hr'). { intros _. destruct (d_cap d); lia. }
      destruct (rep_elim _ _ Hr') as (? & ? & ? & ?). eauto 10.
    + rewrite H. eauto 10.
Qed.

Lemma push_front_range_fixed d l vs ok :
  fdeq_wf d -> fdeq_contents d = Some <$> l -> d_alloc d = false ->
  0 < length vs <= d_cap d ->
  exists d', fdeq_push_front_range d vs ok = Ok (d', OK) /\ fdeq_wf d' /\ d_cap d' = d_cap d /\
    fdeq_contents d' = Some <$> take (d_cap d) (vs ++ l).
Proof.
  intros Hwf Hc Ha Hcap. pose proof (rep_intro d l Hwf Hc) as Hr.
  pose proof (push_front_range_refines d _ vs ok Hr) as H. rewrite Ha in H.
  unfold deq_room in H. cbn [q_list q_cap q_grow negb] in H.
  assert ((if decide (length l + length vs < d_cap d) then Some (d_cap d) else Some (d_cap d)) = Some (d_cap d)) as E
    by (by destruct (decide _)).
  rewrite E in H. destruct H as (d' & -> & Hr'); [lia|done|].
  destruct (rep_elim _ _ Hr') as (? & ? & ? & ?). eauto 10.
Qed.

Lemma push_front_range_grow d l vs ok :
  fdeq_wf d -> fdeq_contents d = Some <$> l -> d_alloc d = true -> vs <> [] ->
  0 < d_cap d \/ length vs <= 8 ->
  exists d' r, fdeq_push_front_range d vs ok = Ok (d', r) /\ fdeq_wf d' /\
    (r = OK /\ fdeq_contents d' = Some <$> vs ++ l \/ r = MEM_ERR /\ ok = false /\ d' = d).
Proof.
  intros Hwf Hc Ha Hvs Hcap. pose proof (rep_intro d l Hwf Hc) as Hr.
  assert (0 < length vs) by (destruct vs; simpl; [done|lia]).
  pose proof (push_front_range_refines d _ vs ok Hr) as H0. rewrite Ha in H0.
  unfold deq_room in H0. cbn [q_list q_cap q_grow negb] in H0.
  specialize (H0 ltac:(done)).
  destruct (decide (length l + length vs < d_cap d)).
  - destruct H0 as (d' & -> & Hr'); [lia|].
    destruct (rep_elim _ _ Hr') as (? & ? & ? & ?). eauto 10.
  - destruct ok.
    + destruct H0 as (d' & -> & Hr'). { destruct (d_cap d); lia. }
      destruct (rep_elim _ _ Hr') as (? & ? & ? & ?). eauto 10.
    + rewrite H0. eauto 10.
Qed.

Lemma insert_mid_state d l k vs ok :
  fdeq_wf d -> fdeq_contents d = Some <$> l -> 0 < k < length l -> vs <> [] ->
  d_front d + length l + length vs <= d_cap d -> length l + length vs < d_cap d ->
  exists d', fdeq_insert_range d (Some ((d_front d + k) mod d_cap d)) vs ok
      = Ok (d', Some ((d_front d' + k) mod d_cap d')) /\ fdeq_wf d' /\
    fdeq_contents d' = Some <$> take k l ++ vs ++ drop k l.
Proof.
  intros Hwf Hc Hk Hvs H1 H2. pose proof (rep_intro d l Hwf Hc) as Hr.
  destruct (insert_mid_Ok d _ k vs ok Hr Hk Hvs H1 H2) as (d' & E & Hr').
  destruct (rep_elim _ _ Hr') as (? & ? & ? & ?). exists d'. eauto.
Qed.

Lemma copy_state dst src l has_fn ok :
  fdeq_wf src -> fdeq_contents src = Some <$> l ->
  exists dst' r, fdeq_copy dst src has_fn ok = Ok (dst', r) /\
    (d_cap src <= d_cap dst \/ has_fn = true /\ ok = true -> r = OK) /\
    (r = OK -> fdeq_contents dst' = fdeq_contents src).
Proof.
  intros Hwf Hc. pose proof (rep_intro src l Hwf Hc) as Hr.
  destruct (copy_defined dst src _ has_fn ok Hr) as (dst' & r & E & Hok).
  exists dst', r. split; [done|]. split; [done|]. intros ->.
  by apply (copy_refines _ _ _ _ _ _ Hr E).
Qed.

End proofs.
