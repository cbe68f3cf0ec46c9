(** The elements written by a deque over a history. Each element pushed pays for
    three writes: its own, and two that are saved for the next growth. *)
From stdpp Require Import base numbers option list.
From Verif Require Import Common BufferModel FdeqModel FdeqSpec FdeqProofs TickModel FdeqCostModel FdeqCostSpec.

Section cost.
Context {A : Type}.
Implicit Types d : fdeq A.

(** Erasure. *)
Lemma unroll_erase d mem : untick (unroll_c d mem) = unroll d mem.
Proof.
  unfold unroll_c, unroll. rewrite untick_obind. apply bind_ext; [done|]. intros c1. rewrite untick_bind.
  apply bind_ext. { unfold copy_in_c. by destruct (copy_in _ _ _). }
  intros m1. destruct (_ <? _); [|done]. rewrite untick_obind. apply bind_ext; [done|]. intros c2.
  unfold copy_in_c. by destruct (copy_in _ _ _).
Qed.
Lemma resize_erase d n ok : untick (maybe_resize_c d n ok) = maybe_resize d n ok.
Proof.
  unfold maybe_resize_c, maybe_resize. repeat (destruct (if _ then _ else _); try done).
  destruct (_ <? _); [done|]. destruct (negb _); [done|]. destruct (negb _); [done|].
  cbv zeta. rewrite untick_bind. apply bind_ext; [|done]. destruct (d_sz d =? 0); [done|]. apply unroll_erase.
Qed.
Lemma copy_erase (l : slots A) i vs : untick (copy_in_c l i vs) = copy_in l i vs.
Proof. unfold copy_in_c. by destruct (copy_in _ _ _). Qed.
Lemma overwrite_erase d l : untick (overwrite_all_c d l) = overwrite_all d l.
Proof. unfold overwrite_all_c, overwrite_all. cbv zeta. rewrite untick_bind. by rewrite copy_erase. Qed.

Lemma step_erase d o : untick (fdeq_step_c d o) = fdeq_step d o.
Proof.
  destruct o; cbn [fdeq_step_c]; try apply untick_plain; cbn [fdeq_step]; rewrite untick_bind; apply bind_ext.
  - unfold fdeq_push_back_c, fdeq_push_back. rewrite untick_bind. apply bind_ext.
    + unfold alloc_back_c, alloc_back. rewrite untick_bind, resize_erase. apply bind_ext; [done|]. intros [d1 r].
      rewrite untick_if. destruct (_ && _); [done|]. by rewrite untick_obind.
    + intros [d1 [i|]]; [|done]. by rewrite untick_obind.
  - intros [d1 r]. by rewrite untick_obind.
  - unfold fdeq_push_front_c, fdeq_push_front. rewrite untick_bind. apply bind_ext.
    + unfold alloc_front_c, alloc_front. rewrite untick_bind, resize_erase. apply bind_ext; [done|]. intros [d1 r].
      rewrite untick_if. destruct (_ && _); [done|]. by destruct (d_cap d1 =? 0).
    + intros [d1 [i|]]; [|done]. by rewrite untick_obind.
  - intros [d1 r]. by rewrite untick_obind.
  - unfold fdeq_push_back_range_c, fdeq_push_back_range. cbv zeta. rewrite untick_bind, resize_erase.
    apply bind_ext; [done|]. intros [d1 r]. destruct (_ && _); [done|]. destruct (_ <=? _).
    { rewrite untick_bind, overwrite_erase. done. }
    rewrite untick_obind. apply bind_ext; [done|]. intros b. rewrite untick_obind. apply bind_ext; [done|]. intros rb.
    rewrite untick_bind, copy_erase. apply bind_ext; [done|]. intros s1. rewrite untick_bind. apply bind_ext.
    { destruct (_ =? 0); [done|]. apply copy_erase. }
    intros s2. by rewrite untick_obind.
  - by intros [d1 r].
  - unfold fdeq_push_front_range_c, fdeq_push_front_range. cbv zeta. rewrite untick_bind, resize_erase.
    apply bind_ext; [done|]. intros [d1 r]. destruct (_ && _); [done|]. destruct (_ <=? _).
    { rewrite untick_bind, overwrite_erase. done. }
    rewrite untick_bind, copy_erase. apply bind_ext; [done|]. intros s1. rewrite untick_bind. apply bind_ext; [|done].
    destruct (_ =? 0); [done|]. apply copy_erase.
  - by intros [d1 r].
Qed.
Lemma run_erase os : forall d, untick (fdeq_run_c d os) = fdeq_run d os.
Proof.
  induction os as [|o os IH]; intros d; [done|]. cbn [fdeq_run_c fdeq_run]. rewrite untick_bind, step_erase.
  apply bind_ext; [done|]. intros [d1 r]. rewrite untick_bind, IH. apply bind_ext; [done|]. by intros [].
Qed.

(** The writes saved for the next growth. *)
Definition saved d : nat := 2 * d_sz d - d_cap d.

Lemma tbind_Ok {X Y} (m : ticked X) (f : X -> ticked Y) y n : tbind f m = Ok (y, n) ->
  exists x k1 k2, m = Ok (x, k1) /\ f x = Ok (y, k2) /\ n = k1 + k2.
Proof.
  destruct m as [[x k1]| |]; cbn; try done. destruct (f x) as [[y' k2]| |] eqn:E; cbn; try done.
  intros [= <- <-]. eauto 10.
Qed.
Lemma obind_Ok {X Y} (m : outcome X) (f : X -> outcome Y) y : (x ← m; f x) = Ok y -> exists x, m = Ok x /\ f x = Ok y.
Proof. destruct m as [x| |]; cbn; try done. eauto. Qed.
Lemma copy_Ok (l l' : slots A) i vs n : copy_in_c l i vs = Ok (l', n) -> length l' = length l /\ n = length vs.
Proof.
  unfold copy_in_c, copy_in. destruct (Nat.leb_spec (i + length vs) (length l)); cbn; intros [= <- <-].
  rewrite !app_length, take_length, drop_length. lia.
Qed.
Lemma copy_out_Ok (l : slots A) i n vs : copy_out l i n = Ok vs -> length vs = n.
Proof. unfold copy_out. destruct (Nat.leb_spec (i + n) (length l)); intros [= <-]. rewrite take_length, drop_length. lia. Qed.
Lemma set_Ok (l l' : slots A) i x : slot_set l i x = Ok l' -> length l' = length l.
Proof. unfold slot_set. destruct (_ <? _); intros [= <-]. apply insert_length. Qed.

Lemma unroll_Ok d mem m n : unroll_c d mem = Ok (m, n) -> length m = length mem /\ n = d_sz d.
Proof.
  unfold unroll_c. intros H. apply obind_Ok in H as (c1 & H1 & H). apply tbind_Ok in H as (m1 & k1 & k2 & H2 & H & ->).
  apply copy_out_Ok in H1. apply copy_Ok in H2 as [L1 ->].
  destruct (Nat.ltb_spec (min (d_sz d) (d_cap d - d_front d)) (d_sz d)).
  - apply obind_Ok in H as (c2 & H3 & H). apply copy_out_Ok in H3. apply copy_Ok in H as [L2 ->]. lia.
  - injection H as <- <-. lia.
Qed.

(** What a growth or its absence leaves, [add] elements being about to come. *)
Lemma resize_Ok d add ok d1 r n : d_sz d <= d_cap d -> maybe_resize_c d add ok = Ok (d1, r, n) ->
  d_sz d1 = d_sz d /\ d_alloc d1 = d_alloc d /\
  (d_cap d1 = d_cap d /\ n = 0 /\ (is_ok r = true -> d_sz d + add < d_cap d) \/
   d_cap d = 0 /\ n = 0 /\ d_cap d1 = 8 /\ is_ok r = true \/
   d_cap d <> 0 /\ d_cap d <= d_sz d + add /\ n = d_sz d /\ d_cap d1 = (d_cap d + add) * 2 /\ is_ok r = true) /\
  (d_alloc d = false -> n = 0 /\ d_cap d1 = d_cap d).
Proof.
  intros Hs. unfold maybe_resize_c. destruct (Nat.ltb_spec (d_sz d + add) (d_cap d)) as [Hl|Hl].
  { intros [= <- <- <-]. split_and!; try done. by left. }
  destruct (d_alloc d) eqn:Ha; cbn [negb]; [|intros [= <- <- <-]; split_and!; try done; by left].
  destruct ok; cbn [negb]; [|intros [= <- <- <-]; split_and!; try done; by left].
  intros H. apply tbind_Ok in H as (m & k1 & k2 & H & [= <- <- <-] & ->).
  assert (length m = (if d_cap d =? 0 then start_capacity else (d_cap d + add) * 2) /\ k1 = d_sz d) as [Hm ->].
  { destruct (Nat.eqb_spec (d_sz d) 0).
    - injection H as <- <-. by rewrite replicate_length.
    - apply unroll_Ok in H as [-> ->]. by rewrite replicate_length. }
  unfold d_sz, d_cap, d_alloc, b_cap in *. cbn [d_buf b_sz b_alloc b_slots] in *. rewrite Hm.
  split_and!; try done. right. destruct (Nat.eqb_spec (length (b_slots (d_buf d))) 0); [left|right]; split_and!; try done; lia.
Qed.

Lemma overwrite_Ok d l d' n : overwrite_all_c d l = Ok (d', n) -> d_cap d <= length l ->
  d_sz d' = d_cap d /\ d_cap d' = d_cap d /\ n = d_cap d.
Proof.
  unfold overwrite_all_c. cbv zeta. intros H Hl. apply tbind_Ok in H as (m & k1 & k2 & H & [= <- <-] & ->).
  apply copy_Ok in H as [Hm ->]. rewrite fmap_length, drop_length.
  unfold d_slots, d_sz, d_cap, b_cap in *. cbn [d_buf b_sz b_slots] in *. lia.
Qed.

(** One call pays for its writes and for what it saves. *)
Definition pays d (o : fdeq_op A) d' n : Prop :=
  d_sz d' <= d_cap d' /\ n + saved d' <= 3 * offered o + saved d /\
  (d_alloc d = false -> n <= offered o) /\ n <= d_sz d + offered o.

Ltac settle :=
  repeat match goal with
  | H : _ \/ _ |- _ => destruct H
  | H : _ /\ _ |- _ => destruct H
  end;
  repeat match goal with
  | H : is_ok ?r = true, H' : is_ok ?r = true -> _ |- _ => specialize (H' H)
  end;
  split_and!; intros;
  repeat match goal with
  | H : ?b = false, H' : ?b = false -> _ |- _ => specialize (H' H)
  | H : true = true -> _ |- _ => specialize (H eq_refl)
  | H : _ /\ _ |- _ => destruct H
  end; try done; lia.
Lemma step_pays d o d' r n : d_sz d <= d_cap d -> fdeq_step_c d o = Ok (d', r, n) -> pays d o d' n.
Proof.
  intros Hs. unfold pays, saved.
  assert (forall d1 d2, d_sz d2 <= d_sz d1 -> d_cap d2 = d_cap d1 -> d_sz d1 <= d_cap d1 ->
    d_sz d2 <= d_cap d2 /\ 0 + (2 * d_sz d2 - d_cap d2) <= 3 * 0 + (2 * d_sz d1 - d_cap d1)) as Hless by (intros; lia).
  assert (forall d n, d_sz (with_size d n) = n) as W1 by done.
  assert (forall d n, d_cap (with_size d n) = d_cap d) as W2 by done.
  assert (forall d n, d_cap (with_front d n) = d_cap d) as W3 by done.
  destruct o; cbn [fdeq_step_c offered].
  - intros H. apply tbind_Ok in H as ([d1 i] & k1 & k2 & H & H2 & ->). apply obind_Ok in H2 as (v & _ & [= <- <- <-]).
    apply tbind_Ok in H as ([d2 j] & k2 & k3 & H & H2 & ->).
    apply tbind_Ok in H as ([d3 r3] & k4 & k5 & H & H3 & ->). apply resize_Ok in H as (R1 & R2 & R3 & R4); [|done].
    assert (k5 = 0 /\ d_cap d2 = d_cap d3 /\ (d_sz d2 = d_sz d3 \/ is_ok r3 = true /\ d_sz d2 = S (d_sz d3))) as (-> & Q1 & Q2).
    { cbv zeta in H3. destruct (d_alloc d3 && negb (is_ok r3)) eqn:Ef; [injection H3 as <- <- <-; auto|]. apply obind_Ok in H3 as (b & _ & [= <- <- <-]).
      destruct (is_ok r3); cbn [negb]; (split; [done|]); (split; [done|]); [right; split; [done|cbn; lia]|left; done]. }
    assert (d_cap d1 = d_cap d2 /\ d_sz d1 = d_sz d2 /\ k3 <= 1) as (Q3 & Q4 & Q5).
    { destruct j; [|injection H2 as <- <- <-; auto]. apply obind_Ok in H2 as (s & E & [= <- <- <-]).
      apply set_Ok in E. split_and!; try done. }
    clear Hless. settle.
  - intros H. apply tbind_Ok in H as ([d1 i] & k1 & k2 & H & H2 & ->). apply obind_Ok in H2 as (v & _ & [= <- <- <-]).
    apply tbind_Ok in H as ([d2 j] & k2 & k3 & H & H2 & ->).
    apply tbind_Ok in H as ([d3 r3] & k4 & k5 & H & H3 & ->). apply resize_Ok in H as (R1 & R2 & R3 & R4); [|done].
    assert (k5 = 0 /\ d_cap d2 = d_cap d3 /\ (d_sz d2 = d_sz d3 \/ is_ok r3 = true /\ d_sz d2 = S (d_sz d3))) as (-> & Q1 & Q2).
    { cbv zeta in H3. destruct (d_alloc d3 && negb (is_ok r3)) eqn:Ef; [injection H3 as <- <- <-; auto|]. destruct (d_cap d3 =? 0); [done|]. injection H3 as <- <- <-.
      destruct (is_ok r3); cbn [negb]; (split; [done|]); (split; [done|]); [right; split; [done|unfold d_sz; cbn; lia]|left; done]. }
    assert (d_cap d1 = d_cap d2 /\ d_sz d1 = d_sz d2 /\ k3 <= 1) as (Q3 & Q4 & Q5).
    { destruct j; [|injection H2 as <- <- <-; auto]. apply obind_Ok in H2 as (s & E & [= <- <- <-]).
      apply set_Ok in E. split_and!; try done. }
    clear Hless. settle.
  - unfold plain. cbn [fdeq_step]. unfold fdeq_pop_front. destruct (_ =? 0); cbn [mbind outcome_bind obind]; intros [= <- <- <-]; [lia|].
    rewrite ?W1, ?W2, ?W3; split_and!; try done; lia.
  - unfold plain. cbn [fdeq_step]. unfold fdeq_pop_back. destruct (_ <? 1); cbn [mbind outcome_bind obind]; intros [= <- <- <-];
    rewrite ?W1, ?W2, ?W3; split_and!; try done; lia.
  - intros H. apply tbind_Ok in H as ([d1 i] & k1 & k2 & H & [= <- <- <-] & ->). unfold fdeq_push_back_range_c in H. cbv zeta in H.
    apply tbind_Ok in H as ([d3 r3] & k4 & k5 & H & H3 & ->). apply resize_Ok in H as (R1 & R2 & R3 & R4); [|done].
    destruct (d_alloc d3 && negb (is_ok r3)) eqn:Ef; [injection H3 as <- <- <-; clear Hless; settle|].
    destruct (Nat.leb_spec (d_cap d3) (length l)) as [Hc|Hc].
    { apply tbind_Ok in H3 as (d4 & k6 & k7 & H3 & [= <- <- <-] & ->). apply overwrite_Ok in H3 as (O1 & O2 & ->); [|done]. clear Hless. settle. }
    apply obind_Ok in H3 as (b & _ & H3). apply obind_Ok in H3 as (rb & _ & H3).
    apply tbind_Ok in H3 as (s1 & k6 & k7 & C1 & H3 & ->). apply copy_Ok in C1 as [L1 ->].
    apply tbind_Ok in H3 as (s2 & k6 & k8 & C2 & H3 & ->). apply obind_Ok in H3 as (f & _ & [= <- <- <-]).
    assert (length s2 = d_cap d3 /\ k6 = length l - min (length l) (d_cap d3 - b)) as [L2 ->].
    { destruct (Nat.eqb_spec (length l - min (length l) (d_cap d3 - b)) 0).
      - injection C2 as <- <-. split; [by rewrite L1|lia].
      - apply copy_Ok in C2 as [-> ->]. rewrite fmap_length, drop_length. split; [by rewrite L1|lia]. }
    rewrite fmap_length, take_length.
    assert (forall (s : slots A) z al g, d_cap (Fdeq (Buf s z al) g) = length s) as -> by done.
    assert (forall (s : slots A) z al g, d_sz (Fdeq (Buf s z al) g) = z) as -> by done.
    rewrite L2. clear Hless. rewrite R2 in Ef. destruct (d_alloc d), (is_ok r3); try done; settle.
  - intros H. apply tbind_Ok in H as ([d1 i] & k1 & k2 & H & [= <- <- <-] & ->). unfold fdeq_push_front_range_c in H. cbv zeta in H.
    apply tbind_Ok in H as ([d3 r3] & k4 & k5 & H & H3 & ->). apply resize_Ok in H as (R1 & R2 & R3 & R4); [|done].
    destruct (d_alloc d3 && negb (is_ok r3)) eqn:Ef; [injection H3 as <- <- <-; clear Hless; settle|].
    destruct (Nat.leb_spec (d_cap d3) (length l)) as [Hc|Hc].
    { apply tbind_Ok in H3 as (d4 & k6 & k7 & H3 & [= <- <- <-] & ->). apply overwrite_Ok in H3 as (O1 & O2 & ->); [|done]. clear Hless. settle. }
    apply tbind_Ok in H3 as (s1 & k6 & k7 & C1 & H3 & ->). apply copy_Ok in C1 as [L1 ->].
    apply tbind_Ok in H3 as (s2 & k6 & k8 & C2 & [= <- <- <-] & ->).
    rewrite fmap_length, drop_length.
    remember (min (length l) (front_free_slot (d_front d3) (d_cap d3) + 1)) as c eqn:Ec.
    assert (length s2 = d_cap d3 /\ k6 = length l - c) as [L2 ->].
    { destruct (Nat.eqb_spec (length l - c) 0).
      - injection C2 as <- <-. split; [by rewrite L1|lia].
      - apply copy_Ok in C2 as [-> ->]. rewrite fmap_length, take_length. split; [by rewrite L1|lia]. }
    assert (forall (s : slots A) z al g, d_cap (Fdeq (Buf s z al) g) = length s) as -> by done.
    assert (forall (s : slots A) z al g, d_sz (Fdeq (Buf s z al) g) = z) as -> by done.
    rewrite L2. clear Hless. rewrite R2 in Ef. destruct (d_alloc d), (is_ok r3); try done; settle.
  - intros [= <- <- <-]. rewrite ?W1, ?W2, ?W3; split_and!; try done; lia.
  - unfold plain. cbn [fdeq_step]. intros H. apply obind_Ok in H as (x & H & [= -> <-]). apply obind_Ok in H as (v & _ & [= <- <-]). lia.
  - unfold plain. cbn [fdeq_step]. intros H. apply obind_Ok in H as (x & H & [= -> <-]). apply obind_Ok in H as (v & _ & H).
    apply obind_Ok in H as (v2 & _ & [= <- <-]). lia.
  - unfold plain. cbn [fdeq_step]. intros H. apply obind_Ok in H as (x & H & [= -> <-]). apply obind_Ok in H as (v & _ & H).
    apply obind_Ok in H as (v2 & _ & [= <- <-]). lia.
  - intros [= <- <- <-]. lia.
  - unfold plain. cbn [fdeq_step]. intros H. apply obind_Ok in H as (x & H & [= -> <-]). apply obind_Ok in H as (v & _ & [= <- <-]). lia.
Qed.

Lemma run_pays os : forall d d' rs n, d_sz d <= d_cap d -> fdeq_run_c d os = Ok (d', rs, n) ->
  n + saved d' <= 3 * offered_all os + saved d.
Proof.
  induction os as [|o os IH]; intros d d' rs n Hs; cbn [fdeq_run_c].
  { intros [= <- <- <-]. cbn. lia. }
  intros H. apply tbind_Ok in H as ([d1 r] & k1 & k2 & H1 & H & ->). apply tbind_Ok in H as ([d2 rs'] & k3 & k4 & H2 & [= <- <- <-] & ->).
  apply step_pays in H1 as (P1 & P2 & _); [|done]. apply IH in H2; [|done]. cbn [offered_all]. lia.
Qed.

Lemma any_history d d' os rs n : d_sz d <= d_cap d -> fdeq_run_c d os = Ok (d', rs, n) ->
  n <= 3 * offered_all os + d_sz d.
Proof. intros Hs H. apply run_pays in H; [|done]. unfold saved in H. lia. Qed.
Lemma new_history cap grow os q rs : deq_run (Deq [] cap grow) os = Some (q, rs) ->
  exists d n, fdeq_run_c (fresh_fdeq cap grow) os = Ok (d, rs, n) /\ n <= 3 * offered_all os.
Proof.
  intros H. apply history in H as (d & H & _). rewrite <- run_erase in H.
  destruct (fdeq_run_c _ os) as [[[d' rs'] n]| |] eqn:E; try done. cbn in H. injection H as <- <-.
  exists d', n. split; [done|]. apply run_pays in E; unfold saved, d_sz, d_cap, b_cap in *; cbn [fresh_fdeq d_buf b_sz b_slots] in *; lia.
Qed.
Lemma one_call d d' o r n : d_sz d <= d_cap d -> fdeq_step_c d o = Ok (d', r, n) ->
  (d_alloc d = false -> n <= offered o) /\ n <= d_sz d + offered o.
Proof. intros Hs H. apply step_pays in H as (_ & _ & H); done. Qed.
End cost.
