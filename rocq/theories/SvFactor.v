(** The critical factorization behind the two-way search of SvModel.v: the maximal
    suffixes for an order and for its reverse, and what the later one of the two
    positions tells about periods. Words are functions on the numbers below [n]. *)
From stdpp Require Import base numbers option list.
From Verif Require Import Common.

Section word.
Context (x : nat -> Z) (n : nat).

(** The suffix at [s1] is less than the one at [s2], seen at offset [e]. *)
Definition below (s1 s2 e : nat) : Prop := (forall d, d < e -> x (s1 + d) = x (s2 + d)) /\ (x (s1 + e) < x (s2 + e))%Z.

(** The suffix at [m] is greater than all before it and not less than any after it. *)
Definition tops_before (m : nat) : Prop := forall i, i < m -> exists e, m + e < n /\ below i m e.
Definition tops_after (m : nat) : Prop := forall i e, m < i -> i + e < n ->
  (forall d, d < e -> x (i + d) = x (m + d)) -> (x (i + e) <= x (m + e))%Z.
Definition has_period (m p i : nat) : Prop := forall d, m + d + p < i -> x (m + d) = x (m + d + p).
(** No shorter period, seen inside the first [p] letters. *)
Definition prime_block (m p : nat) : Prop := forall d, 0 < d < p -> exists e, d + e < p /\ below (m + d) m e.

(** The state of the computation, with [i] letters read. *)
Definition reading (m p j k : nat) : Prop :=
  tops_before m /\ prime_block m p /\ has_period m p (j + k) /\ (exists a, j + 1 = m + a * p /\ 1 <= a) /\
  1 <= k <= p /\ j + k <= n.
Definition factored (m p : nat) : Prop :=
  tops_before m /\ prime_block m p /\ has_period m p n /\ 1 <= p /\ m + p <= n.

Lemma period_times m p i a d : has_period m p i -> m + d + a * p < i -> x (m + d) = x (m + d + a * p).
Proof.
  intros H. induction a as [|a IH]; intros Hd; [by rewrite Nat.mul_0_l, Nat.add_0_r|].
  rewrite IH by lia. replace (m + d + a * p) with (m + (d + a * p)) by lia. rewrite H by lia. f_equal. lia.
Qed.

Lemma reading_init : 1 <= n -> reading 0 1 0 1.
Proof.
  intros. split_and!; try lia.
  - intros i Hi. lia.
  - intros d Hd. lia.
  - intros d Hd. lia.
  - exists 1. lia.
Qed.
Lemma reading_eq m p j k : reading m p j k -> j + k < n -> x (j + k) = x (m + k - 1) -> k <> p -> reading m p j (k + 1).
Proof.
  intros (H1 & H2 & H3 & (a & Ha & Ha1) & Hk & Hi) Hn He Hp. split_and!; try done; try lia; [|exists a; lia].
  intros d Hd. destruct (decide (m + d + p < j + k)) as [|Hge]; [by apply H3|].
  assert (m + d + p = j + k) as E by lia. rewrite E, He.
  replace (m + k - 1) with (m + (k - 1)) by lia. replace (m + d) with (m + (k - 1) + (a - 1) * p) by nia.
  symmetry. apply (period_times _ _ (j + k)); [done|]. nia.
Qed.
Lemma reading_wrap m p j k : reading m p j k -> j + k < n -> x (j + k) = x (m + k - 1) -> k = p -> reading m p (j + p) 1.
Proof.
  intros (H1 & H2 & H3 & (a & Ha & Ha1) & Hk & Hi) Hn He Hp. split_and!; try done; try lia; [|exists (S a); lia].
  intros d Hd. destruct (decide (m + d + p < j + k)) as [|Hge]; [by apply H3|].
  assert (m + d + p = j + k) as E by lia. rewrite E, He.
  replace (m + k - 1) with (m + (k - 1)) by lia. replace (m + d) with (m + (k - 1) + (a - 1) * p) by nia.
  symmetry. apply (period_times _ _ (j + k)); [done|]. nia.
Qed.

Lemma block_split p d : 1 <= p -> exists b d0, d = b * p + d0 /\ d0 < p.
Proof. intros. exists (d / p), (d mod p). split; [rewrite Nat.mul_comm; apply Nat.div_mod; lia|apply Nat.mod_upper_bound; lia]. Qed.

Lemma reading_less m p j k : reading m p j k -> j + k < n -> (x (j + k) < x (m + k - 1))%Z -> reading m (j + k + 1 - m) (j + k) 1.
Proof.
  intros (H1 & H2 & H3 & (a & Ha & Ha1) & Hk & Hi) Hn He. assert (m + p <= j + 1) by nia.
  split_and!; try done; try lia; [|intros d Hd; lia|exists 1; lia].
  intros d Hd. destruct (block_split p d) as (b & d0 & -> & Hd0); [lia|].
  destruct (decide (d0 = 0)) as [->|Hd0'].
  - (* a whole number of blocks: the difference is at the new letter *)
    assert (1 <= b) by nia. assert (b <= a) by nia.
    exists ((a - b) * p + (k - 1)). split; [nia|]. split.
    + intros t Ht. replace (m + (b * p + 0) + t) with (m + t + b * p) by lia. symmetry. apply (period_times _ _ (j + k)); [done|]. nia.
    + replace (m + (b * p + 0) + ((a - b) * p + (k - 1))) with (j + k) by nia.
      replace (m + ((a - b) * p + (k - 1))) with (m + (k - 1) + (a - b) * p) by lia.
      rewrite <- (period_times m p (j + k)); [|done|nia]. by replace (m + (k - 1)) with (m + k - 1) by lia.
  - destruct (H2 d0) as (e & He1 & He2 & He3); [lia|].
    destruct (decide (m + b * p + d0 + e < j + k)) as [Hin|Hout].
    + exists e. split; [lia|]. split.
      * intros t Ht. rewrite <- He2 by done. replace (m + (b * p + d0) + t) with (m + (d0 + t) + b * p) by lia.
        rewrite <- (period_times m p (j + k)); [|done|lia]. f_equal. lia.
      * replace (m + (b * p + d0) + e) with (m + (d0 + e) + b * p) by lia.
        rewrite <- (period_times m p (j + k)); [|done|lia]. by replace (m + (d0 + e)) with (m + d0 + e) by lia.
    + assert (b = a) as -> by nia. exists (k - 1 - d0). split; [nia|]. split.
      * intros t Ht. rewrite <- He2 by nia. replace (m + (a * p + d0) + t) with (m + (d0 + t) + a * p) by lia.
        rewrite <- (period_times m p (j + k)); [|done|nia]. f_equal. lia.
      * replace (m + (a * p + d0) + (k - 1 - d0)) with (j + k) by nia.
        assert (x (m + k - 1) <= x (m + (k - 1 - d0)))%Z; [|lia].
        replace (m + k - 1) with (m + d0 + (k - 1 - d0)) by lia.
        destruct (decide (k - 1 - d0 = e)) as [->|]; [lia|]. rewrite He2 by nia. lia.
Qed.

Lemma below_trans i1 i2 i3 e1 e2 : below i1 i2 e1 -> below i2 i3 e2 -> below i1 i3 (min e1 e2).
Proof.
  intros [A1 A2] [B1 B2]. split.
  - intros d Hd. rewrite A1 by lia. apply B1. lia.
  - destruct (Nat.lt_total e1 e2) as [H|[->|H]].
    + rewrite Nat.min_l by lia. by rewrite <- B1 by lia.
    + rewrite Nat.min_l by lia. lia.
    + rewrite Nat.min_r by lia. by rewrite A1 by lia.
Qed.

Lemma reading_greater m p j k : reading m p j k -> j + k < n -> (x (m + k - 1) < x (j + k))%Z -> reading (j + 1) 1 (j + 1) 1.
Proof.
  intros (H1 & H2 & H3 & (a & Ha & Ha1) & Hk & Hi) Hn He. assert (m + p <= j + 1) by nia.
  assert (forall i, m <= i < j + 1 -> exists e, j + 1 + e < n /\ below i (j + 1) e) as Hin.
  { intros i Hi'. destruct (block_split p (i - m)) as (b & d0 & Ed & Hd0); [lia|]. assert (b < a) by nia.
    assert (forall t, t < k - 1 -> x (j + 1 + t) = x (m + t)) as Hcopy.
    { intros t Ht. replace (j + 1 + t) with (m + t + a * p) by lia. symmetry. apply (period_times _ _ (j + k)); [done|]. lia. }
    assert (forall t, i + t < j + k -> x (i + t) = x (m + d0 + t)) as Hblock.
    { intros t Ht. replace (i + t) with (m + (d0 + t) + b * p) by lia. rewrite <- (period_times m p (j + k)); [|done|lia]. f_equal. lia. }
    destruct (decide (d0 = 0)) as [->|Hd0'].
    - exists (k - 1). split; [lia|]. split.
      + intros d Hd. rewrite Hcopy by lia. rewrite Hblock by nia. f_equal. lia.
      + rewrite Hblock by nia. replace (j + 1 + (k - 1)) with (j + k) by lia. by replace (m + 0 + (k - 1)) with (m + k - 1) by lia.
    - destruct (H2 d0) as (e & He1 & He2 & He3); [lia|].
      destruct (decide (e < k - 1)) as [Hek|Hek].
      + exists e. split; [lia|]. split.
        * intros d Hd. rewrite Hcopy by lia. rewrite Hblock by nia. by apply He2.
        * rewrite Hcopy by lia. rewrite Hblock by nia. done.
      + exists (k - 1). split; [lia|]. split.
        * intros d Hd. rewrite Hcopy by lia. rewrite Hblock by nia. apply He2. lia.
        * rewrite Hblock by nia. replace (j + 1 + (k - 1)) with (j + k) by lia.
          assert (x (m + d0 + (k - 1)) <= x (m + (k - 1)))%Z; [|replace (m + (k - 1)) with (m + k - 1) in * by lia; lia].
          destruct (decide (k - 1 = e)) as [->|]; [lia|]. rewrite He2 by lia. lia. }
  split_and!; try lia.
  - intros i Hi'. destruct (decide (m <= i)) as [|Hlt]; [apply Hin; lia|].
    destruct (H1 i) as (e1 & E1 & B1); [lia|]. destruct (Hin m) as (e2 & E2 & B2); [lia|].
    exists (min e1 e2). split; [lia|]. by apply below_trans with m.
  - intros d Hd. lia.
  - intros d Hd. lia.
  - exists 1. lia.
Qed.

Lemma reading_done m p j k : reading m p j k -> n <= j + k -> factored m p.
Proof.
  intros (H1 & H2 & H3 & (a & Ha & Ha1) & Hk & Hi) Hn. split_and!; try done; try lia; [|nia].
  by replace n with (j + k) by lia.
Qed.

Lemma factored_after m p : factored m p -> tops_after m.
Proof.
  intros (H1 & H2 & H3 & Hp & Hm) i e Hi Hn Heq.
  destruct (block_split p (i - m)) as (b & d0 & Ed & Hd0); [lia|].
  assert (forall t, i + t < n -> x (i + t) = x (m + d0 + t)) as Hblock.
  { intros t Ht. replace (i + t) with (m + (d0 + t) + b * p) by lia. rewrite <- (period_times m p n); [|done|lia]. f_equal. lia. }
  rewrite Hblock by done. destruct (decide (d0 = 0)) as [->|Hd0']; [replace (m + 0 + e) with (m + e) by lia; lia|].
  destruct (H2 d0) as (e0 & He1 & He2 & He3); [lia|].
  destruct (Nat.lt_total e e0) as [H|[->|H]].
  - rewrite He2 by done. lia.
  - lia.
  - specialize (Heq e0 H). rewrite Hblock in Heq by lia. lia.
Qed.
(** The period is the least one. *)
Lemma factored_least m p q : factored m p -> 1 <= q -> m + q <= n -> has_period m q n -> p <= q.
Proof.
  intros (H1 & H2 & H3 & Hp & Hm) Hq Hn Hper. destruct (decide (p <= q)) as [|Hlt]; [done|]. exfalso.
  destruct (H2 q) as (e & He1 & He2 & He3); [lia|]. specialize (Hper e). 
  replace (m + q + e) with (m + e + q) in He3 by lia. rewrite <- Hper in He3 by lia. lia.
Qed.
End word.

(** The critical factorization theorem: a square that is centered at the later one of the
    two positions, as far as it lies in the word, is a period of the word. *)
Definition local_period (x : nat -> Z) (n c k : nat) : Prop :=
  forall j, j < c -> c <= j + k -> j + k < n -> x j = x (j + k).
Lemma critical x n c p c' p' k : factored x n c p -> factored (fun i => - x i)%Z n c' p' -> c' <= c ->
  1 <= k -> local_period x n c k -> c < k /\ has_period x 0 k n.
Proof.
  intros Hf Hf' Hc Hk HL. pose proof (factored_after _ _ _ _ Hf) as Hmax. pose proof (factored_after _ _ _ _ Hf') as Hmax'.
  assert (c < k) as Hck.
  { destruct (decide (c < k)) as [|Hge]; [done|]. exfalso. destruct Hf as (Hb & _).
    destruct (Hb (c - k)) as (e & Hn & He1 & He2); [lia|].
    destruct (decide (e < k)) as [Hek|Hek].
    - rewrite (HL (c - k + e)) in He2 by lia. replace (c - k + e + k) with (c + e) in He2 by lia. lia.
    - replace (c - k + e) with (c + (e - k)) in He2 by lia. specialize (Hmax (c + k) (e - k)).
      replace (c + k + (e - k)) with (c + e) in Hmax by lia.
      enough (x (c + e)%nat <= x (c + (e - k))%nat)%Z by lia. apply Hmax; [lia|lia|].
      intros d Hd. specialize (He1 (k + d)). replace (c - k + (k + d)) with (c + d) in He1 by lia.
      replace (c + k + d) with (c + (k + d)) by lia. symmetry. apply He1. lia. }
  split; [done|].
  assert (forall d, c + d + k < n -> x (c + d) = x (c + d + k)) as Hright.
  { intros d. induction d as [d IH] using lt_wf_ind. intros Hn. apply Z.le_antisymm.
    - specialize (Hmax' (c' + k) (c - c' + d)).
      replace (c' + k + (c - c' + d)) with (c + d + k) in Hmax' by lia. replace (c' + (c - c' + d)) with (c + d) in Hmax' by lia.
      enough (- x (c + d + k)%nat <= - x (c + d)%nat)%Z by lia. apply Hmax'; [lia|lia|]. intros t Ht. f_equal.
      destruct (decide (t < c - c')) as [Hs|Hs].
      + replace (c' + k + t) with (c' + t + k) by lia. symmetry. apply HL; lia.
      + replace (c' + k + t) with (c + (t - (c - c')) + k) by lia. replace (c' + t) with (c + (t - (c - c'))) by lia.
        symmetry. apply IH; lia.
    - specialize (Hmax (c + k) d). replace (c + k + d) with (c + d + k) in Hmax by lia. apply Hmax; [lia|lia|].
      intros t Ht. replace (c + k + t) with (c + t + k) by lia. symmetry. apply IH; lia. }
  intros j Hj. cbn in *. destruct (decide (j < c)) as [|Hge]; [apply HL; lia|].
  replace j with (c + (j - c)) by lia. apply Hright. lia.
Qed.

(** If the word has a period no longer than the suffix, then the suffix's least period is
    one of the word. *)
Lemma critical_period x n c p c' p' k : factored x n c p -> factored (fun i => - x i)%Z n c' p' -> c' <= c ->
  1 <= k -> c + k <= n -> has_period x 0 k n -> has_period x 0 p n.
Proof.
  intros Hf Hf' Hc. induction k as [k IH] using lt_wf_ind. intros Hk Hn Hper.
  assert (p <= k) as Hpk.
  { apply (factored_least x n c p k Hf Hk Hn). intros d Hd. specialize (Hper (c + d)). cbn in Hper. apply Hper. lia. }
  destruct (decide (p = k)) as [->|Hne]; [done|].
  pose proof Hf as (_ & _ & Hp & Hp1 & _).
  apply (IH (k - p)); [lia|lia|lia|]. apply (critical x n c p c' p' (k - p)); [done..|lia|].
  intros j Hj Hcj Hjn. specialize (Hper j). cbn in Hper. rewrite Hper by lia.
  specialize (Hp (j + (k - p) - c)). replace (c + (j + (k - p) - c)) with (j + (k - p)) in Hp by lia.
  rewrite Hp by lia. f_equal. lia.
Qed.
