(** The two-way search of SvModel.v finds the first occurrence. *)
From stdpp Require Import base numbers option list.
From Verif Require Import Common SvModel SvFactor.

Lemma schar_inj a b : (a < 256)%N -> (b < 256)%N -> schar a = schar b -> a = b.
Proof. unfold schar. intros Ha Hb. destruct (N.ltb_spec a 128), (N.ltb_spec b 128); lia. Qed.

Section search.
Context (x : nat -> N) (n : nat) (h : nat -> N) (hn : nat).
Context (at_n at_h : nat -> outcome N).
Context (Hx : forall i, i < n -> at_n i = Ok (x i)) (Hh : forall i, i < hn -> at_h i = Ok (h i)).
Context (Hb : forall i, i < n -> (x i < 256)%N) (Hn : 1 <= n).
Local Notation key flip := (fun i => if flip : bool then - schar (x i) else schar (x i))%Z.

Definition hit (l : nat) : Prop := l + n <= hn /\ forall j, j < n -> x j = h (j + l).
Definition first_hit (r : option nat) : Prop :=
  match r with
  | Some l => hit l /\ forall i, i < l -> ~ hit i
  | None => forall i, ~ hit i
  end.

Lemma suffix_loop_Ok flip fuel : forall m p j k,
  reading (key flip) n m p j k -> m <= j + 1 -> 2 * n <= fuel + m + (j + k) ->
  exists m' p', suffix_loop at_n n fuel flip m p j k = Ok (m', p') /\ factored (key flip) n m' p'.
Proof.
  induction fuel as [|fuel IH]; intros m p j k Hr Hm Hf; cbn [suffix_loop].
  - destruct (Nat.ltb_spec (j + k) n); [|exists m, p; split; [done|by apply reading_done in Hr]].
    destruct Hr as (_ & _ & _ & (a & Ha & Ha1) & Hk & _). assert (m + p <= j + 1) by nia. lia.
  - destruct (Nat.ltb_spec (j + k) n) as [Hlt|]; [|exists m, p; split; [done|by apply reading_done in Hr]].
    pose proof Hr as (_ & _ & _ & (a & Ha & Ha1) & Hk & _). assert (m + p <= j + 1) by nia.
    rewrite !Hx by lia. cbn [obind mbind outcome_bind].
    assert (forall c, (if flip then CompOpp (sv_char_cmp (x (j + k)) (x (m + k - 1))) else sv_char_cmp (x (j + k)) (x (m + k - 1))) = c ->
      c = ((key flip) (j + k)%nat ?= (key flip) (m + k - 1)%nat)%Z) as Hcmp.
    { intros c <-. unfold sv_char_cmp. destruct flip; [|done]. by rewrite <- Z.compare_opp, <- Z.compare_antisym. }
    destruct (if flip then _ else _) eqn:E; specialize (Hcmp _ eq_refl); symmetry in Hcmp.
    + apply Z.compare_eq in Hcmp. destruct (Nat.eqb_spec k p) as [->|].
      * apply IH; [by apply (reading_wrap _ _ _ _ _ p)|lia|lia].
      * apply IH; [by apply reading_eq|lia|lia].
    + apply Z.compare_lt_iff in Hcmp. apply IH; [by apply (reading_less _ _ _ p)|lia|lia].
    + apply Z.compare_gt_iff in Hcmp. apply IH; [by apply (reading_greater _ _ m p j k)|lia|lia].
Qed.
Lemma maximal_suffix_Ok flip : exists m p, maximal_suffix at_n n flip = Ok (m, p) /\ factored (key flip) n m p.
Proof. apply suffix_loop_Ok; [by apply reading_init|lia|lia]. Qed.

(** What the two suffixes tell, in terms of the bytes. *)
Definition critical_at (c p : nat) : Prop :=
  1 <= p /\ c + p <= n /\
  (forall d, c + d + p < n -> x (c + d) = x (c + d + p)) /\
  (forall k, 1 <= k -> (forall j, j < c -> c <= j + k -> j + k < n -> x j = x (j + k)) ->
     c < k /\ (forall j, j + k < n -> x j = x (j + k)) /\ (c + k <= n -> p <= k /\ forall j, j + p < n -> x j = x (j + p))).

Lemma factored_ext y z m p : (forall i, i < n -> y i = z i) -> factored y n m p -> factored z n m p.
Proof.
  intros E (H1 & H2 & H3 & H4 & H5). split_and!; try done.
  - intros i Hi. destruct (H1 i Hi) as (e & He & B1 & B2). exists e. split; [done|]. split.
    + intros d Hd. rewrite <- !E by lia. by apply B1.
    + by rewrite <- !E by lia.
  - intros d Hd. destruct (H2 d Hd) as (e & He & B1 & B2). exists e. split; [done|]. split.
    + intros t Ht. rewrite <- !E by lia. by apply B1.
    + by rewrite <- !E by lia.
  - intros d Hd. rewrite <- !E by lia. by apply H3.
Qed.

Lemma key_eq flip i j : i < n -> j < n -> (key flip) i = (key flip) j <-> x i = x j.
Proof.
  intros Hi Hj. split; [|by intros ->]. intros E. apply schar_inj; [by apply Hb..|]. destruct flip; lia.
Qed.

Lemma critical_bytes flip c p c' p' : factored (key flip) n c p -> factored (key (negb flip)) n c' p' -> c' <= c -> critical_at c p.
Proof.
  intros Hf Hf' Hc. assert (factored (fun i => - (key flip) i)%Z n c' p') as Hf2.
  { eapply factored_ext; [|exact Hf']. intros i Hi. destruct flip; cbn; lia. }
  pose proof Hf as (_ & _ & Hp & Hp1 & Hcp). split_and!; [done..| |].
  - intros d Hd. apply (key_eq flip); [lia..|]. by apply Hp.
  - intros k Hk HL. destruct (critical (key flip) n c p c' p' k) as [H1 H2]; [done..| |].
    { intros j Hj1 Hj2 Hj3. apply key_eq; [lia..|]. by apply HL. }
    split; [done|]. split.
    + intros j Hj. apply (key_eq flip); [lia..|]. by apply (H2 j).
    + intros Hck. split.
      * apply (factored_least (key flip) n c p k); [done|done|done|]. intros d Hd. specialize (H2 (c + d)). cbn in H2. apply H2. lia.
      * intros j Hj. apply (key_eq flip); [lia..|].
        by apply (critical_period (key flip) n c p c' p' k Hf Hf2 Hc Hk Hck H2 j).
Qed.

Lemma same_loop_Ok len : forall i j, i + len <= n -> j + len <= n ->
  exists b, same_loop at_n len i j = Ok b /\ (b = true <-> forall t, t < len -> x (i + t) = x (j + t)).
Proof.
  induction len as [|len IH]; intros i j Hi Hj; cbn [same_loop].
  { exists true. split; [done|]. split; [intros _ t Ht; lia|done]. }
  rewrite !Hx by lia. cbn [obind mbind outcome_bind]. destruct (N.eqb_spec (x i) (x j)) as [E|E].
  - destruct (IH (i + 1) (j + 1)) as (b & -> & Hbb); [lia..|]. exists b. split; [done|]. rewrite Hbb. split.
    + intros H t Ht. destruct t as [|t]; [by rewrite !Nat.add_0_r|]. specialize (H t).
      replace (i + S t) with (i + 1 + t) by lia. replace (j + S t) with (j + 1 + t) by lia. apply H. lia.
    + intros H t Ht. specialize (H (S t)). replace (i + 1 + t) with (i + S t) by lia. replace (j + 1 + t) with (j + S t) by lia.
      apply H. lia.
  - exists false. split; [done|]. split; [done|]. intros H. specialize (H 0). rewrite !Nat.add_0_r in H. destruct E. apply H. lia.
Qed.

Lemma right_loop_Ok len : forall lpos r, r + len = n -> lpos + n <= hn ->
  exists r', right_loop at_n at_h len lpos r = Ok r' /\ r <= r' <= n /\
    (forall t, r <= t < r' -> x t = h (t + lpos)) /\ (r' < n -> x r' <> h (r' + lpos)).
Proof.
  induction len as [|len IH]; intros lpos r Hr Hl; cbn [right_loop].
  { exists r. split; [done|]. split; [lia|]. split; [intros t Ht; lia|lia]. }
  rewrite Hx, Hh by lia. cbn [obind mbind outcome_bind]. destruct (N.eqb_spec (x r) (h (r + lpos))) as [E|E].
  - destruct (IH lpos (r + 1)) as (r' & -> & H1 & H2 & H3); [lia..|]. exists r'. split; [done|]. split; [lia|]. split; [|done].
    intros t Ht. destruct (decide (t = r)) as [->|]; [done|]. apply H2. lia.
  - exists r. split; [done|]. split; [lia|]. split; [intros t Ht; lia|done].
Qed.
Lemma left_loop_Ok r : forall memo lpos, r <= n -> lpos + n <= hn ->
  exists r', left_loop at_n at_h r memo lpos = Ok r' /\ r' <= r /\
    (r' <= memo -> forall t, memo <= t < r -> x t = h (t + lpos)) /\
    (memo < r' -> 1 <= r' /\ x (r' - 1) <> h (r' - 1 + lpos)).
Proof.
  induction r as [|r IH]; intros memo lpos Hr Hl; cbn [left_loop].
  { exists 0. split; [done|]. split; [lia|]. split; [intros _ t Ht; lia|lia]. }
  destruct (Nat.ltb_spec memo (S r)) as [Hm|Hm].
  - rewrite Hx, Hh by lia. cbn [obind mbind outcome_bind]. destruct (N.eqb_spec (x r) (h (r + lpos))) as [E|E].
    + destruct (IH memo lpos) as (r' & -> & H1 & H2 & H3); [lia..|]. exists r'. split; [done|]. split; [lia|]. split; [|done].
      intros Hle t Ht. destruct (decide (t = r)) as [->|]; [done|]. apply H2; lia.
    + exists (S r). split; [done|]. split; [lia|]. split; [lia|]. intros _. split; [lia|].
      by replace (S r - 1) with r by lia.
  - exists (S r). split; [done|]. split; [lia|]. split; [intros _ t Ht; lia|lia].
Qed.

Section loops.
Context (c p : nat) (Hc : critical_at c p).

(** After a mismatch in the right part. *)
Lemma skip_right lpos r i : c <= r < n -> (forall t, c <= t < r -> x t = h (t + lpos)) -> x r <> h (r + lpos) ->
  hit i -> lpos <= i -> lpos + (r + 1 - c) <= i.
Proof.
  intros Hr Hm Hne [Hi1 Hi2] Hle. destruct (decide (i = lpos)) as [->|Hne']; [by destruct Hne; apply Hi2; lia|].
  destruct (decide (lpos + (r + 1 - c) <= i)) as [|Hlt]; [done|]. exfalso.
  set (k := i - lpos). destruct Hc as (_ & _ & _ & HL). destruct (HL k) as (_ & Hper & _); [lia| |].
  { intros j Hj1 Hj2 Hj3. rewrite Hi2 by lia. rewrite Hm by lia. f_equal. lia. }
  destruct Hne. specialize (Hper (r - k)). replace (r - k + k) with r in Hper by lia. rewrite <- Hper by lia.
  rewrite Hi2 by lia. f_equal. lia.
Qed.
(** After a match of the right part and a mismatch of the left part. *)
Lemma skip_left lpos i : (forall t, c <= t < n -> x t = h (t + lpos)) -> hit i -> lpos < i ->
  let k := i - lpos in c < k /\ (forall j, j + k < n -> x j = x (j + k)) /\ (c + k <= n -> p <= k /\ forall j, j + p < n -> x j = x (j + p)).
Proof.
  intros Hm [Hi1 Hi2] Hlt k. destruct Hc as (_ & _ & _ & HL). apply (HL k); [lia|].
  intros j Hj1 Hj2 Hj3. rewrite Hi2 by lia. rewrite Hm by lia. f_equal. lia.
Qed.

Lemma memo_loop_Ok (Hper : forall j, j + p < n -> x j = x (j + p)) fuel : forall lpos memo,
  hn < lpos + fuel -> memo <= n -> (lpos + n <= hn -> forall t, t < memo -> x t = h (t + lpos)) -> (forall i, i < lpos -> ~ hit i) ->
  exists r, memo_loop at_n n at_h hn fuel p c lpos memo = Ok r /\ first_hit r.
Proof.
  pose proof Hc as (Hp1 & Hcp & _ & HL).
  assert (c < p) as Hlt. { apply (HL p); [done|]. intros j _ _ Hj. by apply Hper. }
  induction fuel as [|fuel IH]; intros lpos memo Hf Hmn Hmemo Hnone; cbn [memo_loop].
  - destruct (Nat.leb_spec (lpos + n) hn); [lia|]. exists None. split; [done|]. intros i [Hi Hi']. apply (Hnone i); [lia|done].
  - destruct (Nat.leb_spec (lpos + n) hn) as [Hin|Hout]; cycle 1.
    { exists None. split; [done|]. intros i [Hi Hi']. apply (Hnone i); [lia|done]. }
    specialize (Hmemo Hin). destruct (right_loop_Ok (n - max c memo) lpos (max c memo)) as (r & -> & Hr & Hm & Hne); [lia|done|].
    cbn [obind mbind outcome_bind].
    assert (forall t, c <= t < r -> x t = h (t + lpos)) as Hm'.
    { intros t Ht. destruct (decide (t < memo)); [by apply Hmemo|]. apply Hm. lia. }
    destruct (Nat.ltb_spec r n) as [Hrn|Hrn].
    + apply IH; [lia|lia|intros _ t Ht; lia|]. intros i Hi Hhit. destruct (decide (i < lpos)) as [|Hge]; [by apply (Hnone i)|].
      enough (lpos + (r + 1 - c) <= i) by lia. apply skip_right; [lia|done|by apply Hne|done|lia].
    + assert (r = n) as -> by lia. destruct (left_loop_Ok c memo lpos) as (l & -> & Hl & Hl1 & Hl2); [lia|done|].
      cbn [obind mbind outcome_bind]. destruct (Nat.leb_spec l memo) as [Hlm|Hlm].
      * exists (Some lpos). split; [done|]. split; [|done]. split; [done|]. intros j Hj.
        destruct (decide (j < memo)); [by apply Hmemo|]. destruct (decide (c <= j)); [apply Hm'; lia|]. apply Hl1; lia.
      * apply IH; [lia|lia| |].
        { intros _ t Ht. rewrite (Hper t) by lia. rewrite Hm' by lia. f_equal. lia. }
        intros i Hi Hhit. destruct (Nat.lt_total i lpos) as [|[->|Hgt]]; [by apply (Hnone i)| |].
        -- destruct Hl2 as [? Hd]; [done|]. apply Hd. apply Hhit. lia.
        -- pose proof (skip_left lpos i Hm' Hhit Hgt) as (_ & _ & Hk). destruct Hk as [Hk _]; lia.
Qed.

Lemma normal_loop_Ok (Hnot : ~ (forall j, j < c -> x j = x (j + p))) fuel : forall lpos,
  hn < lpos + fuel -> (forall i, i < lpos -> ~ hit i) ->
  exists r, normal_loop at_n n at_h hn fuel (max c (n - c) + 1) c lpos = Ok r /\ first_hit r.
Proof.
  pose proof Hc as (Hp1 & Hcp & _ & HL).
  induction fuel as [|fuel IH]; intros lpos Hf Hnone; cbn [normal_loop].
  - destruct (Nat.leb_spec (lpos + n) hn); [lia|]. exists None. split; [done|]. intros i [Hi Hi']. apply (Hnone i); [lia|done].
  - destruct (Nat.leb_spec (lpos + n) hn) as [Hin|Hout]; cycle 1.
    { exists None. split; [done|]. intros i [Hi Hi']. apply (Hnone i); [lia|done]. }
    destruct (right_loop_Ok (n - c) lpos c) as (r & -> & Hr & Hm & Hne); [lia|done|].
    cbn [obind mbind outcome_bind].
    destruct (Nat.ltb_spec r n) as [Hrn|Hrn].
    + apply IH; [lia|]. intros i Hi Hhit. destruct (decide (i < lpos)) as [|Hge]; [by apply (Hnone i)|].
      enough (lpos + (r + 1 - c) <= i) by lia. apply skip_right; [lia|done|by apply Hne|done|lia].
    + assert (r = n) as -> by lia. destruct (left_loop_Ok c 0 lpos) as (l & -> & Hl & Hl1 & Hl2); [lia|done|].
      cbn [obind mbind outcome_bind]. destruct (Nat.eqb_spec l 0) as [->|Hlm].
      * exists (Some lpos). split; [done|]. split; [|done]. split; [done|]. intros j Hj.
        destruct (decide (c <= j)); [apply Hm; lia|]. apply Hl1; lia.
      * apply IH; [lia|]. intros i Hi Hhit. destruct (Nat.lt_total i lpos) as [|[->|Hgt]]; [by apply (Hnone i)| |].
        -- destruct Hl2 as [? Hd]; [lia|]. apply Hd. apply Hhit. lia.
        -- pose proof (skip_left lpos i Hm Hhit Hgt) as (Hk1 & _ & Hk).
           destruct Hnot. destruct Hk as [_ Hk]; [lia|]. intros j Hj. apply Hk. lia.
Qed.
End loops.

Theorem two_way_Ok : exists r, two_way at_n n at_h hn = Ok r /\ first_hit r.
Proof.
  unfold two_way. destruct (maximal_suffix_Ok false) as (m1 & p1 & -> & F1). destruct (maximal_suffix_Ok true) as (m2 & p2 & -> & F2).
  cbn [obind mbind outcome_bind fst].
  assert (exists c p, (if m2 <? m1 then (m1, p1) else (m2, p2)) = (c, p) /\ critical_at c p) as (c & p & -> & Hc).
  { destruct (Nat.ltb_spec m2 m1) as [Hlt|Hge].
    - exists m1, p1. split; [done|]. apply (critical_bytes false m1 p1 m2 p2); [done|done|lia].
    - exists m2, p2. split; [done|]. apply (critical_bytes true m2 p2 m1 p1); [done|done|lia]. }
  cbv iota. pose proof Hc as (Hp1 & Hcp & Hp & _). destruct (same_loop_Ok c 0 p) as (b & -> & Hsame); [lia|lia|].
  cbn [obind mbind outcome_bind]. destruct b.
  - apply memo_loop_Ok; [done| |lia|lia|intros _ t Ht; lia|intros i Hi; lia].
    intros j Hj. destruct (decide (j < c)) as [Hjc|Hjc].
    + destruct Hsame as [Hs _]. specialize (Hs eq_refl j Hjc). cbn in Hs. rewrite Hs. f_equal. lia.
    + specialize (Hp (j - c)). replace (c + (j - c)) with j in Hp by lia. by apply Hp.
  - apply normal_loop_Ok with (p := p); [done| |lia|intros i Hi; lia].
    intros H. destruct Hsame as [_ Hs]. discriminate Hs. intros t Ht. cbn. rewrite H by done. f_equal. lia.
Qed.
End search.
