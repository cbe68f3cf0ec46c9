(** The search functions of the interface. *)
From stdpp Require Import base numbers option list.
From Verif Require Import Common SvModel SvSpec SvTwoWay SvSearch.

(** Parts of a text and of a view. *)
Lemma nth_of_drop k t i : nth_of (drop k t) i = nth_of t (k + i).
Proof.
  unfold nth_of. destruct (decide (k + i < length t)) as [H|H].
  - apply nth_lookup_Some. rewrite lookup_drop. by apply nth_of_lookup.
  - rewrite !nth_overflow; [done|lia|rewrite drop_length; lia].
Qed.
Lemma nth_of_take k t i : i < k -> nth_of (take k t) i = nth_of t i.
Proof.
  intros Hi. unfold nth_of. destruct (decide (i < length t)) as [H|H].
  - apply nth_lookup_Some. rewrite lookup_take by done. by apply nth_of_lookup.
  - rewrite !nth_overflow; [done|lia|rewrite take_length; lia].
Qed.
Lemma occurs_drop n h k i : k <= length h -> (occurs n (drop k h) i <-> occurs n h (k + i)).
Proof.
  intros Hk. rewrite !occurs_nth, drop_length. split; (intros [H1 H2]; split; [lia|]; intros j Hj; rewrite H2 by done).
  - rewrite nth_of_drop. f_equal. lia.
  - rewrite nth_of_drop. f_equal. lia.
Qed.
Lemma occurs_take n h k i : k <= length h -> (occurs n (take k h) i <-> occurs n h i /\ i + length n <= k).
Proof.
  intros Hk. rewrite !occurs_nth, take_length, Nat.min_l by done. split.
  - intros [H1 H2]. split; [|lia]. split; [lia|]. intros j Hj. rewrite H2 by done. apply nth_of_take. lia.
  - intros [[H1 H2] H3]. split; [lia|]. intros j Hj. rewrite H2 by done. symmetry. apply nth_of_take. lia.
Qed.
Lemma shows_len v t : shows v t -> len v = length t.
Proof. by intros (pre & post & _ & _ & _ & H & _). Qed.
Lemma shows_not_null v t : shows v t -> is_null (s v) = false.
Proof. intros (pre & post & H & _). unfold is_null. by rewrite H. Qed.
Lemma shows_part v a t b : shows v (a ++ t ++ b) -> shows (View (plus (s v) (length a)) (length t)) t.
Proof.
  intros (pre & post & Ha & Hp & Ho & Hl & HF). exists (pre ++ a), (b ++ post). rewrite <- !(assoc_L (++)) in *.
  split; [done|]. split; [by destruct b|]. split; [cbn; rewrite app_length; lia|]. split; [done|]. done.
Qed.
Lemma shows_drop v t k : shows v t -> k <= length t -> shows (View (plus (s v) k) (length t - k)) (drop k t).
Proof.
  intros Hv Hk. assert (t = take k t ++ drop k t ++ []) as E by by rewrite app_nil_r, take_drop.
  rewrite E in Hv. apply shows_part in Hv. rewrite take_length, drop_length, Nat.min_l in Hv by done. done.
Qed.
Lemma shows_take v t k : shows v t -> k <= length t -> shows (View (s v) k) (take k t).
Proof.
  intros Hv Hk. assert (t = [] ++ take k t ++ drop k t) as E by by rewrite app_nil_l, take_drop.
  rewrite E in Hv. apply shows_part in Hv. rewrite take_length, Nat.min_l in Hv by done. cbn in Hv. unfold plus in Hv.
  rewrite Nat.add_0_r in Hv. by destruct (s v).
Qed.
Lemma occurs_view v h n i : shows v h -> occurs n h i -> shows (View (plus (s v) i) (length n)) n.
Proof. intros Hv (a & b & -> & <-). by apply (shows_part v a n b). Qed.

Lemma too_long n h : length h < length n -> nowhere n h.
Proof. intros H i Hi. apply occurs_nth in Hi as [Hi _]. lia. Qed.
Lemma strnstrn_Ok hay h needle n : reads hay h -> reads needle n -> (forall i, nth_of h i < 256)%N -> (forall i, nth_of n i < 256)%N ->
  n <> [] -> exists r, sv_strnstrn (length h) hay (length n) needle = Ok r /\ finds n h r.
Proof.
  intros Hh Hn Bh Bn Hne. assert (1 <= length n) as H1 by (destruct n; [done|cbn; lia]). unfold sv_strnstrn.
  destruct (Nat.eqb_spec (length h) 0) as [E0|E0]; cbn [orb].
  { exists (length h). split; [done|]. right. split; [apply too_long; lia|done]. }
  destruct (Nat.eqb_spec (length n) 0) as [|_]; [lia|]. cbn [orb]. destruct (Nat.ltb_spec (length h) (length n)) as [Hlt|Hge].
  { exists (length h). split; [done|]. right. split; [by apply too_long|done]. }
  destruct (length n) as [|[|[|[|[|k]]]]] eqn:El; [lia| | | | |].
  - rewrite Hn by lia. cbn [obind mbind outcome_bind]. destruct n as [|c [|]]; try done. by apply strnchr_Ok.
  - apply two_Ok; first [done|lia].
  - apply three_Ok; first [done|lia].
  - apply four_Ok; first [done|lia].
  - rewrite <- El. apply tw_match_Ok; first [done|lia].
Qed.
Lemma rstrnstrn_Ok hay h needle n : reads hay h -> reads needle n -> (forall i, nth_of h i < 256)%N -> (forall i, nth_of n i < 256)%N ->
  n <> [] -> ascii_for n h -> exists r, sv_rstrnstrn (length h) hay (length n) needle = Ok r /\ rfinds n h r.
Proof.
  intros Hh Hn Bh Bn Hne Ha. assert (1 <= length n) as H1 by (destruct n; [done|cbn; lia]). unfold sv_rstrnstrn, ascii_for in *.
  destruct (Nat.eqb_spec (length h) 0) as [E0|E0]; cbn [orb].
  { exists (length h). split; [done|]. right. split; [apply too_long; lia|done]. }
  destruct (Nat.eqb_spec (length n) 0) as [|_]; [lia|]. cbn [orb]. destruct (Nat.ltb_spec (length h) (length n)) as [Hlt|Hge].
  { exists (length h). split; [done|]. right. split; [by apply too_long|done]. }
  destruct (length n) as [|[|[|[|[|k]]]]] eqn:El; [lia| | | | |].
  - rewrite Hn by lia. cbn [obind mbind outcome_bind]. destruct n as [|c [|]]; try done. by apply rstrnchr_Ok.
  - apply rtwo_Ok; first [done|lia].
  - apply rthree_Ok; first [done|lia].
  - destruct Ha as [|Ha]; [lia|]. apply rfour_Ok; try first [done|lia].
    intros i. destruct (decide (i < length h)) as [Hi|Hi].
    + rewrite Forall_lookup in Ha. apply (Ha i). by apply nth_of_lookup.
    + unfold nth_of. rewrite nth_overflow by lia. lia.
  - rewrite <- El. apply tw_rmatch_Ok; first [done|lia].
Qed.

Section find.
Context (hay needle : view) (h n : text).
Hypothesis hay_shows : shows hay h.
Hypothesis needle_shows : shows needle n.
Hypothesis not_empty : n <> [].

Lemma find_Ok pos : exists r, sv_find hay pos needle = Ok r /\
  ((pos <= r /\ occurs n h r /\ forall j, occurs n h j -> pos <= j -> r <= j) \/
   ((forall j, pos <= j -> ~ occurs n h j) /\ r = length h)).
Proof.
  unfold sv_find. rewrite (shows_len _ _ hay_shows), (shows_len _ _ needle_shows).
  destruct (Nat.ltb_spec (length h) (length n)) as [Hlt|Hge]; cbn [orb].
  { eexists. split; [done|]. right. split; [|done]. intros j _. by apply too_long. }
  destruct (Nat.ltb_spec (length h) pos) as [Hlt|Hle].
  { eexists. split; [done|]. right. split; [|done]. intros j Hj Hoc. apply occurs_nth in Hoc as [Hoc _]. lia. }
  pose proof (shows_drop hay h pos hay_shows Hle) as Hd.
  destruct (strnstrn_Ok (plus (s hay) pos) (drop pos h) (s needle) n) as (r & E & Hr).
  - exact (shows_reads _ _ Hd).
  - exact (shows_reads _ _ needle_shows).
  - intros i. exact (shows_bytes _ _ i Hd).
  - intros i. exact (shows_bytes _ _ i needle_shows).
  - done.
  - rewrite drop_length in E. rewrite E. cbn [obind mbind outcome_bind]. exists (pos + r). split; [done|]. destruct Hr as [[H1 H2]|[H1 H2]].
    + left. split; [lia|]. split; [by apply occurs_drop|]. intros j Hj Hp.
      specialize (H2 (j - pos)). rewrite occurs_drop in H2 by done. replace (pos + (j - pos)) with j in H2 by lia. specialize (H2 Hj). lia.
    + right. split; [|rewrite H2, drop_length; lia]. intros j Hp Hj. apply (H1 (j - pos)). rewrite occurs_drop by done.
      by replace (pos + (j - pos)) with j by lia.
Qed.
Lemma rfind_Ok pos : ascii_for n h -> exists r, sv_rfind hay pos needle = Ok r /\
  ((occurs n h r /\ r + length n <= pos + 1 /\ forall j, occurs n h j -> j + length n <= pos + 1 -> j <= r) \/
   ((forall j, j + length n <= pos + 1 -> ~ occurs n h j) /\ r = length h)).
Proof.
  intros Ha. unfold sv_rfind. rewrite (shows_len _ _ hay_shows), (shows_len _ _ needle_shows).
  destruct (Nat.eqb_spec (length h) 0) as [E0|E0]; cbn [orb].
  { eexists. split; [done|]. right. split; [|done]. intros j _. apply too_long. destruct n; [done|cbn; lia]. }
  destruct (Nat.ltb_spec (length h) (length n)) as [Hlt|Hge].
  { eexists. split; [done|]. right. split; [|done]. intros j _. by apply too_long. }
  set (k := (if length h <=? pos then length h - 1 else pos) + 1).
  assert (k <= length h /\ (k <= pos + 1) /\ (k = length h \/ k = pos + 1)) as (Hk & Hkp & Hk')
    by (unfold k; destruct (Nat.leb_spec (length h) pos); lia).
  pose proof (shows_take hay h k hay_shows Hk) as Hd.
  destruct (rstrnstrn_Ok (s hay) (take k h) (s needle) n) as (r & E & Hr).
  - exact (shows_reads _ _ Hd).
  - exact (shows_reads _ _ needle_shows).
  - intros i. exact (shows_bytes _ _ i Hd).
  - intros i. exact (shows_bytes _ _ i needle_shows).
  - done.
  - destruct Ha as [Ha|Ha]; [by left|right]. by apply Forall_take.
  - rewrite take_length, Nat.min_l in E by done. rewrite E. cbn [obind mbind outcome_bind].
    eexists. split; [done|]. destruct Hr as [[H1 H2]|[H1 H2]].
    + apply occurs_take in H1 as [H1 H1']; [|done]. assert (1 <= length n) by (destruct n; [done|cbn; lia]).
      destruct (Nat.eqb_spec r k) as [|_]; [lia|]. left. split; [done|]. split; [lia|]. intros j Hj Hjp. apply H2. apply occurs_take; [done|].
      split; [done|]. apply occurs_nth in Hj as [Hj _]. lia.
    + rewrite take_length, Nat.min_l in H2 by done. destruct (Nat.eqb_spec r k) as [_|]; [|lia].
      right. split; [|done]. intros j Hjp Hj. apply (H1 j). apply occurs_take; [done|]. split; [done|]. apply occurs_nth in Hj as [Hj _]. lia.
Qed.

Lemma whole : exists r, sv_strnstrn (length h) (s hay) (length n) (s needle) = Ok r /\ finds n h r.
Proof.
  apply strnstrn_Ok; [exact (shows_reads _ _ hay_shows)|exact (shows_reads _ _ needle_shows)|intros i; exact (shows_bytes _ _ i hay_shows)
    |intros i; exact (shows_bytes _ _ i needle_shows)|done].
Qed.
Lemma rwhole : ascii_for n h -> exists r, sv_rstrnstrn (length h) (s hay) (length n) (s needle) = Ok r /\ rfinds n h r.
Proof.
  apply rstrnstrn_Ok; [exact (shows_reads _ _ hay_shows)|exact (shows_reads _ _ needle_shows)|intros i; exact (shows_bytes _ _ i hay_shows)
    |intros i; exact (shows_bytes _ _ i needle_shows)|done].
Qed.
Lemma occurs_lt i : occurs n h i -> i < length h.
Proof. intros Hi. apply occurs_nth in Hi as [Hi _]. destruct n; [done|cbn in *; lia]. Qed.

Lemma contains_Ok : exists b : bool, sv_contains hay needle = Ok b /\ (b = true <-> exists i, occurs n h i).
Proof.
  unfold sv_contains. rewrite (shows_len _ _ hay_shows), (shows_len _ _ needle_shows).
  assert (1 <= length n) by (destruct n; [done|cbn; lia]).
  destruct (Nat.ltb_spec (length h) (length n)) as [Hlt|Hge].
  { exists false. split; [done|]. split; [done|]. intros [i Hi]. by apply too_long in Hi. }
  destruct (Nat.eqb_spec (length h) 0); [lia|]. destruct (Nat.eqb_spec (length n) 0); [lia|].
  destruct whole as (r & -> & Hr). cbn [obind mbind outcome_bind]. eexists. split; [done|]. rewrite negb_true_iff, Nat.eqb_neq.
  destruct Hr as [[H1 _]|[H1 H2]].
  - split; [eauto|]. intros _ E. apply occurs_lt in H1. lia.
  - split; [lia|]. intros [i Hi]. by apply H1 in Hi.
Qed.

Lemma found_Ok (sel : text -> text -> nat -> Prop) r : (forall i, sel n h i -> occurs n h i) ->
  (sel n h r \/ (nowhere n h /\ r = length h)) -> found_at sel hay n h (found_view hay needle r).
Proof.
  intros Hs Hr. unfold found_view. rewrite (shows_len _ _ hay_shows), (shows_len _ _ needle_shows). destruct Hr as [Hr|[Hr ->]].
  - pose proof (occurs_lt r (Hs r Hr)). destruct (Nat.eqb_spec r (length h)); [lia|]. split; [done|]. left. exists r. split; [done|]. split; [done|].
    apply (occurs_view hay h n r hay_shows). by apply Hs.
  - rewrite Nat.eqb_refl. split; [done|]. by right.
Qed.
Lemma match_Ok : exists v, sv_match hay needle = Ok v /\ found_at first_at hay n h v.
Proof.
  unfold sv_match. rewrite (shows_not_null _ _ hay_shows), (shows_not_null _ _ needle_shows), (shows_len _ _ hay_shows), (shows_len _ _ needle_shows).
  assert (1 <= length n) by (destruct n; [done|cbn; lia]). cbn [orb].
  assert (forall i, first_at n h i -> occurs n h i) as Hs by by intros i [].
  destruct ((length h <? length n) || (length h =? 0) || (length n =? 0)) eqn:E.
  - eexists. split; [done|]. split; [done|]. right. split; [|done]. apply too_long. rewrite !orb_true_iff, Nat.ltb_lt, !Nat.eqb_eq in E. lia.
  - destruct whole as (r & -> & Hr). cbn [obind mbind outcome_bind]. eexists. split; [done|]. by apply found_Ok.
Qed.
Lemma rmatch_Ok : ascii_for n h -> exists v, sv_rmatch hay needle = Ok v /\ found_at last_at hay n h v.
Proof.
  intros Ha. unfold sv_rmatch. rewrite (shows_not_null _ _ hay_shows), (shows_len _ _ hay_shows), (shows_len _ _ needle_shows).
  assert (1 <= length n) by (destruct n; [done|cbn; lia]). cbn [orb].
  assert (forall i, last_at n h i -> occurs n h i) as Hs by by intros i [].
  destruct ((length h =? 0) || (length n =? 0)) eqn:E.
  - eexists. split; [done|]. split; [done|]. right. split; [|done]. apply too_long. rewrite !orb_true_iff, !Nat.eqb_eq in E. lia.
  - destruct (rwhole Ha) as (r & -> & Hr). cbn [obind mbind outcome_bind]. eexists. split; [done|]. by apply found_Ok.
Qed.
End find.
