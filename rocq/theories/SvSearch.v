(** The searches of SvModel.v find the first and the last occurrence. *)
From stdpp Require Import base numbers option list.
From Verif Require Import Common SvModel SvSpec SvTwoWay.

(** Texts as functions. *)
Definition nth_of (t : text) (i : nat) : N := nth i t 0%N.
Lemma nth_of_lookup t i : i < length t -> t !! i = Some (nth_of t i).
Proof.
  intros H. destruct (lookup_lt_is_Some_2 t i H) as [b Hb]. rewrite Hb. f_equal. unfold nth_of. symmetry. by apply nth_lookup_Some.
Qed.

Definition reads (p : ptr) (t : text) : Prop := forall i, i < length t -> rd p i = Ok (nth_of t i).
Lemma shows_reads v t : shows v t -> reads (s v) t.
Proof.
  intros (pre & post & Ha & _ & Ho & Hl & _) i Hi. unfold rd. rewrite Ha, Ho.
  rewrite lookup_app_r by lia. replace (length pre + i - length pre) with i by lia.
  rewrite lookup_app_l by done. by rewrite nth_of_lookup.
Qed.
Lemma shows_bytes v t i : shows v t -> (nth_of t i < 256)%N.
Proof.
  intros (pre & post & _ & _ & _ & _ & HF). apply Forall_app in HF as [_ HF]. apply Forall_app in HF as [HF _].
  destruct (decide (i < length t)) as [Hi|Hi].
  - rewrite Forall_lookup in HF. apply (HF i). by apply nth_of_lookup.
  - unfold nth_of. rewrite nth_overflow by lia. done.
Qed.

Lemma occurs_nth needle hay i : occurs needle hay i <->
  i + length needle <= length hay /\ forall j, j < length needle -> nth_of needle j = nth_of hay (j + i).
Proof.
  split.
  - intros (a & b & -> & <-). rewrite !app_length. split; [lia|]. intros j Hj. unfold nth_of.
    rewrite (app_nth2 a) by lia. replace (j + length a - length a) with j by lia. by rewrite app_nth1.
  - intros [Hl H]. exists (take i hay), (drop (i + length needle) hay). split; [|rewrite take_length; lia].
    rewrite <- (take_drop i hay) at 1. f_equal. rewrite <- (take_drop (length needle) (drop i hay)) at 1. rewrite drop_drop. f_equal.
    apply list_eq. intros j. destruct (decide (j < length needle)) as [Hj|Hj].
    + rewrite lookup_take by done. rewrite lookup_drop, !nth_of_lookup by lia. f_equal. rewrite H by done. f_equal. lia.
    + rewrite !lookup_ge_None_2; [done|lia|rewrite take_length; lia].
Qed.

(** What the searches answer. *)
Definition finds (needle hay : text) (r : nat) : Prop := first_at needle hay r \/ (nowhere needle hay /\ r = length hay).
Definition rfinds (needle hay : text) (r : nat) : Prop := last_at needle hay r \/ (nowhere needle hay /\ r = length hay).

(** The two-way search in both directions. *)
Lemma tw_match_Ok hay h needle n : reads hay h -> reads needle n -> (forall i, nth_of n i < 256)%N -> 1 <= length n ->
  exists r, sv_tw_match (length h) hay (length n) needle = Ok r /\ finds n h r.
Proof.
  intros Hh Hn Hb H1.
  destruct (two_way_Ok (nth_of n) (length n) (nth_of h) (length h) (fwd needle (length n)) (fwd hay (length h))) as (r & E & Hr);
    [intros i Hi; by apply Hn|intros i Hi; by apply Hh|intros; apply Hb|done|].
  assert (forall i, hit (nth_of n) (length n) (nth_of h) (length h) i <-> occurs n h i) as Hit.
  { intros i. by rewrite occurs_nth. }
  unfold sv_tw_match. rewrite E. cbn. destruct r as [l|]; cbn in Hr.
  - exists l. split; [done|]. left. destruct Hr as [H2 H3]. split; [by apply Hit|]. intros j Hj.
    destruct (decide (l <= j)); [done|]. destruct (H3 j); [lia|by apply Hit].
  - exists (length h). split; [done|]. right. split; [|done]. intros i Hi. by apply (Hr i), Hit.
Qed.
Lemma tw_rmatch_Ok hay h needle n : reads hay h -> reads needle n -> (forall i, nth_of n i < 256)%N -> 1 <= length n ->
  exists r, sv_tw_rmatch (length h) hay (length n) needle = Ok r /\ rfinds n h r.
Proof.
  intros Hh Hn Hb H1.
  assert (forall p t i, reads p t -> i < length t -> bwd p (length t) i = Ok (nth_of t (length t - (i + 1)))) as Hbwd.
  { intros p t i Hp Hi. unfold bwd, minus. destruct (Nat.leb_spec (i + 1) (length t)); [|lia]. cbn. apply Hp. lia. }
  destruct (two_way_Ok (fun i => nth_of n (length n - (i + 1))) (length n) (fun i => nth_of h (length h - (i + 1))) (length h)
    (bwd needle (length n)) (bwd hay (length h))) as (r & E & Hr); [intros i Hi; by apply Hbwd|intros i Hi; by apply Hbwd|intros; apply Hb|done|].
  assert (forall i, i + length n <= length h ->
    hit (fun i => nth_of n (length n - (i + 1))) (length n) (fun i => nth_of h (length h - (i + 1))) (length h) i <-> occurs n h (length h - (i + length n))) as Hit.
  { intros i Hi. rewrite occurs_nth. unfold hit. split; (intros [_ H]; split; [lia|]; intros j Hj).
    - specialize (H (length n - (j + 1))). replace (length n - (length n - (j + 1) + 1)) with j in H by lia.
      rewrite H by lia. f_equal. lia.
    - rewrite H by lia. f_equal. lia. }
  unfold sv_tw_rmatch. rewrite E. cbn. destruct r as [l|]; cbn in Hr.
  - destruct Hr as [H2 H3]. pose proof H2 as [Hl _]. unfold minus. destruct (Nat.leb_spec (l + length n) (length h)); [|lia].
    eexists. split; [done|]. left. split; [by apply Hit|]. intros j Hj. pose proof Hj as Hj'. apply occurs_nth in Hj' as [Hj' _].
    destruct (decide (j <= length h - (l + length n))) as [|Hlt]; [done|].
    destruct (H3 (length h - (j + length n))); [lia|]. apply Hit; [lia|]. by replace (length h - (length h - (j + length n) + length n)) with j by lia.
  - exists (length h). split; [done|]. right. split; [|done]. intros i Hi. pose proof Hi as Hi'. apply occurs_nth in Hi' as [Hi' _].
    apply (Hr (length h - (i + length n))). apply Hit; [lia|]. by replace (length h - (length h - (i + length n) + length n)) with i by lia.
Qed.

(** ** One byte *)
Lemma while_loop_Ok ok (p : ptr) (t : text) k : forall i, reads p t -> i + k = length t ->
  exists r, while_loop k p ok i = Ok r /\ i <= r <= length t /\ (forall j, i <= j < r -> ok (nth_of t j) = true) /\
    (r < length t -> ok (nth_of t r) = false).
Proof.
  induction k as [|k IH]; intros i Hp Hi; cbn [while_loop].
  { exists i. split; [done|]. split; [lia|]. split; [intros; lia|lia]. }
  rewrite Hp by lia. cbn [obind mbind outcome_bind]. destruct (ok (nth_of t i)) eqn:E.
  - destruct (IH (i + 1)) as (r & -> & H1 & H2 & H3); [done|lia|]. exists r. split; [done|]. split; [lia|]. split; [|done].
    intros j Hj. destruct (decide (j = i)) as [->|]; [done|]. apply H2. lia.
  - exists i. split; [done|]. split; [lia|]. split; [intros; lia|done].
Qed.
Lemma occurs_one c t i : occurs [c] t i <-> i < length t /\ nth_of t i = c.
Proof.
  rewrite occurs_nth. cbn. split.
  - intros [H1 H2]. split; [lia|]. specialize (H2 0 ltac:(lia)). by unfold nth_of in *.
  - intros [H1 <-]. split; [lia|]. intros j Hj. by replace j with 0 by lia.
Qed.
Lemma strnchr_Ok p t c : reads p t -> exists r, sv_strnchr (length t) p c = Ok r /\ finds [c] t r.
Proof.
  intros Hp. unfold sv_strnchr. destruct (while_loop_Ok (fun b => negb (b =? c)%N) p t (length t) 0 Hp) as (r & -> & H1 & H2 & H3); [lia|].
  exists r. split; [done|]. destruct (decide (r < length t)) as [Hr|Hr].
  - left. split.
    + apply occurs_one. split; [done|]. specialize (H3 Hr). apply negb_false_iff, N.eqb_eq in H3. done.
    + intros j Hj. apply occurs_one in Hj as [Hj1 Hj2]. destruct (decide (r <= j)) as [|Hlt]; [done|].
      specialize (H2 j). rewrite negb_true_iff, N.eqb_neq in H2. destruct H2; [lia|done].
  - right. split; [|lia]. intros j Hj. apply occurs_one in Hj as [Hj1 Hj2].
    specialize (H2 j). rewrite negb_true_iff, N.eqb_neq in H2. destruct H2; [lia|done].
Qed.
Lemma rchr_loop_Ok p t c i : reads p t -> i <= length t ->
  exists r, rchr_loop i p c = Ok r /\
    match r with
    | Some j => j < i /\ nth_of t j = c /\ forall k, j < k < i -> nth_of t k <> c
    | None => forall k, k < i -> nth_of t k <> c
    end.
Proof.
  intros Hp. induction i as [|i IH]; intros Hi; cbn [rchr_loop].
  { exists None. split; [done|]. intros; lia. }
  rewrite Hp by lia. cbn [obind mbind outcome_bind]. destruct (N.eqb_spec (nth_of t i) c) as [E|E].
  - exists (Some i). split; [done|]. split; [lia|]. split; [done|]. intros; lia.
  - destruct IH as (r & -> & Hr); [lia|]. exists r. split; [done|]. destruct r as [j|].
    + destruct Hr as (H1 & H2 & H3). split; [lia|]. split; [done|]. intros k Hk. destruct (decide (k = i)) as [->|]; [done|]. apply H3. lia.
    + intros k Hk. destruct (decide (k = i)) as [->|]; [done|]. apply Hr. lia.
Qed.
Lemma rstrnchr_Ok p t c : reads p t -> exists r, sv_rstrnchr (length t) p c = Ok r /\ rfinds [c] t r.
Proof.
  intros Hp. unfold sv_rstrnchr. destruct (rchr_loop_Ok p t c (length t) Hp) as (r & -> & Hr); [lia|]. cbn.
  destruct r as [j|]; (eexists; split; [done|]).
  - left. destruct Hr as (H1 & H2 & H3). split; [by apply occurs_one|]. intros k Hk. apply occurs_one in Hk as [K1 K2].
    destruct (decide (k <= j)); [done|]. destruct (H3 k); [lia|done].
  - right. split; [|done]. intros k Hk. apply occurs_one in Hk as [K1 K2]. by apply (Hr k).
Qed.

(** ** Words of two to four bytes *)
Lemma lor_low k w b : (b < 2 ^ k)%N -> N.lor (w * 2 ^ k) b = (w * 2 ^ k + b)%N.
Proof.
  intros Hb. rewrite <- N.lxor_lor, <- N.add_nocarry_lxor; [done| |]; apply N.bits_inj; intros i;
    rewrite N.land_spec, N.bits_0, <- N.shiftl_mul_pow2;
    (destruct (N.lt_ge_cases i k) as [Hi|Hi]; [by rewrite N.shiftl_spec_low|];
     rewrite (N.testbit_eqb b), N.div_small; [by rewrite andb_comm|]; apply (N.lt_le_trans _ _ _ Hb); by apply N.pow_le_mono_r).
Qed.
Lemma shl_int_Ok b k : (b * 2 ^ k < 2 ^ 31)%N -> shl_int b k = Ok (b * 2 ^ k)%N.
Proof. intros H. unfold shl_int. rewrite N.shiftl_mul_pow2. by destruct (N.ltb_spec (b * 2 ^ k) (2 ^ 31)); [|lia]. Qed.

Section words.
Context (t n : text) (wd : nat -> N) (nw : N).
Hypothesis word_occurs : forall j, j + length n <= length t -> (wd j = nw <-> occurs n t j).

Lemma window_Ok h back step : reads h t -> length n = back + 1 ->
  (forall j, j + back + 1 < length t -> step (wd j) (nth_of t (j + back + 1)) = wd (j + 1)) ->
  forall fuel i, back <= i < length t -> length t <= fuel + i ->
  exists r, window fuel (length t) h step nw (wd (i - back)) i = Ok r /\ i <= r <= length t /\
    (forall k, i <= k < r -> wd (k - back) <> nw) /\ (r < length t -> wd (r - back) = nw).
Proof.
  intros Hh Hn Hs fuel. induction fuel as [|f IH]; intros i Hi Hf; [lia|]. cbn [window].
  destruct (N.eqb_spec (wd (i - back)) nw) as [E|E].
  { exists i. split; [done|]. split; [lia|]. split; [intros; lia|done]. }
  destruct (Nat.ltb_spec (i + 1) (length t)) as [Hlt|Hge].
  - rewrite Hh by lia. cbn [obind mbind outcome_bind].
    pose proof (Hs (i - back) ltac:(lia)) as Es. replace (i - back + back + 1) with (i + 1) in Es by lia. rewrite Es.
    replace (i - back + 1) with (i + 1 - back) by lia.
    destruct (IH (i + 1)) as (r & -> & H1 & H2 & H3); [lia|lia|]. exists r. split; [done|]. split; [lia|]. split; [|done].
    intros k Hk. destruct (decide (k = i)) as [->|]; [done|]. apply H2. lia.
  - exists (i + 1). split; [done|]. split; [lia|]. split; [|lia]. intros k Hk. by replace k with i by lia.
Qed.
Lemma forward_Ok h back step : reads h t -> length n = back + 1 -> length n <= length t ->
  (forall j, j + back + 1 < length t -> step (wd j) (nth_of t (j + back + 1)) = wd (j + 1)) ->
  exists r, forward (length t) h back step nw (wd 0) = Ok r /\ finds n t r.
Proof.
  intros Hh Hn Hl Hs. unfold forward. destruct (window_Ok h back step Hh Hn Hs (length t) back) as (r & E & H1 & H2 & H3); [lia|lia|].
  rewrite Nat.sub_diag in E. rewrite E. cbn [obind mbind outcome_bind].
  assert (forall j, occurs n t j -> r <= j + back) as Hlow.
  { intros j Hj. pose proof Hj as Hj'. apply occurs_nth in Hj' as [Hj' _]. destruct (decide (r <= j + back)); [done|].
    destruct (H2 (j + back)); [lia|]. apply word_occurs; [lia|]. by replace (j + back - back) with j by lia. }
  destruct (Nat.leb_spec (length t) r) as [Hr|Hr].
  - eexists. split; [done|]. right. split; [|done]. intros j Hj. specialize (Hlow j Hj). apply occurs_nth in Hj as [Hj _]. lia.
  - replace (length t - (length t - r)) with r by lia. unfold minus. destruct (Nat.leb_spec back r); [|lia]. cbn [obind mbind outcome_bind].
    eexists. split; [done|]. left. split; [apply word_occurs; [lia|by apply H3]|]. intros j Hj. specialize (Hlow j Hj). lia.
Qed.
Lemma rwindow_Ok h step : reads h t ->
  (forall j, j + 1 + length n <= length t -> step (wd (j + 1)) (nth_of t j) = Ok (wd j)) ->
  forall i, i + length n <= length t ->
  exists r, rwindow h step nw (wd i) i = Ok r /\
    match r with
    | Some j => j <= i /\ wd j = nw /\ forall k, j < k <= i -> wd k <> nw
    | None => forall k, k <= i -> wd k <> nw
    end.
Proof.
  intros Hh Hs i. induction i as [|i IH]; intros Hi; cbn [rwindow].
  - destruct (N.eqb_spec (wd 0) nw) as [E|E].
    + exists (Some 0). split; [done|]. split; [lia|]. split; [done|]. intros; lia.
    + exists None. split; [done|]. intros k Hk. by replace k with 0 by lia.
  - destruct (N.eqb_spec (wd (S i)) nw) as [E|E].
    + exists (Some (S i)). split; [done|]. split; [lia|]. split; [done|]. intros; lia.
    + destruct (decide (i < length t)) as [Hit|]; [|lia]. rewrite Hh by done. cbn [obind mbind outcome_bind].
      replace (S i) with (i + 1) by lia. rewrite Hs by lia. cbn [obind mbind outcome_bind].
      destruct IH as (r & -> & Hr); [lia|]. exists r. split; [done|]. destruct r as [j|].
      * destruct Hr as (H1 & H2 & H3). split; [lia|]. split; [done|]. intros k Hk. destruct (decide (k = S i)) as [->|]; [done|]. apply H3. lia.
      * intros k Hk. destruct (decide (k = S i)) as [->|]; [done|]. apply Hr. lia.
Qed.
Lemma backward_Ok h back step : reads h t -> length n = back + 1 -> length n <= length t ->
  (forall j, j + 1 + length n <= length t -> step (wd (j + 1)) (nth_of t j) = Ok (wd j)) ->
  exists r, backward (length t) h back step nw (wd (length t - length n)) = Ok r /\ rfinds n t r.
Proof.
  intros Hh Hn Hl Hs. unfold backward. replace (length t - 1 - back) with (length t - length n) by lia.
  destruct (rwindow_Ok h step Hh Hs (length t - length n)) as (r & -> & Hr); [lia|]. cbn [obind mbind outcome_bind].
  eexists. split; [done|]. destruct r as [j|].
  - destruct Hr as (H1 & H2 & H3). left. split; [apply word_occurs; [lia|done]|]. intros k Hk. pose proof Hk as Hk'. apply occurs_nth in Hk' as [Hk' _].
    destruct (decide (k <= j)); [done|]. destruct (H3 k); [lia|]. apply word_occurs; [lia|done].
  - right. split; [|done]. intros k Hk. pose proof Hk as Hk'. apply occurs_nth in Hk' as [Hk' _]. apply (Hr k); [lia|]. apply word_occurs; [lia|done].
Qed.
End words.

(** The words as numbers. *)
Definition val2 (a b : N) : N := (a * 2 ^ 8 + b)%N.
Definition val3 (a b c : N) : N := (a * 2 ^ 16 + b * 2 ^ 8 + c)%N.
Definition val3l (a b c : N) : N := (a * 2 ^ 24 + b * 2 ^ 16 + c * 2 ^ 8)%N.
Definition val4 (a b c d : N) : N := (a * 2 ^ 24 + b * 2 ^ 16 + c * 2 ^ 8 + d)%N.
Ltac vals := unfold val2, val3, val3l, val4 in *; change (2 ^ 8)%N with 256%N in *; change (2 ^ 16)%N with 65536%N in *;
  change (2 ^ 24)%N with 16777216%N in *; change (2 ^ 31)%N with 2147483648%N in *; change (2 ^ 32)%N with 4294967296%N in *.

Lemma small_mod q r m : (r < m)%N -> ((q * m + r) mod m = r)%N.
Proof. intros H. rewrite N.add_comm, N.mod_add by lia. by apply N.mod_small. Qed.
Lemma small_div q r m : (r < m)%N -> ((q * m + r) / m = q)%N.
Proof. intros H. symmetry. apply (N.div_unique _ _ _ r); [done|lia]. Qed.
Lemma lor_hi k w b : (b < 2 ^ k)%N -> N.lor b (w * 2 ^ k) = (w * 2 ^ k + b)%N.
Proof. rewrite N.lor_comm. apply lor_low. Qed.

Lemma make2 a b : (a < 256)%N -> (b < 256)%N -> to_u16 (N.lor (N.shiftl a 8) b) = val2 a b.
Proof. intros Ha Hb. unfold to_u16. rewrite N.shiftl_mul_pow2, lor_low by done. apply N.mod_small. vals. lia. Qed.
Lemma step2 a b c : (a < 256)%N -> (b < 256)%N -> (c < 256)%N -> to_u16 (N.lor (N.shiftl (val2 a b) 8) c) = val2 b c.
Proof.
  intros Ha Hb Hc. unfold to_u16. rewrite N.shiftl_mul_pow2, lor_low by done.
  replace (val2 a b * 2 ^ 8 + c)%N with (a * 2 ^ 16 + val2 b c)%N by (vals; lia). apply small_mod. vals. lia.
Qed.
Lemma rstep2 a b c : (a < 256)%N -> (b < 256)%N -> (c < 256)%N ->
  (x ← shl_int c 8; Ok (to_u16 (N.lor (N.shiftr (val2 a b) 8) x))) = Ok (val2 c a).
Proof.
  intros Ha Hb Hc. rewrite shl_int_Ok by (vals; lia). cbn [obind mbind outcome_bind]. f_equal. unfold to_u16.
  rewrite N.shiftr_div_pow2. unfold val2 at 1. rewrite small_div by done. rewrite lor_hi by done. apply N.mod_small. vals. lia.
Qed.
Lemma make3 a b c : (a < 256)%N -> (b < 256)%N -> (c < 256)%N ->
  (x ← shl_int b 16; y ← shl_int c 8; Ok (to_u32 (N.lor (N.lor (N.shiftl a 24) x) y))) = Ok (val3l a b c).
Proof.
  intros Ha Hb Hc. rewrite !shl_int_Ok by (vals; lia). cbn [obind mbind outcome_bind]. f_equal. unfold to_u32.
  rewrite N.shiftl_mul_pow2, lor_low by (vals; lia).
  replace (a * 2 ^ 24 + b * 2 ^ 16)%N with ((a * 2 ^ 8 + b) * 2 ^ 16)%N by (vals; lia).
  rewrite lor_low by (vals; lia). rewrite N.mod_small by (vals; lia). vals. lia.
Qed.
Lemma make3r a b c : (a < 256)%N -> (b < 256)%N -> (c < 256)%N ->
  (x ← shl_int b 8; Ok (to_u32 (N.lor (N.lor (N.shiftl a 16) x) c))) = Ok (val3 a b c).
Proof.
  intros Ha Hb Hc. rewrite !shl_int_Ok by (vals; lia). cbn [obind mbind outcome_bind]. f_equal. unfold to_u32.
  rewrite N.shiftl_mul_pow2, lor_low by (vals; lia).
  replace (a * 2 ^ 16 + b * 2 ^ 8)%N with ((a * 2 ^ 8 + b) * 2 ^ 8)%N by (vals; lia).
  rewrite lor_low by (vals; lia). rewrite N.mod_small by (vals; lia). vals. lia.
Qed.
Lemma step3 a b c d : (a < 256)%N -> (b < 256)%N -> (c < 256)%N -> (d < 256)%N ->
  to_u32 (N.shiftl (N.lor (val3l a b c) d) 8) = val3l b c d.
Proof.
  intros Ha Hb Hc Hd. unfold to_u32. replace (val3l a b c) with (val3 a b c * 2 ^ 8)%N by (vals; lia).
  rewrite lor_low by (vals; lia). rewrite N.shiftl_mul_pow2.
  replace ((val3 a b c * 2 ^ 8 + d) * 2 ^ 8)%N with (a * 2 ^ 32 + val3l b c d)%N by (vals; lia). apply small_mod. vals. lia.
Qed.
Lemma rstep3 a b c d : (a < 256)%N -> (b < 256)%N -> (c < 256)%N -> (d < 256)%N ->
  (x ← shl_int d 16; Ok (to_u32 (N.lor (N.shiftr (val3 a b c) 8) x))) = Ok (val3 d a b).
Proof.
  intros Ha Hb Hc Hd. rewrite shl_int_Ok by (vals; lia). cbn [obind mbind outcome_bind]. f_equal. unfold to_u32.
  rewrite N.shiftr_div_pow2. replace (val3 a b c) with (val2 a b * 2 ^ 8 + c)%N by (vals; lia). rewrite small_div by (vals; lia).
  rewrite lor_hi by (vals; lia). rewrite N.mod_small by (vals; lia). vals. lia.
Qed.
Lemma make4 a b c d : (a < 256)%N -> (b < 256)%N -> (c < 256)%N -> (d < 256)%N ->
  (x ← shl_int b 16; y ← shl_int c 8; Ok (to_u32 (N.lor (N.lor (N.lor (N.shiftl a 24) x) y) d))) = Ok (val4 a b c d).
Proof.
  intros Ha Hb Hc Hd. rewrite !shl_int_Ok by (vals; lia). cbn [obind mbind outcome_bind]. f_equal. unfold to_u32.
  rewrite N.shiftl_mul_pow2, lor_low by (vals; lia).
  replace (a * 2 ^ 24 + b * 2 ^ 16)%N with ((a * 2 ^ 8 + b) * 2 ^ 16)%N by (vals; lia).
  rewrite lor_low by (vals; lia).
  replace ((a * 2 ^ 8 + b) * 2 ^ 16 + c * 2 ^ 8)%N with (val3 a b c * 2 ^ 8)%N by (vals; lia).
  rewrite lor_low by (vals; lia). rewrite N.mod_small by (vals; lia). vals. lia.
Qed.
Lemma step4 a b c d e : (a < 256)%N -> (b < 256)%N -> (c < 256)%N -> (d < 256)%N -> (e < 256)%N ->
  to_u32 (N.lor (N.shiftl (val4 a b c d) 8) e) = val4 b c d e.
Proof.
  intros Ha Hb Hc Hd He. unfold to_u32. rewrite N.shiftl_mul_pow2, lor_low by (vals; lia).
  replace (val4 a b c d * 2 ^ 8 + e)%N with (a * 2 ^ 32 + val4 b c d e)%N by (vals; lia). apply small_mod. vals. lia.
Qed.
(** Only bytes below 128 can be shifted to the top of an int. *)
Lemma rstep4 a b c d e : (a < 256)%N -> (b < 256)%N -> (c < 256)%N -> (d < 256)%N -> (e < 128)%N ->
  (x ← shl_int e 24; Ok (to_u32 (N.lor (N.shiftr (val4 a b c d) 8) x))) = Ok (val4 e a b c).
Proof.
  intros Ha Hb Hc Hd He. rewrite shl_int_Ok by (vals; lia). cbn [obind mbind outcome_bind]. f_equal. unfold to_u32.
  rewrite N.shiftr_div_pow2. replace (val4 a b c d) with (val3 a b c * 2 ^ 8 + d)%N by (vals; lia). rewrite small_div by (vals; lia).
  rewrite lor_hi by (vals; lia). rewrite N.mod_small by (vals; lia). vals. lia.
Qed.

Lemma occurs_2 a b t j : j + 2 <= length t -> (occurs [a; b] t j <-> a = nth_of t j /\ b = nth_of t (j + 1)).
Proof.
  intros Hj. rewrite occurs_nth. cbn [length]. split.
  - intros [_ H]. pose proof (H 0 ltac:(lia)) as H0. pose proof (H 1 ltac:(lia)) as H1. replace (1 + j) with (j + 1) in H1 by lia. done.
  - intros [-> ->]. split; [lia|]. intros k Hk. destruct k as [|[|]]; [done| |lia]. cbn. f_equal. lia.
Qed.
Lemma occurs_3 a b c t j : j + 3 <= length t ->
  (occurs [a; b; c] t j <-> a = nth_of t j /\ b = nth_of t (j + 1) /\ c = nth_of t (j + 2)).
Proof.
  intros Hj. rewrite occurs_nth. cbn [length]. split.
  - intros [_ H]. pose proof (H 0 ltac:(lia)) as H0. pose proof (H 1 ltac:(lia)) as H1. pose proof (H 2 ltac:(lia)) as H2.
    replace (1 + j) with (j + 1) in H1 by lia. replace (2 + j) with (j + 2) in H2 by lia. done.
  - intros (-> & -> & ->). split; [lia|]. intros k Hk. destruct k as [|[|[|]]]; [done| | |lia]; cbn; f_equal; lia.
Qed.
Lemma occurs_4 a b c d t j : j + 4 <= length t ->
  (occurs [a; b; c; d] t j <-> a = nth_of t j /\ b = nth_of t (j + 1) /\ c = nth_of t (j + 2) /\ d = nth_of t (j + 3)).
Proof.
  intros Hj. rewrite occurs_nth. cbn [length]. split.
  - intros [_ H]. pose proof (H 0 ltac:(lia)) as H0. pose proof (H 1 ltac:(lia)) as H1. pose proof (H 2 ltac:(lia)) as H2. pose proof (H 3 ltac:(lia)) as H3.
    replace (1 + j) with (j + 1) in H1 by lia. replace (2 + j) with (j + 2) in H2 by lia. replace (3 + j) with (j + 3) in H3 by lia. done.
  - intros (-> & -> & -> & ->). split; [lia|]. intros k Hk. destruct k as [|[|[|[|]]]]; [done| | | |lia]; cbn; f_equal; lia.
Qed.

Lemma word3_Ok p t i : reads p t -> (forall i, nth_of t i < 256)%N -> i + 3 <= length t ->
  word3 p i = Ok (val3l (nth_of t i) (nth_of t (i + 1)) (nth_of t (i + 2))).
Proof. intros Hp Hb Hi. unfold word3. rewrite !Hp by lia. by apply make3. Qed.
Lemma rword3_Ok p t i : reads p t -> (forall i, nth_of t i < 256)%N -> i + 3 <= length t ->
  rword3 p i = Ok (val3 (nth_of t i) (nth_of t (i + 1)) (nth_of t (i + 2))).
Proof. intros Hp Hb Hi. unfold rword3. rewrite !Hp by lia. by apply make3r. Qed.
Lemma word4_Ok p t i : reads p t -> (forall i, nth_of t i < 256)%N -> i + 4 <= length t ->
  word4 p i = Ok (val4 (nth_of t i) (nth_of t (i + 1)) (nth_of t (i + 2)) (nth_of t (i + 3))).
Proof. intros Hp Hb Hi. unfold word4. rewrite !Hp by lia. by apply make4. Qed.

Section short.
Context (hay needle : ptr) (h n : text).
Hypothesis reads_h : reads hay h.
Hypothesis reads_n : reads needle n.
Hypothesis bytes_h : forall i, (nth_of h i < 256)%N.
Hypothesis bytes_n : forall i, (nth_of n i < 256)%N.
Hypothesis fits : length n <= length h.

Lemma two_Ok : length n = 2 -> exists r, sv_twobyte_strnstrn (length h) hay needle = Ok r /\ finds n h r.
Proof.
  intros Hl. unfold sv_twobyte_strnstrn, word2. rewrite !reads_n, !reads_h by lia. cbn [obind mbind outcome_bind].
  rewrite !make2 by done.
  refine (forward_Ok h n (fun j => val2 (nth_of h j) (nth_of h (j + 1))) _ _ hay 1 _ reads_h Hl fits _).
  - intros j Hj. destruct n as [|a [|b [|]]] eqn:En; try done. cbn in Hj. rewrite occurs_2 by lia.
    pose proof (bytes_n 0). pose proof (bytes_n 1). pose proof (bytes_h j). pose proof (bytes_h (j + 1)). cbn in *. vals. lia.
  - intros j Hj. rewrite step2 by done. f_equal; f_equal; lia.
Qed.
Lemma rtwo_Ok : length n = 2 -> exists r, sv_rtwobyte_strnstrn (length h) hay needle = Ok r /\ rfinds n h r.
Proof.
  intros Hl. unfold sv_rtwobyte_strnstrn, word2. rewrite !reads_n, !reads_h by lia. cbn [obind mbind outcome_bind].
  rewrite !make2 by done. replace (length h - 2) with (length h - length n) by lia.
  refine (backward_Ok h n (fun j => val2 (nth_of h j) (nth_of h (j + 1))) _ _ hay 1 _ reads_h Hl fits _).
  - intros j Hj. destruct n as [|a [|b [|]]] eqn:En; try done. cbn in Hj. rewrite occurs_2 by lia.
    pose proof (bytes_n 0). pose proof (bytes_n 1). pose proof (bytes_h j). pose proof (bytes_h (j + 1)). cbn in *. vals. lia.
  - intros j Hj. by rewrite rstep2 by done.
Qed.
Lemma three_Ok : length n = 3 -> exists r, sv_threebyte_strnstrn (length h) hay needle = Ok r /\ finds n h r.
Proof.
  intros Hl. unfold sv_threebyte_strnstrn. rewrite (word3_Ok needle n), (word3_Ok hay h) by (done || lia). cbn [obind mbind outcome_bind].
  refine (forward_Ok h n (fun j => val3l (nth_of h j) (nth_of h (j + 1)) (nth_of h (j + 2))) _ _ hay 2 _ reads_h Hl fits _).
  - intros j Hj. destruct n as [|a [|b [|c [|]]]] eqn:En; try done. cbn in Hj. rewrite occurs_3 by lia.
    pose proof (bytes_n 0). pose proof (bytes_n 1). pose proof (bytes_n 2).
    pose proof (bytes_h j). pose proof (bytes_h (j + 1)). pose proof (bytes_h (j + 2)). cbn in *. vals. lia.
  - intros j Hj. rewrite step3 by done. f_equal; f_equal; lia.
Qed.
Lemma rthree_Ok : length n = 3 -> exists r, sv_rthreebyte_strnstrn (length h) hay needle = Ok r /\ rfinds n h r.
Proof.
  intros Hl. unfold sv_rthreebyte_strnstrn. rewrite (rword3_Ok needle n), (rword3_Ok hay h) by (done || lia). cbn [obind mbind outcome_bind].
  replace (length h - 3) with (length h - length n) by lia.
  refine (backward_Ok h n (fun j => val3 (nth_of h j) (nth_of h (j + 1)) (nth_of h (j + 2))) _ _ hay 2 _ reads_h Hl fits _).
  - intros j Hj. destruct n as [|a [|b [|c [|]]]] eqn:En; try done. cbn in Hj. rewrite occurs_3 by lia.
    pose proof (bytes_n 0). pose proof (bytes_n 1). pose proof (bytes_n 2).
    pose proof (bytes_h j). pose proof (bytes_h (j + 1)). pose proof (bytes_h (j + 2)). cbn in *. vals. lia.
  - intros j Hj. rewrite rstep3 by done. f_equal. f_equal; f_equal; lia.
Qed.
Lemma four_Ok : length n = 4 -> exists r, sv_fourbyte_strnstrn (length h) hay needle = Ok r /\ finds n h r.
Proof.
  intros Hl. unfold sv_fourbyte_strnstrn. rewrite (word4_Ok needle n), (word4_Ok hay h) by (done || lia). cbn [obind mbind outcome_bind].
  refine (forward_Ok h n (fun j => val4 (nth_of h j) (nth_of h (j + 1)) (nth_of h (j + 2)) (nth_of h (j + 3))) _ _ hay 3 _ reads_h Hl fits _).
  - intros j Hj. destruct n as [|a [|b [|c [|d [|]]]]] eqn:En; try done. cbn in Hj. rewrite occurs_4 by lia.
    pose proof (bytes_n 0). pose proof (bytes_n 1). pose proof (bytes_n 2). pose proof (bytes_n 3).
    pose proof (bytes_h j). pose proof (bytes_h (j + 1)). pose proof (bytes_h (j + 2)). pose proof (bytes_h (j + 3)). cbn in *. vals. lia.
  - intros j Hj. rewrite step4 by done. f_equal; f_equal; lia.
Qed.
Lemma rfour_Ok : length n = 4 -> (forall i, nth_of h i < 128)%N -> exists r, sv_rfourbyte_strnstrn (length h) hay needle = Ok r /\ rfinds n h r.
Proof.
  intros Hl H7. unfold sv_rfourbyte_strnstrn. rewrite (word4_Ok needle n), (word4_Ok hay h) by (done || lia). cbn [obind mbind outcome_bind].
  replace (length h - 4) with (length h - length n) by lia.
  refine (backward_Ok h n (fun j => val4 (nth_of h j) (nth_of h (j + 1)) (nth_of h (j + 2)) (nth_of h (j + 3))) _ _ hay 3 _ reads_h Hl fits _).
  - intros j Hj. destruct n as [|a [|b [|c [|d [|]]]]] eqn:En; try done. cbn in Hj. rewrite occurs_4 by lia.
    pose proof (bytes_n 0). pose proof (bytes_n 1). pose proof (bytes_n 2). pose proof (bytes_n 3).
    pose proof (bytes_h j). pose proof (bytes_h (j + 1)). pose proof (bytes_h (j + 2)). pose proof (bytes_h (j + 3)). cbn in *. vals. lia.
  - intros j Hj. rewrite rstep4 by done. f_equal. f_equal; f_equal; lia.
Qed.
End short.
