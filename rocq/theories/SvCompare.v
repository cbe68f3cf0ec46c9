(** Comparing and slicing string views. *)
From Coq Require Import String.
From stdpp Require Import base numbers option list.
From Verif Require Import Common SvModel SvSpec SvTwoWay SvSearch SvFind.

(** The order as a function, to show that it is one. *)
Fixpoint lexf (t u : text) : comparison :=
  match t, u with
  | [], [] => Eq
  | [], _ => Lt
  | _, [] => Gt
  | a :: t, b :: u => if (a <? b)%N then Lt else if (b <? a)%N then Gt else lexf t u
  end.
Lemma lexf_app t u w : lexf (t ++ u) (t ++ w) = lexf u w.
Proof. induction t as [|a t IH]; [done|]. cbn. rewrite N.ltb_irrefl. done. Qed.
Lemma lex_lexf t u c : lex t u c -> lexf t u = c.
Proof.
  intros H. destruct H as [w|w a u|w a u|w a u b x Hab|w a u b x Hab].
  - induction w as [|a w IH]; [done|]. cbn. by rewrite N.ltb_irrefl.
  - rewrite <- (app_nil_r w) at 1. by rewrite lexf_app.
  - pose proof (lexf_app w (a :: u) []) as E. rewrite app_nil_r in E. by rewrite E.
  - rewrite lexf_app. cbn. by destruct (N.ltb_spec a b); [|lia].
  - rewrite lexf_app. cbn. destruct (N.ltb_spec a b); [lia|]. by destruct (N.ltb_spec b a); [|lia].
Qed.
Lemma lex_unique t u c c' : lex t u c -> lex t u c' -> c = c'.
Proof. intros H1%lex_lexf H2%lex_lexf. congruence. Qed.
Lemma lex_eq t u : lex t u Eq <-> t = u.
Proof.
  split; [|intros ->; constructor]. intros H%lex_lexf. revert u H. induction t as [|a t IH]; intros [|b u]; try done. cbn.
  destruct (N.ltb_spec a b); [done|]. destruct (N.ltb_spec b a); [done|]. intros E. f_equal; [lia|]. by apply IH.
Qed.

(** Where the loops stop. *)
Definition common (h r : text) (i : nat) : Prop := i <= length h /\ i <= length r /\ forall j, j < i -> nth_of h j = nth_of r j.
Lemma common_take h r i : common h r i -> take i h = take i r.
Proof.
  intros (H1 & H2 & H3). apply list_eq. intros j. destruct (decide (j < i)) as [Hj|Hj].
  - rewrite !lookup_take, !nth_of_lookup by lia. by rewrite H3.
  - rewrite !lookup_ge_None_2; [done|rewrite take_length; lia|rewrite take_length; lia].
Qed.
Lemma drop_nth t i : i < length t -> drop i t = nth_of t i :: drop (S i) t.
Proof. intros Hi. apply drop_S. by apply nth_of_lookup. Qed.
Lemma common_split h r i : common h r i -> exists t, t = take i h /\ h = t ++ drop i h /\ r = t ++ drop i r.
Proof. intros Hc. exists (take i h). split; [done|]. split; [by rewrite take_drop|]. by rewrite (common_take h r i Hc), take_drop. Qed.
Lemma lex_common h r i : common h r i ->
  (i = length h -> i = length r -> lex h r Eq) /\
  (i = length h -> i < length r -> lex h r Lt) /\
  (i < length h -> i = length r -> lex h r Gt) /\
  (i < length h -> i < length r -> nth_of h i <> nth_of r i -> lex h r (less_or_greater (nth_of h i) (nth_of r i))).
Proof.
  intros Hc. destruct (common_split h r i Hc) as (t & _ & Eh & Er).
  assert (i = length h -> drop i h = []) as Dh by (intros ->; by rewrite drop_all).
  assert (i = length r -> drop i r = []) as Dr by (intros ->; by rewrite drop_all).
  split; [|split; [|split]].
  - intros H1 H2. rewrite Eh, Er, Dh, Dr by done. constructor.
  - intros H1 H2. rewrite Eh, Er, Dh by done. rewrite (drop_nth r) by done. rewrite app_nil_r. constructor.
  - intros H1 H2. rewrite Eh, Er, Dr by done. rewrite (drop_nth h) by done. rewrite app_nil_r. constructor.
  - intros H1 H2 Hne. rewrite Eh at 1. rewrite Er at 1. rewrite (drop_nth h), (drop_nth r) by done. unfold less_or_greater.
    destruct (N.ltb_spec (nth_of h i) (nth_of r i)); constructor; [done|lia].
Qed.

Lemma cmp_loop_Ok p h q r k : reads p h -> reads q r -> forall i, common h r i -> i + k <= length h -> i + k <= length r ->
  exists m, cmp_loop k p q i = Ok m /\ common h r m /\ m <= i + k /\ (m < i + k -> nth_of h m <> nth_of r m).
Proof.
  intros Hp Hq. induction k as [|k IH]; intros i Hc Hh Hr; cbn [cmp_loop].
  { exists i. split; [done|]. split; [done|]. split; [lia|lia]. }
  rewrite Hp, Hq by lia. cbn [obind mbind outcome_bind]. destruct (N.eqb_spec (nth_of h i) (nth_of r i)) as [E|E].
  - destruct (IH (i + 1)) as (m & -> & H1 & H2 & H3); [|lia|lia|].
    + destruct Hc as (C1 & C2 & C3). split; [lia|]. split; [lia|]. intros j Hj. destruct (decide (j = i)) as [->|]; [done|]. apply C3. lia.
    + exists m. split; [done|]. split; [done|]. split; [lia|]. intros. apply H3. lia.
  - exists i. split; [done|]. split; [done|]. split; [lia|done].
Qed.
Lemma common_0 h r : common h r 0.
Proof. split; [lia|]. split; [lia|]. intros; lia. Qed.
Lemma cmp_Ok v u h r : shows v h -> shows u r -> exists c, sv_cmp v u = Ok (Some c) /\ lex h r c.
Proof.
  intros Hv Hu. unfold sv_cmp. rewrite (shows_not_null _ _ Hv), (shows_not_null _ _ Hu), (shows_len _ _ Hv), (shows_len _ _ Hu). cbn [orb].
  destruct (cmp_loop_Ok (s v) h (s u) r (length h `min` length r) (shows_reads _ _ Hv) (shows_reads _ _ Hu) 0 (common_0 h r)) as (m & -> & Hc & Hm & Hd); [lia|lia|].
  cbn [obind mbind outcome_bind]. destruct (lex_common h r m Hc) as (L1 & L2 & L3 & L4). destruct Hc as (C1 & C2 & _).
  destruct (Nat.eqb_spec m (length h)) as [E1|E1], (Nat.eqb_spec m (length r)) as [E2|E2]; cbn [andb].
  - eexists. split; [done|]. by apply L1.
  - destruct (Nat.ltb_spec m (length h)); [lia|]. cbn [andb]. eexists. split; [done|]. apply L2; lia.
  - destruct (Nat.ltb_spec m (length h)); [|lia]. destruct (Nat.ltb_spec m (length r)); [lia|]. cbn [andb]. eexists. split; [done|]. apply L3; lia.
  - destruct (Nat.ltb_spec m (length h)); [|lia]. destruct (Nat.ltb_spec m (length r)); [|lia]. cbn [andb].
    rewrite (shows_reads _ _ Hv), (shows_reads _ _ Hu) by lia. cbn [obind mbind outcome_bind]. eexists. split; [done|]. apply L4; [lia|lia|apply Hd; lia].
Qed.

(** Strings of C. *)
Lemma cstring_reads p r : cstring p r -> forall i, i <= length r -> rd p i = Ok (nth_of r i).
Proof.
  intros (pre & post & Ha & Ho & _ & _) i Hi. unfold rd. rewrite Ha, Ho, lookup_app_r by lia.
  replace (length pre + i - length pre) with i by lia. destruct (decide (i < length r)) as [Hlt|Hge].
  - rewrite lookup_app_l by done. by rewrite nth_of_lookup.
  - replace i with (length r) by lia. rewrite lookup_app_r by lia. rewrite Nat.sub_diag. cbn. f_equal. unfold nth_of. by rewrite nth_overflow.
Qed.
Lemma cstring_zero p r i : cstring p r -> (nth_of r i = 0%N <-> length r <= i).
Proof.
  intros (pre & post & _ & _ & Hz & _). split.
  - intros E. destruct (decide (length r <= i)) as [|Hlt]; [done|]. exfalso. apply Hz. rewrite <- E. apply (elem_of_list_lookup_2 _ i). apply nth_of_lookup. lia.
  - intros Hi. unfold nth_of. by rewrite nth_overflow.
Qed.
Lemma cstring_not_null p r : cstring p r -> is_null p = false.
Proof. intros (pre & post & H & _). unfold is_null. by rewrite H. Qed.
Lemma cstring_shows p r : cstring p r -> shows (View p (length r)) r.
Proof. intros (pre & post & Ha & Ho & Hz & HF). by exists pre, (0%N :: post). Qed.
Lemma strcmp_loop_Ok p h q r k : reads p h -> cstring q r -> forall i, common h r i -> i + k <= length h ->
  exists m, strcmp_loop k p q i = Ok m /\ common h r m /\ m <= i + k /\ (m < i + k -> m < length r -> nth_of h m <> nth_of r m).
Proof.
  intros Hp Hq. induction k as [|k IH]; intros i Hc Hh; cbn [strcmp_loop].
  { exists i. split; [done|]. split; [done|]. split; [lia|lia]. }
  pose proof Hc as (C1 & C2 & C3). rewrite (cstring_reads q r Hq) by lia. cbn [obind mbind outcome_bind].
  pose proof (cstring_zero q r i Hq) as Hz. destruct (N.eqb_spec (nth_of r i) 0) as [E0|E0].
  { exists i. split; [done|]. split; [done|]. split; [lia|]. apply Hz in E0. lia. }
  assert (i < length r) by (destruct (decide (length r <= i)) as [Hle|]; [by apply Hz in Hle|lia]).
  rewrite Hp by lia. cbn [obind mbind outcome_bind]. destruct (N.eqb_spec (nth_of h i) (nth_of r i)) as [E|E].
  - destruct (IH (i + 1)) as (m & -> & H1 & H2 & H3); [|lia|].
    + split; [lia|]. split; [lia|]. intros j Hj. destruct (decide (j = i)) as [->|]; [done|]. apply C3. lia.
    + exists m. split; [done|]. split; [done|]. split; [lia|]. intros. apply H3; lia.
  - exists i. split; [done|]. split; [done|]. split; [lia|done].
Qed.
Lemma strcmp_Ok v q h r : shows v h -> cstring q r -> exists c, sv_strcmp v q = Ok (Some c) /\ lex h r c.
Proof.
  intros Hv Hq. unfold sv_strcmp. rewrite (shows_not_null _ _ Hv), (cstring_not_null _ _ Hq), (shows_len _ _ Hv). cbn [orb].
  destruct (strcmp_loop_Ok (s v) h q r (length h) (shows_reads _ _ Hv) Hq 0 (common_0 h r)) as (m & -> & Hc & Hm & Hd); [lia|].
  cbn [obind mbind outcome_bind]. destruct (lex_common h r m Hc) as (L1 & L2 & L3 & L4). destruct Hc as (C1 & C2 & _).
  rewrite (cstring_reads q r Hq) by lia. cbn [obind mbind outcome_bind]. pose proof (cstring_zero q r m Hq) as Hz.
  assert (nth_of r m <> 0%N -> m < length r) as Hz' by (intros; destruct (decide (length r <= m)) as [Hle|]; [by apply Hz in Hle|lia]).
  destruct (Nat.eqb_spec m (length h)) as [E1|E1], (N.eqb_spec (nth_of r m) 0) as [E2|E2]; cbn [andb negb].
  - eexists. split; [done|]. apply L1; [done|]. apply Hz in E2. lia.
  - destruct (Nat.ltb_spec m (length h)); [lia|]. cbn [andb]. eexists. split; [done|]. apply L2; [lia|by apply Hz'].
  - destruct (Nat.ltb_spec m (length h)); [|lia]. cbn [andb]. eexists. split; [done|]. apply L3; [lia|]. apply Hz in E2. lia.
  - destruct (Nat.ltb_spec m (length h)); [|lia]. cbn [andb].
    rewrite (shows_reads _ _ Hv) by lia. cbn [obind mbind outcome_bind]. eexists. split; [done|]. specialize (Hz' E2). apply L4; [lia|lia|apply Hd; lia].
Qed.
Lemma common_le h r n i : common h r i -> i <= n -> common h (take n r) i.
Proof.
  intros (C1 & C2 & C3) Hi. split; [done|]. split; [rewrite take_length; lia|]. intros j Hj. rewrite nth_of_take by lia. by apply C3.
Qed.
Lemma strncmp_Ok v q h r n : shows v h -> cstring q r -> (n < length h -> take n h <> take n r) -> (length h < n -> h <> r) ->
  exists c, sv_strncmp v q n = Ok (Some c) /\ lex h (take n r) c.
Proof.
  intros Hv Hq P1 P2. unfold sv_strncmp. rewrite (shows_not_null _ _ Hv), (cstring_not_null _ _ Hq), (shows_len _ _ Hv). cbn [orb]. cbv zeta.
  destruct (strcmp_loop_Ok (s v) h q r (length h `min` n) (shows_reads _ _ Hv) Hq 0 (common_0 h r)) as (m & -> & Hc & Hm & Hd); [lia|].
  cbn [obind mbind outcome_bind]. destruct (lex_common h (take n r) m) as (L1 & L2 & L3 & L4); [apply common_le; [done|lia]|].
  pose proof (common_take _ _ _ Hc) as Ht. destruct Hc as (C1 & C2 & _). rewrite take_length in *.
  destruct (Nat.eqb_spec m (length h)) as [E1|E1]; cbn [andb].
  - destruct (Nat.eqb_spec (length h `min` n) n) as [E2|E2].
    + eexists. split; [done|]. apply L1; lia.
    + destruct (Nat.ltb_spec m (length h)); [lia|]. cbn [andb]. eexists. split; [done|]. apply L2; [lia|].
      assert (m <> length r); [|lia]. intros ->. rewrite E1 in Ht at 1. rewrite !firstn_all in Ht. apply P2; [lia|done].
  - destruct (Nat.ltb_spec m (length h)); [|lia]. destruct (Nat.leb_spec (length h `min` n) n); [|lia]. cbn [andb].
    rewrite (shows_reads _ _ Hv), (cstring_reads q r Hq) by lia. cbn [obind mbind outcome_bind]. eexists. split; [done|].
    assert (m < n) by (destruct (decide (m < n)); [done|]; assert (m = n) as -> by lia; exfalso; apply P1; [lia|done]).
    destruct (decide (m < length r)) as [Hlt|Hge].
    + rewrite nth_of_take in L4 by done. apply L4; [lia|lia|apply Hd; lia].
    + replace (nth_of r m) with 0%N by (symmetry; apply (cstring_zero q r m Hq); lia). unfold less_or_greater.
      destruct (N.ltb_spec (nth_of h m) 0); [lia|]. apply L3; lia.
Qed.

(** ** Slices *)
Lemma substr_Ok v t pos count : shows v t -> shows (sv_substr v pos count) (take count (drop pos t)) /\
  arr (s (sv_substr v pos count)) = arr (s v) /\ off (s (sv_substr v pos count)) = off (s v) + min pos (length t).
Proof.
  intros Hv. unfold sv_substr. rewrite (shows_len _ _ Hv). destruct (Nat.ltb_spec (length t) pos) as [Hlt|Hge].
  - rewrite (drop_ge t pos) by lia. rewrite take_nil. pose proof (shows_drop v t (length t) Hv) as H. rewrite drop_all, Nat.sub_diag in H.
    split; [apply H; lia|]. cbn. split; [done|lia].
  - pose proof (shows_drop v t pos Hv Hge) as H. split; [|cbn; split; [done|lia]].
    pose proof (shows_take _ _ (min count (length t - pos)) H) as H'. rewrite drop_length in H'. specialize (H' ltac:(lia)). cbn [s] in H'.
    replace (take count (drop pos t)) with (take (count `min` (length t - pos)) (drop pos t)); [done|].
    destruct (decide (count <= length t - pos)); [by rewrite Nat.min_l|]. rewrite Nat.min_r by lia. rewrite !take_ge; [done|rewrite drop_length; lia..].
Qed.
Lemma remove_prefix_Ok v t n : shows v t -> shows (sv_remove_prefix v n) (drop n t) /\
  arr (s (sv_remove_prefix v n)) = arr (s v) /\ off (s (sv_remove_prefix v n)) = off (s v) + min n (length t).
Proof.
  intros Hv. unfold sv_remove_prefix. rewrite (shows_len _ _ Hv). cbv zeta. split; [|cbn; split; [done|lia]].
  pose proof (shows_drop v t (length t `min` n) Hv ltac:(lia)) as H. replace (drop n t) with (drop (length t `min` n) t); [done|].
  destruct (decide (n <= length t)); [by rewrite Nat.min_r|]. rewrite Nat.min_l by lia. by rewrite drop_all, drop_ge by lia.
Qed.
Lemma remove_suffix_Ok v t n : shows v t -> shows (sv_remove_suffix v n) (take (length t - n) t) /\ s (sv_remove_suffix v n) = s v.
Proof.
  intros Hv. unfold sv_remove_suffix. rewrite (shows_not_null _ _ Hv), (shows_len _ _ Hv). split; [|done].
  replace (length t - length t `min` n) with (length t - n) by lia. apply shows_take; [done|lia].
Qed.
Lemma starts_with_Ok v p t u : shows v t -> shows p u ->
  exists b : bool, sv_starts_with v p = Ok b /\ (b = true <-> exists rest, t = u ++ rest).
Proof.
  intros Hv Hp. unfold sv_starts_with. rewrite (shows_len _ _ Hv), (shows_len _ _ Hp). destruct (Nat.ltb_spec (length t) (length u)) as [Hlt|Hge].
  { exists false. split; [done|]. split; [done|]. intros [rest ->]. rewrite app_length in Hlt. lia. }
  destruct (cmp_Ok (sv_substr v 0 (length u)) p _ u (proj1 (substr_Ok v t 0 (length u) Hv)) Hp) as (c & -> & Hc). cbn [obind mbind outcome_bind].
  eexists. split; [done|]. rewrite drop_0 in Hc. split.
  - destruct c; [|done..]. intros _. apply lex_eq in Hc. exists (drop (length u) t). rewrite <- Hc at 1. by rewrite take_drop.
  - intros [rest ->]. rewrite take_app_alt in Hc by done. by rewrite (lex_unique _ _ _ _ Hc (lex_same u)).
Qed.
Lemma ends_with_Ok v p t u : shows v t -> shows p u ->
  exists b : bool, sv_ends_with v p = Ok b /\ (b = true <-> exists rest, t = rest ++ u).
Proof.
  intros Hv Hp. unfold sv_ends_with. rewrite (shows_len _ _ Hv), (shows_len _ _ Hp). destruct (Nat.ltb_spec (length t) (length u)) as [Hlt|Hge].
  { exists false. split; [done|]. split; [done|]. intros [rest ->]. rewrite app_length in Hlt. lia. }
  destruct (cmp_Ok (sv_substr v (length t - length u) (length u)) p _ u (proj1 (substr_Ok v t (length t - length u) (length u) Hv)) Hp) as (c & -> & Hc).
  cbn [obind mbind outcome_bind]. rewrite take_ge in Hc by (rewrite drop_length; lia). eexists. split; [done|]. split.
  - destruct c; [|done..]. intros _. apply lex_eq in Hc. exists (take (length t - length u) t). rewrite <- Hc at 2. by rewrite take_drop.
  - intros [rest ->]. rewrite app_length in Hc. rewrite drop_app_alt in Hc by lia. by rewrite (lex_unique _ _ _ _ Hc (lex_same u)).
Qed.
Lemma at_Ok v t i : shows v t -> sv_at v i = Ok (nth i t 0%N).
Proof.
  intros Hv. unfold sv_at. rewrite (shows_len _ _ Hv). destruct (Nat.leb_spec (length t) i).
  - by rewrite nth_overflow.
  - by rewrite (shows_reads _ _ Hv).
Qed.
Lemma front_Ok v t : shows v t -> sv_front v = Ok (default 0%N (head t)).
Proof.
  intros Hv. unfold sv_front. rewrite (shows_not_null _ _ Hv), (shows_len _ _ Hv). cbn [orb]. destruct t as [|b t]; [done|]. cbn [length Nat.eqb].
  rewrite (shows_reads _ _ Hv) by (cbn; lia). done.
Qed.
Lemma back_Ok v t : shows v t -> sv_back v = Ok (default 0%N (last t)).
Proof.
  intros Hv. unfold sv_back. rewrite (shows_not_null _ _ Hv), (shows_len _ _ Hv). cbn [orb]. destruct (Nat.eqb_spec (length t) 0) as [E|E].
  { by apply nil_length_inv in E as ->. }
  rewrite (shows_reads _ _ Hv) by lia. rewrite last_lookup. replace (Init.Nat.pred (length t)) with (length t - 1) by lia.
  rewrite nth_of_lookup by lia. done.
Qed.

(** ** Construction and filling *)
Lemma strlen_loop_Ok p r : cstring p r -> forall f i, i <= length r -> length r < f + i -> strlen_loop f p i = Ok (length r).
Proof.
  intros Hp f. induction f as [|f IH]; intros i Hi Hf; [lia|]. cbn [strlen_loop]. rewrite (cstring_reads p r Hp) by done. cbn [obind mbind outcome_bind].
  pose proof (cstring_zero p r i Hp) as Hz. destruct (N.eqb_spec (nth_of r i) 0) as [E|E].
  - apply Hz in E. f_equal. lia.
  - apply IH; [|lia]. destruct (decide (length r <= i)) as [Hle|]; [by apply Hz in Hle|lia].
Qed.
Lemma strlen_Ok p r : cstring p r -> strlen p = Ok (length r).
Proof.
  intros Hp. unfold strlen. apply (strlen_loop_Ok p r Hp); [lia|]. unfold room. destruct Hp as (pre & post & -> & _). rewrite !app_length. lia.
Qed.
Lemma sv_Ok p r : cstring p r -> sv p = Ok (View p (length r)).
Proof. intros Hp. unfold sv. by rewrite (cstring_not_null _ _ Hp), (strlen_Ok p r Hp). Qed.
Lemma strnlen_loop_Ok p r : cstring p r -> forall k i, i <= length r -> strnlen_loop k p i = Ok (min (i + k) (length r)).
Proof.
  intros Hp k. induction k as [|k IH]; intros i Hi; cbn [strnlen_loop]; [f_equal; lia|]. rewrite (cstring_reads p r Hp) by done. cbn [obind mbind outcome_bind].
  pose proof (cstring_zero p r i Hp) as Hz. destruct (N.eqb_spec (nth_of r i) 0) as [E|E].
  - apply Hz in E. f_equal. lia.
  - rewrite IH; [f_equal; lia|]. destruct (decide (length r <= i)) as [Hle|]; [by apply Hz in Hle|lia].
Qed.
Lemma sv_n_Ok p r k : cstring p r -> exists v, sv_n k p = Ok v /\ s v = p /\ shows v (take k r).
Proof.
  intros Hp. unfold sv_n. rewrite (cstring_not_null _ _ Hp), (strnlen_loop_Ok p r Hp) by lia. cbn [obind mbind outcome_bind].
  eexists. split; [done|]. split; [done|]. pose proof (shows_take _ _ (k `min` length r) (cstring_shows p r Hp) ltac:(lia)) as H. cbn [s] in H. cbn [Nat.add].
  replace (take k r) with (take (k `min` length r) r); [done|]. destruct (decide (k <= length r)); [by rewrite Nat.min_l|]. rewrite Nat.min_r by lia.
  rewrite !take_ge; [done|lia..].
Qed.
Lemma read_bytes_Ok p t k : reads p t -> forall i, i + k <= length t -> read_bytes k p i = Ok (take k (drop i t)).
Proof.
  intros Hp. induction k as [|k IH]; intros i Hi; cbn [read_bytes]; [by rewrite take_0|]. rewrite Hp by lia. cbn [obind mbind outcome_bind].
  rewrite IH by lia. cbn [obind mbind outcome_bind]. rewrite (drop_nth t i) by lia. cbn. by replace (i + 1) with (S i) by lia.
Qed.
Lemma fill_Ok dest v t : shows v t -> t <> [] -> dest <> [] ->
  let n := min (length dest - 1) (length t) in
  sv_fill dest v = Ok (take n t ++ 0%N :: drop (S n) dest, S n).
Proof.
  intros Hv Ht Hd n. unfold sv_fill. rewrite (shows_not_null _ _ Hv), (shows_len _ _ Hv).
  assert (1 <= length t) by (destruct t; [done|cbn; lia]). assert (1 <= length dest) by (destruct dest; [done|cbn; lia]).
  destruct (Nat.eqb_spec (length dest) 0); [lia|]. destruct (Nat.eqb_spec (length t) 0); [lia|]. cbn [orb]. cbv zeta.
  replace (length dest `min` (length t + 1)) with (S n) by lia.
  destruct Hv as (pre & post & Ha & Hp & Ho & Hl & HF). destruct post as [|b post]; [done|].
  assert (reads (s v) (t ++ [b])) as Hr.
  { intros i Hi. unfold rd. rewrite Ha, Ho, lookup_app_r by lia. replace (length pre + i - length pre) with i by lia.
    change (t ++ b :: post) with (t ++ [b] ++ post). rewrite (assoc_L (++)), lookup_app_l by done. by rewrite nth_of_lookup. }
  rewrite (read_bytes_Ok _ _ _ Hr) by (rewrite app_length; cbn; lia). cbn [obind mbind outcome_bind]. rewrite drop_0. f_equal. f_equal.
  replace (S n - 1) with n by lia.
  rewrite (take_S_r (t ++ [b]) n (nth_of (t ++ [b]) n)) by (apply nth_of_lookup; rewrite app_length; cbn; lia).
  rewrite take_app_le by lia. rewrite <- (assoc_L (++)).
  replace n with (length (take n t) + 0) at 1 by (rewrite take_length; lia). rewrite insert_app_r. done.
Qed.
