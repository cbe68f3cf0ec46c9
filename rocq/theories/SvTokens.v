(** The tokens of a text from left to right. *)
From stdpp Require Import base numbers option list.
From Verif Require Import Common SvModel SvSpec SvTwoWay SvSearch SvFind SvCompare.

Fixpoint rep (k : nat) (d : text) : text := match k with 0 => [] | S k => d ++ rep k d end.
Lemma rep_length k d : length (rep k d) = k * length d.
Proof. induction k as [|k IH]; [done|]. cbn. rewrite app_length, IH. lia. Qed.
Lemma rep_nth k d j : d <> [] -> j < k * length d -> nth_of (rep k d) j = nth_of d (j mod length d).
Proof.
  intros Hd. assert (length d <> 0) by (by destruct d). revert j. induction k as [|k IH]; intros j Hj; [lia|]. cbn [rep]. unfold nth_of.
  destruct (decide (j < length d)) as [Hlt|Hge].
  - rewrite app_nth1 by done. by rewrite Nat.mod_small.
  - rewrite app_nth2 by lia. fold (nth_of (rep k d) (j - length d)). rewrite IH by lia. unfold nth_of. f_equal.
    replace j with (j - length d + 1 * length d) at 2 by lia. by rewrite Nat.mod_add.
Qed.

Lemma minus_Ok a b : b <= a -> minus a b = Ok (a - b).
Proof. intros H. unfold minus. by destruct (Nat.leb_spec b a); [|lia]. Qed.

Section tokens.
Context (delim : view) (d : text).
Hypothesis delim_shows : shows delim d.
Hypothesis delim_some : d <> [].

Lemma delim_pos : 1 <= length d.
Proof. destruct d; [done|cbn; lia]. Qed.

(** Skipping delimiters. *)
Lemma after_loop_Ok u t k : shows u t -> forall i, i + k = length t -> (forall j, j < i -> nth_of t j = nth_of d (j mod length d)) ->
  exists i', after_loop k u delim (i mod length d) i = Ok (i', i' mod length d) /\ i <= i' <= length t /\
    (forall j, j < i' -> nth_of t j = nth_of d (j mod length d)) /\ (i' < length t -> nth_of t i' <> nth_of d (i' mod length d)).
Proof.
  intros Hu. pose proof delim_pos as Hd. induction k as [|k IH]; intros i Hi Hj; cbn [after_loop].
  { exists i. split; [done|]. split; [lia|]. split; [done|lia]. }
  assert (i mod length d < length d) by (apply Nat.mod_upper_bound; lia).
  rewrite (shows_reads _ _ delim_shows), (shows_reads _ _ Hu) by lia. cbn [obind mbind outcome_bind]. rewrite (shows_len _ _ delim_shows).
  destruct (N.eqb_spec (nth_of d (i mod length d)) (nth_of t i)) as [E|E].
  - destruct (Nat.eqb_spec (length d) 0); [lia|].
    replace ((i mod length d + 1) mod length d) with ((i + 1) mod length d) by (rewrite Nat.add_mod_idemp_l; [done|lia]).
    destruct (IH (i + 1)) as (i' & -> & H1 & H2 & H3); [lia| |].
    + intros j Hlt. destruct (decide (j = i)) as [->|]; [done|]. apply Hj. lia.
    + exists i'. split; [done|]. split; [lia|]. done.
  - exists i. split; [done|]. split; [lia|]. split; [done|]. intros _ E'. by rewrite E' in E.
Qed.
Lemma after_find_Ok u t : shows u t ->
  exists k t', sv_after_find u delim = Ok (k * length d) /\ t = rep k d ++ t' /\ ~ occurs d t' 0.
Proof.
  intros Hu. pose proof delim_pos as Hd. unfold sv_after_find. rewrite (shows_len _ _ Hu), (shows_len _ _ delim_shows).
  destruct (Nat.ltb_spec (length t) (length d)) as [Hlt|Hge].
  { exists 0, t. split; [done|]. split; [done|]. by apply too_long. }
  destruct (after_loop_Ok u t (length t) Hu 0) as (i & E & H1 & H2 & H3); [lia|intros; lia|]. rewrite Nat.mod_0_l in E by lia. rewrite E.
  cbn [obind mbind outcome_bind]. unfold minus.
  pose proof (Nat.div_mod i (length d) ltac:(lia)) as Hdm. pose proof (Nat.mod_upper_bound i (length d) ltac:(lia)) as Hub.
  destruct (Nat.leb_spec (i mod length d) i) as [_|]; [|lia]. set (k := i / length d) in *.
  exists k, (drop (k * length d) t). split; [f_equal; lia|]. split.
  - rewrite <- (take_drop (k * length d) t) at 1. f_equal. apply list_eq. intros j. destruct (decide (j < k * length d)) as [Hj|Hj].
    + rewrite lookup_take, !nth_of_lookup by (rewrite ?rep_length; lia). f_equal. rewrite rep_nth by done. apply H2. lia.
    + rewrite !lookup_ge_None_2; [done|rewrite rep_length; lia|rewrite take_length; lia].
  - intros Ho. apply occurs_nth in Ho as [Hl Ho]. rewrite drop_length in Hl. apply H3; [lia|]. rewrite Ho by lia.
    rewrite nth_of_drop. f_equal. lia.
Qed.

(** Pieces. *)
Lemma pieces_skip p k t l : pieces d (p + k * length d) t l -> exists l', pieces d p (rep k d ++ t) l' /\ filter nonempty l' = filter nonempty l.
Proof.
  revert p. induction k as [|k IH]; intros p Hp; [exists l; by rewrite Nat.add_0_r in Hp|].
  destruct (IH (p + length d)) as (l' & Hl & Hf); [by replace (p + length d + k * length d) with (p + S k * length d) by lia|].
  exists ((p, []) :: l'). split.
  - cbn [rep]. rewrite <- (assoc_L (++)). apply (pieces_cut d p []); [|by replace (p + length (A:=N) [] + length d) with (p + length d) by (cbn; lia)].
    split; [by exists [], (rep k d ++ t)|]. intros j _. cbn. lia.
  - rewrite filter_cons_False; [done|]. by intros [].
Qed.
Lemma pieces_none p k : exists l, pieces d p (rep k d) l /\ filter nonempty l = [].
Proof.
  destruct (pieces_skip p k [] [(p + k * length d, [])]) as (l & Hl & Hf).
  - constructor. apply too_long. apply delim_pos.
  - exists l. rewrite app_nil_r in Hl. split; [done|]. rewrite Hf. rewrite filter_cons_False; [done|]. by intros [].
Qed.

(** There is one way to cut a text. *)
Lemma first_at_unique h i j : first_at d h i -> first_at d h j -> i = j.
Proof. intros [H1 H2] [H3 H4]. specialize (H2 _ H3). specialize (H4 _ H1). lia. Qed.
Lemma pieces_unique p u l l' : pieces d p u l -> pieces d p u l' -> l = l'.
Proof.
  intros Hl. revert l'. induction Hl as [p u Hno|p a b l Hf Hl IH]; intros l' Hl'.
  - inversion Hl' as [|p' a b l2 Hf Hl2]; subst; [done|]. destruct Hf as [Ho _]. by apply Hno in Ho.
  - inversion Hl' as [p' u Hno E1 E2 E3|p' a' b' l2 Hf' Hl2 E1 E2 E3].
    + destruct Hf as [Ho _]. exfalso. by apply Hno in Ho.
    + rewrite E2 in Hf'. pose proof (first_at_unique _ _ _ Hf Hf') as El.
      apply app_inj_1 in E2 as [-> E2]; [|done]. apply app_inv_head in E2 as ->. f_equal. by apply IH.
Qed.

(** The token that starts at position [p] of [src]. *)
Context (src : view) (t : text).
Hypothesis src_shows : shows src t.
Hypothesis no_zero : head d <> Some 0%N.

Definition tok_at (p m : nat) : view := View (plus (s src) p) m.
Lemma tok_view p q r a b : drop p t = a ++ b -> length a = q -> p <= length t -> r = p -> view_of src (tok_at r q) (p, a).
Proof.
  intros Hd <- Hp ->. split; [|done]. pose proof (shows_drop src t p src_shows Hp) as H. rewrite Hd in H.
  change (a ++ b) with ([] ++ a ++ b) in H. apply shows_part in H. cbn in H. unfold tok_at. unfold plus in *. cbn in H. by rewrite Nat.add_0_r in H.
Qed.
Lemma plus_plus x p q : plus (plus x p) q = plus x (p + q).
Proof. unfold plus. cbn. f_equal. lia. Qed.

(** The token after position [q], where the text goes on with [rep k d ++ t']. *)
Lemma next_from q b : q <= length t -> drop q t = b ->
  exists k t', b = rep k d ++ t' /\
    sv_after_find (View (plus (s src) q) (length b)) delim = Ok (k * length d) /\
    (t' <> [] -> exists m, finds d t' m /\ 1 <= m /\
       sv_strnstrn (length t') (plus (s src) (q + k * length d)) (length d) (s delim) = Ok m).
Proof.
  intros Hq Hb. pose proof (shows_drop src t q src_shows Hq) as H. rewrite Hb in H.
  assert (length t - q = length b) as El by (rewrite <- Hb, drop_length; done). rewrite El in H.
  destruct (after_find_Ok _ _ H) as (k & t' & E & Et & Hn). exists k, t'. split; [done|]. split; [done|]. intros Ht'.
  assert (shows (View (plus (s src) (q + k * length d)) (length t')) t') as H'.
  { rewrite Et in H. replace (rep k d ++ t') with (rep k d ++ t' ++ []) in H by by rewrite app_nil_r. apply shows_part in H. cbn [s] in H.
    by rewrite plus_plus, rep_length in H. }
  destruct (strnstrn_Ok (plus (s src) (q + k * length d)) t' (s delim) d) as (m & Em & Hm).
  - exact (shows_reads _ _ H').
  - exact (shows_reads _ _ delim_shows).
  - intros i. exact (shows_bytes _ _ i H').
  - intros i. exact (shows_bytes _ _ i delim_shows).
  - done.
  - exists m. split; [done|]. split; [|done]. destruct Hm as [[Hm _]|[_ ->]].
    + assert (m <> 0); [|lia]. intros ->. done.
    + destruct t'; [done|cbn; lia].
Qed.

Lemma tokens_Ok f : forall p t' m, p <= length t -> drop p t = t' -> finds d t' m -> 1 <= m -> length t' <= f ->
  exists l vs, pieces d p t' l /\ tokens_loop f src (tok_at p m) delim = Ok vs /\ Forall2 (view_of src) vs (filter nonempty l).
Proof.
  pose proof delim_pos as Hd. induction f as [|f IH]; intros p t' m Hp Ht' Hm Hm1 Hf.
  { assert (m <= length t'); [|lia]. destruct Hm as [[Ho _]|[_ ->]]; [|lia]. apply occurs_nth in Ho as [Ho _]. lia. }
  assert (length t' = length t - p) as El by (by rewrite <- Ht', drop_length).
  assert (m <= length t') as Hml by (destruct Hm as [[Ho _]|[_ ->]]; [|lia]; apply occurs_nth in Ho as [Ho _]; lia).
  cbn [tokens_loop]. unfold sv_end_tok. cbn [len tok_at s off plus]. rewrite (shows_len _ _ src_shows).
  destruct (Nat.eqb_spec m 0); [lia|]. destruct (Nat.leb_spec (off (s src) + length t) (off (s src) + p)); [lia|]. cbn [orb].
  unfold sv_next_tok. assert (is_null (plus (s src) p) = false) as Hnn by exact (shows_not_null _ _ src_shows). cbn [s len tok_at]. rewrite Hnn, (shows_not_null _ _ delim_shows).
  (* the byte after the token *)
  assert (exists z, rd (plus (s src) p) m = Ok z /\ (p + m < length t -> z = nth_of t (p + m))) as (z & -> & Hz).
  { destruct src_shows as (pre & post & Ha & Hpost & Ho & _ & _). unfold rd, plus. cbn. rewrite Ha, Ho.
    destruct (decide (p + m < length t)) as [Hlt|Hge].
    - exists (nth_of t (p + m)). rewrite lookup_app_r by lia. replace (length pre + p + m - length pre) with (p + m) by lia. rewrite lookup_app_l by done.
      by rewrite nth_of_lookup.
    - destruct post as [|z post]; [done|]. exists z. rewrite lookup_app_r by lia. replace (length pre + p + m - length pre) with (length t) by lia.
      rewrite lookup_app_r by lia. rewrite Nat.sub_diag. split; [done|lia]. }
  cbn [obind mbind outcome_bind]. rewrite plus_plus.
  destruct Hm as [Hm|[Hno ->]].
  - (* cut *)
    pose proof Hm as [(a & b & Eab & Ha) _]. assert (p + m + length d <= length t) as Hfit.
    { rewrite Eab in El. rewrite !app_length in El. lia. }
    destruct (N.eqb_spec z 0) as [->|_].
    { exfalso. apply no_zero. destruct Hm as [Ho _]. apply occurs_nth in Ho as [_ Ho]. specialize (Ho 0 ltac:(lia)). rewrite <- Ht', nth_of_drop in Ho.
      cbn [Nat.add] in Ho. rewrite <- Hz in Ho by lia. destruct d; [done|]. cbn in *. by rewrite Ho. }
    cbv zeta. cbn [off plus]. rewrite (shows_len _ _ src_shows), (shows_len _ _ delim_shows).
    destruct (Nat.leb_spec (off (s src) + length t) (off (s src) + (p + m))) as [|_]; [lia|].
    rewrite minus_Ok by lia. cbn [obind mbind outcome_bind].
    replace (off (s src) + (p + m) + length d - off (s src)) with (p + m + length d) by lia.
    rewrite minus_Ok by lia. cbn [obind mbind outcome_bind]. rewrite plus_plus.
    assert (drop (p + m + length d) t = b) as Eb.
    { rewrite <- !drop_drop, Ht', Eab, drop_app_alt by done. by rewrite drop_app_alt. }
    assert (length b = length t - (p + m + length d)) as Elb by (by rewrite <- Eb, drop_length).
    destruct (next_from (p + m + length d) b ltac:(lia) Eb) as (k & t2 & E2 & Eaf & Hnext). rewrite <- Elb. rewrite Eaf.
    cbn [obind mbind outcome_bind]. rewrite plus_plus. cbn [off plus].
    assert (length b = k * length d + length t2) as Elb2 by (by rewrite E2, app_length, rep_length).
    rewrite minus_Ok by lia. cbn [obind mbind outcome_bind].
    replace (length b - k * length d) with (length t2) by lia.
    assert (view_of src (tok_at p m) (p, a)) as Htok by (by apply (tok_view p m p a (d ++ b)); [rewrite Ht'|..]).
    assert (nonempty (p, a)) as Hne by (unfold nonempty; cbn; destruct a; [cbn in Ha; lia|done]).
    destruct (Nat.leb_spec (off (s src) + length t) (off (s src) + (p + m) + length d + k * length d)) as [Hend|Hmore].
    + assert (t2 = []) as -> by (apply nil_length_inv; lia). rewrite app_nil_r in E2.
      destruct (pieces_none (p + m + length d) k) as (l & Hl & Hfl). exists ((p, a) :: l), [tok_at p m]. split.
      * rewrite Eab. constructor; rewrite Ha; [by rewrite <- Eab|]. by rewrite E2.
      * split; [|rewrite filter_cons_True by done; rewrite Hfl; constructor; [done|constructor]].
        destruct f as [|f]; [lia|]. done.
    + assert (t2 <> []) as Ht2 by (intros ->; cbn in *; lia). destruct (Hnext Ht2) as (m2 & Hm2 & Hm21 & E3). rewrite E3. cbn [obind mbind outcome_bind].
      destruct (IH (p + m + length d + k * length d) t2 m2) as (l & vs & Hl & Hvs & HF); [lia| |done|done|lia|].
      { rewrite <- drop_drop, Eb, E2. rewrite drop_app_alt; [done|by rewrite rep_length]. }
      unfold tok_at in Hvs. rewrite Hvs. cbn [obind mbind outcome_bind].
      destruct (pieces_skip (p + m + length d) k t2 l Hl) as (l' & Hl' & Hfl). exists ((p, a) :: l'), (tok_at p m :: vs). split.
      * rewrite Eab. constructor; rewrite Ha; [by rewrite <- Eab|]. by rewrite E2.
      * split; [done|]. rewrite filter_cons_True by done. constructor; [done|]. by rewrite Hfl.
  - (* the last token *)
    exists [(p, t')], [tok_at p (length t')]. split; [by constructor|].
    assert (view_of src (tok_at p (length t')) (p, t')) as Htok by (by apply (tok_view p (length t') p t' []); [rewrite app_nil_r|..]).
    assert (nonempty (p, t')) as Hne by (unfold nonempty; cbn; by destruct t'). split; [|rewrite filter_cons_True by done; constructor; [done|constructor]].
    destruct (z =? 0)%N.
    + cbn [obind mbind outcome_bind]. destruct f; done.
    + cbv zeta. cbn [off plus]. rewrite (shows_len _ _ src_shows).
      destruct (Nat.leb_spec (off (s src) + length t) (off (s src) + (p + length t'))) as [_|]; [|lia]. cbn [obind mbind outcome_bind]. destruct f; done.
Qed.

Lemma all_tokens_Ok : exists l vs, pieces d 0 t l /\ tokens src delim = Ok vs /\ Forall2 (view_of src) vs (filter nonempty l).
Proof.
  unfold tokens, sv_begin_tok. rewrite (shows_not_null _ _ src_shows), (shows_not_null _ _ delim_shows), (shows_len _ _ src_shows).
  destruct (after_find_Ok _ _ src_shows) as (k & t' & E & Et & Hn). rewrite E. cbn [obind mbind outcome_bind].
  assert (length t = k * length d + length t') as El by (by rewrite Et, app_length, rep_length).
  destruct (Nat.eqb_spec (k * length d) (length t)) as [Ee|Ee].
  - assert (t' = []) as -> by (apply nil_length_inv; lia). rewrite app_nil_r in Et. cbn [obind mbind outcome_bind].
    destruct (pieces_none 0 k) as (l & Hl & Hf). exists l, []. rewrite Et at 1. split; [done|]. split; [done|]. rewrite Hf. constructor.
  - unfold minus. destruct (Nat.leb_spec (k * length d) (length t)) as [_|]; [|lia]. cbn [obind mbind outcome_bind].
    assert (shows (View (plus (s src) (k * length d)) (length t - k * length d)) t') as H'.
    { pose proof (shows_drop src t (k * length d) src_shows ltac:(lia)) as H. replace (drop (k * length d) t) with t' in H; [done|].
      rewrite Et. rewrite drop_app_alt; [done|by rewrite rep_length]. }
    destruct (find_Ok _ delim t' d H' delim_shows delim_some 0) as (m & -> & Hm). cbn [obind mbind outcome_bind s].
    assert (finds d t' m) as Hfm.
    { destruct Hm as [(_ & H1 & H2)|[H1 ->]].
      - left. split; [done|]. intros j Hj. apply H2; [done|lia].
      - right. split; [|done]. intros j. apply H1. lia. }
    destruct (tokens_Ok (S (length t)) (k * length d) t' m) as (l & vs & Hl & Hvs & HF); [lia| |done| |lia|].
    + rewrite Et. rewrite drop_app_alt; [done|by rewrite rep_length].
    + destruct Hfm as [[Ho _]|[_ ->]]; [|lia]. assert (m <> 0); [|lia]. by intros ->.
    + destruct (pieces_skip 0 k t' l Hl) as (l' & Hl' & Hf). exists l', vs. rewrite Et at 1. split; [done|]. split; [exact Hvs|]. by rewrite Hf.
Qed.
End tokens.
