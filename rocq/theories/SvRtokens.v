(** The tokens of a text from right to left. *)
From stdpp Require Import base numbers option list.
From Verif Require Import Common SvModel SvSpec SvTwoWay SvSearch SvFind SvCompare SvTokens.

Lemma rep_S k d : rep (S k) d = rep k d ++ d.
Proof. induction k as [|k IH]; [cbn; by rewrite app_nil_r|]. cbn [rep] in *. by rewrite <- (assoc_L (++)), <- IH. Qed.
Lemma mirror k n j : 1 <= n -> j < k * n -> n - 1 - (k * n - 1 - j) mod n = j mod n.
Proof.
  intros Hn Hj. pose proof (Nat.div_mod j n ltac:(lia)) as E. pose proof (Nat.mod_upper_bound j n ltac:(lia)) as Hub.
  set (q := j / n) in *. set (e := j mod n) in *.
  assert (q < k) by (apply Nat.div_lt_upper_bound; lia).
  assert (k * n - 1 - j = n - 1 - e + (k - 1 - q) * n) as ->.
  { assert (k = (k - 1 - q) + q + 1) as Ek by lia. set (z := k - 1 - q) in *. rewrite Ek. nia. }
  rewrite Nat.mod_add by lia. rewrite Nat.mod_small by lia. lia.
Qed.

Lemma some_pos (d : text) : d <> [] -> 1 <= length d.
Proof. destruct d; [done|cbn; lia]. Qed.

Definition ends_in (d w : text) : Prop := exists a, w = a ++ d.
Lemma ends_in_occurs d w : ends_in d w <-> length d <= length w /\ occurs d w (length w - length d).
Proof.
  split.
  - intros [a ->]. rewrite app_length. split; [lia|]. exists a, []. rewrite app_nil_r. split; [done|lia].
  - intros [Hl (a & b & E & Ha)]. exists a. assert (b = []) as ->.
    { apply nil_length_inv. rewrite E, !app_length in Ha, Hl. lia. }
    by rewrite app_nil_r in E.
Qed.

Section rtokens.
Context (delim : view) (d : text).
Hypothesis delim_shows : shows delim d.
Hypothesis delim_some : d <> [].

Lemma before_loop_Ok u t k : shows u t -> forall i, i + k = length t ->
  (forall j, j < i -> nth_of t (length t - 1 - j) = nth_of d (length d - 1 - j mod length d)) ->
  exists i', before_loop k u delim (i mod length d) i = Ok (i', i' mod length d) /\ i <= i' <= length t /\
    (forall j, j < i' -> nth_of t (length t - 1 - j) = nth_of d (length d - 1 - j mod length d)) /\
    (i' < length t -> nth_of t (length t - 1 - i') <> nth_of d (length d - 1 - i' mod length d)).
Proof.
  intros Hu. pose proof (some_pos d delim_some) as Hd. induction k as [|k IH]; intros i Hi Hj; cbn [before_loop].
  { exists i. split; [done|]. split; [lia|]. split; [done|lia]. }
  assert (i mod length d < length d) by (apply Nat.mod_upper_bound; lia).
  rewrite (shows_len _ _ delim_shows), (shows_len _ _ Hu). rewrite !minus_Ok by lia. cbn [obind mbind outcome_bind].
  rewrite (shows_reads _ _ delim_shows), (shows_reads _ _ Hu) by lia. cbn [obind mbind outcome_bind].
  replace (length d - (i mod length d + 1)) with (length d - 1 - i mod length d) by lia. replace (length t - (i + 1)) with (length t - 1 - i) by lia.
  destruct (N.eqb_spec (nth_of d (length d - 1 - i mod length d)) (nth_of t (length t - 1 - i))) as [E|E].
  - replace ((i mod length d + 1) mod length d) with ((i + 1) mod length d) by (rewrite Nat.add_mod_idemp_l; [done|lia]).
    destruct (IH (i + 1)) as (i' & -> & H1 & H2 & H3); [lia| |].
    + intros j Hlt. destruct (decide (j = i)) as [->|]; [done|]. apply Hj. lia.
    + exists i'. split; [done|]. split; [lia|]. done.
  - exists i. split; [done|]. split; [lia|]. split; [done|]. intros _ E'. by rewrite E' in E.
Qed.
Lemma all_only m : forall t, length t <= m -> length d <= length t ->
  (forall j, j < length t -> nth_of t (length t - 1 - j) = nth_of d (length d - 1 - j mod length d)) -> only_delims d t.
Proof.
  pose proof (some_pos d delim_some) as Hd. induction m as [|m IH]; intros t Hm Hl H; [lia|].
  assert (t = take (length t - length d) t ++ d) as E.
  { rewrite <- (take_drop (length t - length d) t) at 1. f_equal. apply list_eq. intros j. destruct (decide (j < length d)) as [Hj|Hj].
    - rewrite lookup_drop, !nth_of_lookup by lia. f_equal. specialize (H (length d - 1 - j) ltac:(lia)).
      rewrite Nat.mod_small in H by lia. replace (length d - 1 - (length d - 1 - j)) with j in H by lia. rewrite <- H. f_equal. lia.
    - rewrite !lookup_ge_None_2; [done|lia|rewrite drop_length; lia]. }
  set (w := take (length t - length d) t) in *. assert (length w = length t - length d) as Ew by (unfold w; rewrite take_length; lia).
  assert (forall j, j < length w -> nth_of w (length w - 1 - j) = nth_of d (length d - 1 - j mod length d)) as Hw.
  { intros j Hj. unfold w at 1. rewrite nth_of_take by lia. specialize (H (j + 1 * length d) ltac:(lia)). rewrite Nat.mod_add in H by lia.
    rewrite <- H. f_equal. lia. }
  rewrite E. destruct (decide (length d <= length w)) as [Hge|Hlt]; [constructor; apply IH; [lia|done|done]|].
  apply (only_one d (take (length d - length w) d)). rewrite <- (take_drop (length d - length w) d) at 1. f_equal.
  apply list_eq. intros j. destruct (decide (j < length w)) as [Hj|Hj].
  - rewrite lookup_drop, !nth_of_lookup by lia. f_equal. specialize (Hw (length w - 1 - j) ltac:(lia)).
    rewrite Nat.mod_small in Hw by lia. replace (length w - 1 - (length w - 1 - j)) with j in Hw by lia. rewrite Hw. f_equal. lia.
  - rewrite !lookup_ge_None_2; [done|lia|rewrite drop_length; lia].
Qed.
Lemma nth_app_r a b i : nth_of (a ++ b) (length a + i) = nth_of b i.
Proof. unfold nth_of. rewrite app_nth2 by lia. f_equal. lia. Qed.
Lemma nth_app_l a b i : i < length a -> nth_of (a ++ b) i = nth_of a i.
Proof. intros H. unfold nth_of. by apply app_nth1. Qed.
Lemma only_all t : only_delims d t ->
  length d <= length t /\ forall j, j < length t -> nth_of t (length t - 1 - j) = nth_of d (length d - 1 - j mod length d).
Proof.
  pose proof (some_pos d delim_some) as Hd. induction 1 as [x y E|t Ht [IHl IH]]; rewrite app_length; (split; [lia|]); intros j Hj.
  - destruct (decide (j < length d)) as [Hlt|Hge].
    + rewrite Nat.mod_small by done. replace (length y + length d - 1 - j) with (length y + (length d - 1 - j)) by lia. apply nth_app_r.
    + pose proof (f_equal length E) as El. rewrite app_length in El. rewrite nth_app_l by lia.
      replace j with (j - length d + 1 * length d) at 2 by lia. rewrite Nat.mod_add, Nat.mod_small by lia.
      replace (length d - 1 - (j - length d)) with (length x + (length y + length d - 1 - j)) by lia.
      pose proof (nth_app_r x y (length y + length d - 1 - j)) as Hn. by rewrite <- E in Hn.
  - destruct (decide (j < length d)) as [Hlt|Hge].
    + rewrite Nat.mod_small by done. replace (length t + length d - 1 - j) with (length t + (length d - 1 - j)) by lia. apply nth_app_r.
    + rewrite nth_app_l by lia. replace j with (j - length d + 1 * length d) at 2 by lia. rewrite Nat.mod_add by lia.
      rewrite <- IH by lia. f_equal. lia.
Qed.
(** A source of delimiters only: the last token is outside of it. *)
Lemma rbegin_only u t : shows u t -> only_delims d t -> ascii_for d t ->
  sv_rbegin_tok u delim = Ok (View (plus (s u) (length t)) 1).
Proof.
  intros Hu Ho Ha. pose proof (some_pos d delim_some) as Hd. pose proof (only_all t Ho) as [Hl Hall].
  unfold sv_rbegin_tok, sv_before_rfind. rewrite (shows_not_null _ _ Hu), (shows_not_null _ _ delim_shows), (shows_len _ _ Hu), (shows_len _ _ delim_shows).
  destruct (Nat.ltb_spec (length t) (length d)); [lia|]. destruct (Nat.eqb_spec (length d) 0); [lia|]. destruct (Nat.eqb_spec (length t) 0); [lia|]. cbn [orb].
  destruct (before_loop_Ok u t (length t) Hu 0) as (i & E & H1 & H2 & H3); [lia|intros; lia|]. rewrite Nat.mod_0_l in E by lia. rewrite E.
  cbn [obind mbind outcome_bind]. destruct (decide (i < length t)) as [Hi|Hi]; [by destruct (H3 Hi); apply Hall|].
  destruct (Nat.eqb_spec i (length t)) as [_|]; [|lia]. cbn [obind mbind outcome_bind]. rewrite Nat.min_l by lia. cbn [len].
  assert (shows (View (s u) (length t)) t) as Hu' by (rewrite <- (firstn_all t) at 2; by apply shows_take).
  destruct (rfind_Ok _ delim t d Hu' delim_shows delim_some (length t) Ha) as (r & -> & Hr). cbn [obind mbind outcome_bind].
  assert (occurs d t (length t - length d)) as Hend.
  { apply ends_in_occurs. destruct Ho as [x y _|a _]; by eexists. }
  assert (r = length t - length d) as ->.
  { destruct Hr as [(Hr & _ & Hmax)|[Hno _]]; [|exfalso; apply (Hno (length t - length d)); [lia|done]].
    specialize (Hmax _ Hend ltac:(lia)). apply occurs_nth in Hr as [Hr _]. lia. }
  destruct (Nat.eqb_spec (length t - length d) (length t)); [lia|]. rewrite minus_Ok by lia. cbn [obind mbind outcome_bind s]. do 2 f_equal; [|lia]. f_equal. lia.
Qed.
Lemma before_rfind_Ok u t : shows u t -> t <> [] -> ~ only_delims d t ->
  exists k t', t = t' ++ rep k d /\ t' <> [] /\ ~ ends_in d t' /\
    ((length t < length d /\ k = 0 /\ sv_before_rfind u delim = Ok (length t)) \/
     (length d <= length t /\ sv_before_rfind u delim = Ok (length t' - 1))).
Proof.
  intros Hu Ht Hhd. pose proof (some_pos d delim_some) as Hd. unfold sv_before_rfind. rewrite (shows_len _ _ Hu), (shows_len _ _ delim_shows).
  destruct (Nat.ltb_spec (length t) (length d)) as [Hlt|Hge]; cbn [orb].
  { exists 0, t. cbn [rep]. rewrite app_nil_r. split; [done|]. split; [done|]. split; [|by left]. intros H%ends_in_occurs. lia. }
  destruct (Nat.eqb_spec (length d) 0); [lia|]. destruct (Nat.eqb_spec (length t) 0); [lia|]. cbn [orb].
  destruct (before_loop_Ok u t (length t) Hu 0) as (i & E & H1 & H2 & H3); [lia|intros; lia|]. rewrite Nat.mod_0_l in E by lia. rewrite E.
  cbn [obind mbind outcome_bind].
  assert (i < length t) as Hi.
  { destruct (decide (i < length t)) as [|Hn]; [done|]. exfalso. apply Hhd. apply (all_only (length t)); [done|done|].
    intros j Hj. apply H2. lia. }
  destruct (Nat.eqb_spec i (length t)) as [|_]; [lia|].
  pose proof (Nat.div_mod i (length d) ltac:(lia)) as Hdm. pose proof (Nat.mod_upper_bound i (length d) ltac:(lia)) as Hub.
  set (k := i / length d) in *. set (e := i mod length d) in *. rewrite minus_Ok by lia.
  assert (k * length d <= i) as Hki by lia. assert (i = k * length d + e) as Eie by lia.
  exists k, (take (length t - k * length d) t). split; [|split; [|split]].
  - rewrite <- (take_drop (length t - k * length d) t) at 1. f_equal. apply list_eq. intros j. destruct (decide (j < k * length d)) as [Hj|Hj].
    + rewrite lookup_drop, !nth_of_lookup by (rewrite ?rep_length; lia). f_equal. rewrite rep_nth by done.
      specialize (H2 (k * length d - 1 - j) ltac:(lia)). rewrite mirror in H2 by lia. rewrite <- H2. f_equal. lia.
    + rewrite !lookup_ge_None_2; [done|rewrite rep_length; lia|rewrite drop_length; lia].
  - intros En. apply (f_equal length) in En. rewrite take_length in En. cbn in En. lia.
  - rewrite ends_in_occurs. rewrite take_length, Nat.min_l by lia. intros [Hl Ho]. apply occurs_nth in Ho as [_ Ho]. apply H3; [done|].
    rewrite (Ho (length d - 1 - e)) by lia. rewrite nth_of_take by lia. f_equal. lia.
  - right. split; [done|]. rewrite take_length, Nat.min_l by lia. f_equal. lia.
Qed.

(** Pieces. *)
Lemma last_at_end a : last_at d (a ++ d) (length a).
Proof.
  split; [exists a, []; by rewrite app_nil_r|]. intros j Hj. apply occurs_nth in Hj as [Hj _]. rewrite app_length in Hj. lia.
Qed.
Lemma rpieces_skip k t l : rpieces d t l -> exists l', rpieces d (t ++ rep k d) l' /\ filter nonempty l' = filter nonempty l.
Proof.
  intros Hl. induction k as [|k (l' & Hl' & Hf)]; [exists l; by rewrite app_nil_r|].
  exists ((length (t ++ rep k d) + length d, []) :: l'). split.
  - rewrite rep_S. replace (t ++ rep k d ++ d) with ((t ++ rep k d) ++ d ++ []) by by rewrite app_nil_r, <- (assoc_L (++)).
    constructor; [|done]. rewrite app_nil_r. apply last_at_end.
  - rewrite filter_cons_False; [done|]. by intros [].
Qed.

(** There is one way to cut a text. *)
Lemma last_at_unique h i j : last_at d h i -> last_at d h j -> i = j.
Proof. intros [H1 H2] [H3 H4]. specialize (H2 _ H3). specialize (H4 _ H1). lia. Qed.
Lemma rpieces_unique u l l' : rpieces d u l -> rpieces d u l' -> l = l'.
Proof.
  intros Hl. revert l'. induction Hl as [u Hno|a b l Hf Hl IH]; intros l' Hl'.
  - inversion Hl' as [|a b l2 Hf Hl2]; subst; [done|]. destruct Hf as [Ho _]. by apply Hno in Ho.
  - inversion Hl' as [u Hno E2 E3|a' b' l2 Hf' Hl2 E2 E3].
    + destruct Hf as [Ho _]. exfalso. by apply Hno in Ho.
    + rewrite E2 in Hf'. pose proof (last_at_unique _ _ _ Hf Hf') as El.
      apply app_inj_1 in E2 as [-> E2]; [|done]. apply app_inv_head in E2 as ->. f_equal. by apply IH.
Qed.

Context (src : view) (t : text).
Hypothesis src_shows : shows src t.
Hypothesis not_only : ~ only_delims d t.
Hypothesis not_before : forall a b, t = a ++ d ++ b -> ~ only_delims d a.
Hypothesis narrow : ascii_for d t.

Lemma narrow_take q : ascii_for d (take q t).
Proof. destruct narrow as [H|H]; [by left|right]. by apply Forall_take. Qed.

(** The token that ends at [q], which no delimiter does. *)
Definition tok_to (u : text) (st : nat) : Prop :=
  (last_at d u (st - length d) /\ length d <= st) \/ (nowhere d u /\ st = 0).
Lemma tok_to_lt u st : u <> [] -> ~ ends_in d u -> tok_to u st -> st < length u.
Proof.
  intros Hu Hn [[[Ho _] Hl]|[_ ->]]; [|destruct u; [done|cbn; lia]]. pose proof Ho as Ho'. apply occurs_nth in Ho' as [Ho' _].
  destruct (decide (st < length u)) as [|Hge]; [done|]. exfalso. apply Hn. apply ends_in_occurs. split; [lia|].
  by replace (length u - length d) with (st - length d) by lia.
Qed.
Lemma last_short u st : u <> [] -> ~ ends_in d u -> rfinds d (take (length u - 1) u) st ->
  (st = length u - 1 /\ tok_to u 0) \/ (st < length u - 1 /\ tok_to u (st + length d)).
Proof.
  pose proof (some_pos d delim_some) as Hd. intros Hu Hn Hr. assert (1 <= length u) by (destruct u; [done|cbn; lia]).
  assert (forall j, occurs d u j -> occurs d (take (length u - 1) u) j) as Hin.
  { intros j Hj. apply occurs_take; [lia|]. split; [done|]. pose proof Hj as Hj'. apply occurs_nth in Hj' as [Hj' _].
    assert (j + length d <> length u); [|lia]. intros E. apply Hn, ends_in_occurs. split; [lia|]. by replace (length u - length d) with j by lia. }
  destruct Hr as [[Ho Hmax]|[Hno ->]].
  - right. apply occurs_take in Ho as [Ho Hl]; [|lia]. split; [lia|]. left. replace (st + length d - length d) with st by lia. split; [|lia].
    split; [done|]. intros j Hj. by apply Hmax, Hin.
  - left. rewrite take_length. split; [lia|]. right. split; [|done]. intros j Hj. by apply (Hno j), Hin.
Qed.

Lemma part_view p q : p <= q -> q <= length t -> view_of src (tok_at src p (q - p)) (p, drop p (take q t)).
Proof.
  intros Hp Hq. split; [|done]. cbn [snd fst]. pose proof (shows_take src t q src_shows Hq) as H.
  pose proof (shows_drop _ _ p H) as H'. rewrite take_length, Nat.min_l in H' by done. specialize (H' Hp). exact H'.
Qed.

Lemma rtokens_Ok f : forall q st, q <= length t -> take q t <> [] -> ~ ends_in d (take q t) -> tok_to (take q t) st -> q <= f ->
  exists l vs, rpieces d (take q t) l /\ rtokens_loop f src (tok_at src st (q - st)) delim = Ok vs /\ Forall2 (view_of src) vs (filter nonempty l).
Proof.
  pose proof (some_pos d delim_some) as Hd. induction f as [|f IH]; intros q st Hq Hne Hni Hst Hf.
  { by replace q with 0 in Hne by lia. }
  pose proof (tok_to_lt _ _ Hne Hni Hst) as Hlt. rewrite take_length, Nat.min_l in Hlt by done.
  cbn [rtokens_loop]. unfold sv_rend_tok. cbn [len tok_at s off plus]. destruct (Nat.eqb_spec (q - st) 0); [lia|]. cbn [andb].
  unfold sv_rnext_tok. assert (is_null (plus (s src) st) = false) as Hnn by exact (shows_not_null _ _ src_shows).
  cbn [s len tok_at off plus]. rewrite Hnn, (shows_not_null _ _ delim_shows), (shows_len _ _ delim_shows). destruct (Nat.eqb_spec (q - st) 0); [lia|]. cbn [orb].
  pose proof (part_view st q ltac:(lia) Hq) as Htok.
  assert (nonempty (st, drop st (take q t))) as Hnon.
  { intros E. cbn in E. apply (f_equal length) in E. rewrite drop_length, take_length in E. cbn in E. lia. }
  destruct Hst as [[Hlast Hdl]|[Hno ->]].
  - (* a delimiter before the token *)
    pose proof Hlast as [(a & b & Eab & Ha) _].
    assert (drop st (take q t) = b) as Eb.
    { rewrite Eab. rewrite (assoc_L (++)), drop_app_alt; [done|]. rewrite app_length. lia. }
    assert (a = take (st - length d) t) as Ea.
    { replace (take (st - length d) t) with (take (st - length d) (take q t)) by (rewrite take_take; f_equal; lia). rewrite Eab. by rewrite take_app_alt. }
    assert (forall l, rpieces d a l -> rpieces d (take q t) ((st, b) :: l)) as Hcut.
    { intros l Hl. rewrite Eab. replace st with (length a + length d) by lia. constructor; [|done]. rewrite <- Eab, Ha. done. }
    rewrite Eb in *.
    destruct (Nat.eqb_spec (off (s src) + st) (off (s src))); [lia|]. cbn [orb].
    destruct (Nat.leb_spec (off (s src) + st) (off (s src) + length d)) as [Hend|Hmore].
    + assert (a = []) as -> by (apply nil_length_inv; lia). exists [(st, b); (0, [])], [tok_at src st (q - st)]. split; [|split].
      * apply Hcut. constructor. apply too_long. done.
      * cbn [obind mbind outcome_bind]. destruct f; cbn [rtokens_loop]; unfold sv_rend_tok; cbn; by rewrite Nat.eqb_refl.
      * rewrite filter_cons_True by done. rewrite filter_cons_False by (by intros []). constructor; [done|constructor].
    + cbv zeta. replace (off (s src) + st - length d - off (s src)) with (length a) by lia. cbn [len].
      assert (shows (View (s src) (length a)) a) as Hsa by (rewrite Ea at 2; rewrite Ha; apply shows_take; [done|lia]).
      assert (a <> []) as Hane by (intros ->; cbn in *; lia).
      assert (~ only_delims d a) as Hah.
      { apply (not_before a (b ++ drop q t)). rewrite <- (take_drop q t) at 1. by rewrite Eab, <- !(assoc_L (++)). }
      destruct (before_rfind_Ok _ a Hsa Hane Hah) as (k & a' & Eak & Hane' & Hni' & Hcase).
      assert (length a = length a' + k * length d) as Elen by (rewrite Eak at 1; by rewrite app_length, rep_length).
      assert (a' = take (length a') t) as Ea'.
      { replace (take (length a') t) with (take (length a') a) by (rewrite Ea, take_take; f_equal; lia). rewrite Eak. by rewrite take_app_alt. }
      assert (exists st', tok_to a' st' /\
        (before ← sv_before_rfind (View (s src) (length a)) delim;
         if before =? length a then Ok (View (s src) (length a))
         else
           start ← sv_rstrnstrn before (s src) (length d) (s delim);
           if start =? before then Ok (View (s src) (before + 1))
           else n ← minus (before + 1) (start + length d); Ok (View (plus (s src) (start + length d)) n)) = Ok (tok_at src st' (length a' - st'))) as (st' & Hst' & Enext).
      { assert (1 <= length a') as H1 by (destruct a'; [done|cbn; lia]).
        destruct Hcase as [(Hl & -> & ->)|[Hl ->]]; cbn [obind mbind outcome_bind].
        - exists 0. cbn [rep] in Eak. rewrite app_nil_r in Eak. subst a'. split; [right; split; [by apply too_long|done]|]. rewrite Nat.eqb_refl.
          unfold tok_at, plus. rewrite Nat.add_0_r, Nat.sub_0_r. by destruct (s src).
        - destruct (Nat.eqb_spec (length a' - 1) (length a)); [lia|].
          destruct (rstrnstrn_Ok (s src) (take (length a' - 1) a') (s delim) d) as (start & Es & Hs).
          + rewrite Ea'. rewrite take_length, Nat.min_l by lia. rewrite take_take, Nat.min_l by lia.
            exact (shows_reads _ _ (shows_take src t (length a' - 1) src_shows ltac:(lia))).
          + exact (shows_reads _ _ delim_shows).
          + intros i. rewrite Ea'. rewrite take_length, Nat.min_l by lia. rewrite take_take, Nat.min_l by lia.
            exact (shows_bytes _ _ i (shows_take src t (length a' - 1) src_shows ltac:(lia))).
          + intros i. exact (shows_bytes _ _ i delim_shows).
          + done.
          + rewrite Ea', take_length, take_take. apply narrow_take.
          + rewrite take_length, Nat.min_l in Es by lia. rewrite Es. cbn [obind mbind outcome_bind].
            destruct (last_short a' start Hane' Hni' Hs) as [[-> Ht]|[Hlts Ht]].
            * rewrite Nat.eqb_refl. exists 0. split; [done|]. unfold tok_at, plus. rewrite Nat.add_0_r. replace (length a' - 1 + 1) with (length a' - 0) by lia. by destruct (s src).
            * destruct (Nat.eqb_spec start (length a' - 1)); [lia|]. exists (start + length d). split; [done|].
              pose proof (tok_to_lt _ _ Hane' Hni' Ht). rewrite minus_Ok by lia. cbn [obind mbind outcome_bind]. unfold tok_at. do 2 f_equal. lia. }
      cbn [s] in *. rewrite Enext. cbn [obind mbind outcome_bind].
      destruct (IH (length a') st') as (l & vs & Hl & Hvs & HF); [lia|by rewrite <- Ea'|by rewrite <- Ea'|by rewrite <- Ea'|lia|].
      rewrite Hvs. cbn [obind mbind outcome_bind]. rewrite <- Ea' in Hl. destruct (rpieces_skip k a' l Hl) as (l' & Hl' & Hfl). rewrite <- Eak in Hl'.
      exists ((st, b) :: l'), (tok_at src st (q - st) :: vs). split; [by apply Hcut|]. split; [done|]. rewrite filter_cons_True by done. constructor; [done|]. by rewrite Hfl.
  - (* the first token *)
    rewrite Nat.add_0_r, Nat.eqb_refl. cbn [orb]. rewrite drop_0 in *. exists [(0, take q t)], [tok_at src 0 (q - 0)]. split; [by constructor|]. split.
    + cbn [obind mbind outcome_bind]. destruct f; cbn [rtokens_loop]; unfold sv_rend_tok; cbn; by rewrite Nat.eqb_refl.
    + rewrite filter_cons_True by done. constructor; [done|constructor].
Qed.

Lemma all_rtokens_Ok : exists l vs, rpieces d t l /\ rtokens src delim = Ok vs /\ Forall2 (view_of src) vs (filter nonempty l).
Proof.
  pose proof (some_pos d delim_some) as Hd. unfold rtokens, sv_rbegin_tok.
  rewrite (shows_not_null _ _ src_shows), (shows_not_null _ _ delim_shows). destruct (decide (t = [])) as [Et|Hne].
  { exists [(0, [])], []. rewrite Et. split; [constructor; by apply too_long|]. pose proof (shows_len _ _ src_shows) as E. rewrite Et in E. cbn in E.
    split; [|rewrite filter_cons_False by (by intros []); constructor].
    unfold sv_before_rfind. rewrite E. destruct ((0 <? len delim) || (len delim =? 0) || (0 =? 0)) eqn:Eb; [|by rewrite orb_true_r in Eb].
    cbn. by rewrite Nat.eqb_refl. }
  destruct (before_rfind_Ok src t src_shows Hne not_only) as (k & t' & Etk & Hne' & Hni & Hcase).
  assert (length t = length t' + k * length d) as Elen by (rewrite Etk at 1; by rewrite app_length, rep_length).
  assert (t' = take (length t') t) as Et' by (rewrite Etk at 1; by rewrite take_app_alt).
  assert (1 <= length t') as H1 by (destruct t'; [done|cbn; lia]).
  assert (shows (View (s src) (length t')) t') as Hs' by (rewrite Et' at 2; apply shows_take; [done|lia]).
  assert (ascii_for d t') as Hasc by (rewrite Et'; apply narrow_take).
  assert (exists st, tok_to t' st /\
    (before ← sv_before_rfind src delim;
     start ← sv_rfind (View (s src) (min (len src) (before + 1))) (min (len src) (before + 1)) delim;
     if start =? min (len src) (before + 1) then Ok (View (s src) (min (len src) (before + 1)))
     else n ← minus (before + 1) (start + len delim); Ok (View (plus (s src) (start + len delim)) n)) = Ok (tok_at src st (length t' - st))) as (st & Hst & E).
  { rewrite (shows_len _ _ src_shows), (shows_len _ _ delim_shows).
    destruct Hcase as [(Hl & -> & ->)|[Hl ->]]; cbn [obind mbind outcome_bind].
    - exists 0. cbn [rep] in Etk. rewrite app_nil_r in Etk. rewrite <- Etk in *. split; [right; split; [by apply too_long|done]|].
      rewrite Nat.min_l by lia. unfold sv_rfind. cbn [len]. rewrite (shows_len _ _ delim_shows).
      destruct (Nat.ltb_spec (length t) (length d)) as [_|]; [|lia]. rewrite orb_true_r. cbn [obind mbind outcome_bind]. rewrite Nat.eqb_refl.
      unfold tok_at, plus. rewrite Nat.add_0_r, Nat.sub_0_r. by destruct (s src).
    - replace (length t `min` (length t' - 1 + 1)) with (length t') by lia.
      destruct (rfind_Ok _ delim t' d Hs' delim_shows delim_some (length t') Hasc) as (r & -> & Hr). cbn [obind mbind outcome_bind].
      destruct Hr as [(Ho & _ & Hmax)|[Hno ->]].
      + assert (tok_to t' (r + length d)) as Ht.
        { left. replace (r + length d - length d) with r by lia. split; [|lia]. split; [done|]. intros j Hj. apply Hmax; [done|]. apply occurs_nth in Hj as [Hj _]. lia. }
        pose proof (tok_to_lt _ _ Hne' Hni Ht). destruct (Nat.eqb_spec r (length t')); [lia|]. exists (r + length d). split; [done|].
        rewrite minus_Ok by lia. cbn [obind mbind outcome_bind]. unfold tok_at. do 2 f_equal. lia.
      + rewrite Nat.eqb_refl. exists 0. split.
        * right. split; [|done]. intros j Hj. apply (Hno j); [|done]. apply occurs_nth in Hj as [Hj _]. lia.
        * unfold tok_at, plus. rewrite Nat.add_0_r, Nat.sub_0_r. by destruct (s src). }
  cbn [s len] in *. rewrite E. cbn [obind mbind outcome_bind].
  destruct (rtokens_Ok (S (len src)) (length t') st) as (l & vs & Hl & Hvs & HF); [lia|by rewrite <- Et'|by rewrite <- Et'|by rewrite <- Et'|rewrite (shows_len _ _ src_shows); lia|].
  rewrite <- Et' in Hl. destruct (rpieces_skip k t' l Hl) as (l' & Hl' & Hfl). rewrite <- Etk in Hl'. exists l', vs. split; [done|]. split; [exact Hvs|]. by rewrite Hfl.
Qed.
End rtokens.
