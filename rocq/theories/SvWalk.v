(** Proofs about SvWalkModel.v. *)
From stdpp Require Import base numbers option list.
From Verif Require Import Common SvModel SvSpec SvSearch SvFind SvCompare SvTokens SvWalkModel.

Lemma null_plus p i : is_null (plus p i) = is_null p.
Proof. done. Qed.
Lemma rd_plus p i j : rd (plus p i) j = rd p (i + j).
Proof. unfold rd, plus. cbn. destruct (arr p); [|done]. by rewrite Nat.add_assoc. Qed.

Lemma walk_Ok p t : is_null p = false -> reads p t -> forall k i, i + k = length t ->
  walk k (fun c => rd c 0) sv_next (plus p i) (plus p (length t)) = Ok (drop i t).
Proof.
  intros Hnn Hr k. induction k as [|k IH]; intros i Hi.
  { cbn [walk]. rewrite Nat.add_0_r in Hi. subst i. rewrite Nat.eqb_refl, drop_all. done. }
  cbn [walk]. destruct (Nat.eqb_spec (off (plus p i)) (off (plus p (length t)))) as [E|_]; [cbn in E; lia|].
  rewrite rd_plus, Nat.add_0_r, Hr by lia. cbn [obind mbind outcome_bind]. unfold sv_next at 2. rewrite null_plus, Hnn.
  rewrite plus_plus, IH by lia. cbn [obind mbind outcome_bind]. rewrite (drop_nth t i) by lia. by replace (S i) with (i + 1) by lia.
Qed.
Lemma forwards_Ok v t : shows v t -> forwards v = Ok t.
Proof.
  intros Hv. unfold forwards, sv_begin, sv_end. rewrite (shows_not_null _ _ Hv), (shows_len _ _ Hv).
  pose proof (walk_Ok (s v) t (shows_not_null _ _ Hv) (shows_reads _ _ Hv) (length t) 0 eq_refl) as H. rewrite drop_0 in H.
  by replace (plus (s v) 0) with (s v) in H by (unfold plus; rewrite Nat.add_0_r; by destruct (s v)).
Qed.
Lemma rwalk_Ok p t : is_null p = false -> reads p t -> forall k, k <= length t ->
  walk k rd_back sv_rnext (plus p k) p = Ok (reverse (take k t)).
Proof.
  intros Hnn Hr k. induction k as [|k IH]; intros Hk.
  { cbn [walk]. unfold plus. cbn [off]. by rewrite Nat.add_0_r, Nat.eqb_refl, take_0. }
  cbn [walk]. destruct (Nat.eqb_spec (off (plus p (S k))) (off p)) as [E|_]; [cbn in E; lia|].
  assert (rd_back (plus p (S k)) = Ok (nth_of t k)) as ->.
  { unfold rd_back. cbn [plus off arr]. rewrite Nat.add_succ_r. change (Ptr (arr p) (off p + k)) with (plus p k).
    rewrite rd_plus, Nat.add_0_r. apply Hr. lia. }
  cbn [obind mbind outcome_bind]. unfold sv_rnext at 2. rewrite null_plus, Hnn. cbn [plus arr off].
  replace (off p + S k - 1) with (off p + k) by lia. change (Ptr (arr p) (off p + k)) with (plus p k).
  rewrite IH by lia. cbn [obind mbind outcome_bind]. rewrite (take_S_r t k (nth_of t k)) by (by apply nth_of_lookup).
  by rewrite reverse_snoc.
Qed.
Lemma backwards_Ok v t : shows v t -> backwards v = Ok (reverse t).
Proof.
  intros Hv. unfold backwards, sv_rbegin, sv_rend. rewrite (shows_not_null _ _ Hv), (shows_len _ _ Hv).
  destruct (Nat.eqb_spec (length t) 0) as [E|E].
  - rewrite E. cbn [walk]. rewrite Nat.eqb_refl. by apply nil_length_inv in E as ->.
  - rewrite (rwalk_Ok (s v) t (shows_not_null _ _ Hv) (shows_reads _ _ Hv) (length t)) by lia. by rewrite firstn_all.
Qed.
Lemma pos_Ok v t i : shows v t -> sv_pos v i = plus (s v) (min i (length t)).
Proof.
  intros Hv. unfold sv_pos, sv_end. rewrite (shows_not_null _ _ Hv), (shows_len _ _ Hv).
  destruct (Nat.ltb_spec (length t) i); f_equal; lia.
Qed.
Lemma extend_Ok v t : cstring (s v) t -> exists w, sv_extend v = Ok w /\ s w = s v /\ shows w t.
Proof.
  intros Hv. unfold sv_extend. rewrite (cstring_not_null _ _ Hv), (strlen_Ok _ _ Hv). eexists. split; [done|]. split; [done|].
  by apply cstring_shows.
Qed.
Lemma strsize_Ok p t : cstring p t -> sv_strsize p = Ok (length t + 1).
Proof. intros Hp. unfold sv_strsize. by rewrite (cstring_not_null _ _ Hp), (strlen_Ok _ _ Hp). Qed.
Lemma minlen_Ok p t n : cstring p t -> sv_minlen p n = Ok (min n (length t)).
Proof. intros Hp. unfold sv_minlen. rewrite (strnlen_loop_Ok p t Hp n 0) by lia. done. Qed.
Lemma print_Ok v t : shows v t -> sv_print v = Ok t.
Proof.
  intros Hv. unfold sv_print. rewrite (shows_not_null _ _ Hv), (shows_len _ _ Hv). cbn [orb].
  destruct (Nat.eqb_spec (length t) 0) as [E|E]; [by apply nil_length_inv in E as ->|].
  rewrite (read_bytes_Ok _ _ _ (shows_reads _ _ Hv)) by lia. by rewrite drop_0, firstn_all.
Qed.

Lemma swap_Ok m i j va vb : m !! i = Some va -> m !! j = Some vb ->
  exists m', sv_swap m (Some i) (Some j) = Ok m' /\ m' !! i = Some vb /\ m' !! j = Some va /\
    forall k, k <> i -> k <> j -> m' !! k = m !! k.
Proof.
  intros Ha Hb. unfold sv_swap. destruct (Nat.eqb_spec i j) as [->|Hij].
  { rewrite Ha in Hb. injection Hb as ->. exists m. done. }
  rewrite Ha, Hb. cbv zeta. pose proof (lookup_lt_Some _ _ _ Ha). pose proof (lookup_lt_Some _ _ _ Hb).
  eexists. split; [done|]. split; [|split].
  - rewrite list_lookup_insert; [by destruct vb|by rewrite !insert_length].
  - rewrite !(list_lookup_insert_ne _ i) by done. rewrite list_lookup_insert; [by destruct va|by rewrite insert_length].
  - intros k Hi Hj. by rewrite !list_lookup_insert_ne by done.
Qed.

(** The first token. *)
Lemma first_token src delim t d : shows src t -> shows delim d -> d <> [] -> head d <> Some 0%N ->
  exists l v, pieces d 0 t l /\ sv_begin_tok src delim = Ok v /\
    match filter nonempty l with
    | q :: _ => view_of src v q
    | [] => len v = 0 /\ arr (s v) = arr (s src) /\ off (s v) = off (s src) + length t
    end.
Proof.
  intros Hs Hd Hne Hz. destruct (all_tokens_Ok delim d Hd Hne src t Hs Hz) as (l & vs & Hl & E & HF).
  unfold tokens in E. destruct (sv_begin_tok src delim) as [v| |] eqn:Ev; [|done..]. cbn [obind mbind outcome_bind] in E.
  exists l, v. split; [done|]. split; [done|]. cbn [tokens_loop] in E. destruct (sv_end_tok src v) eqn:Eend.
  - injection E as <-. apply Forall2_nil_inv_l in HF. rewrite HF. clear Hl HF.
    unfold sv_begin_tok in Ev. rewrite (shows_not_null _ _ Hs), (shows_not_null _ _ Hd) in Ev.
    destruct (sv_after_find src delim) as [k| |] eqn:Ek; [|done..]. cbn [obind mbind outcome_bind] in Ev.
    rewrite <- (shows_len _ _ Hs). destruct (Nat.eqb_spec k (len src)) as [->|Hk]; [by injection Ev as <-|].
    exfalso. destruct (after_find_Ok delim d Hd Hne src t Hs) as (k' & t' & Ek' & Et & Hno). rewrite Ek in Ek'. injection Ek' as ->.
    pose proof (f_equal length Et) as El. rewrite app_length, rep_length in El. rewrite (shows_len _ _ Hs) in *.
    rewrite minus_Ok in Ev by lia. cbn [obind mbind outcome_bind] in Ev.
    assert (shows (View (plus (s src) (k' * length d)) (length t - k' * length d)) t') as H'.
    { pose proof (shows_drop src t (k' * length d) Hs ltac:(lia)) as H. replace (drop (k' * length d) t) with t' in H; [done|].
      rewrite Et. rewrite drop_app_alt; [done|by rewrite rep_length]. }
    destruct (find_Ok _ delim t' d H' Hd Hne 0) as (m & Em & Hm). rewrite Em in Ev. cbn [obind mbind outcome_bind s] in Ev. injection Ev as <-.
    unfold sv_end_tok in Eend. cbn [len s off plus] in Eend. rewrite (shows_len _ _ Hs) in Eend.
    destruct (Nat.leb_spec (off (s src) + length t) (off (s src) + k' * length d)); [lia|]. rewrite orb_false_r in Eend.
    apply Nat.eqb_eq in Eend as ->. destruct Hm as [(_ & Ho & _)|[_ Hm]]; [done|lia].
  - destruct (sv_next_tok src v delim) as [w| |]; [|done..]. cbn [obind mbind outcome_bind] in E.
    destruct (tokens_loop _ _ _ _) as [ws| |]; [|done..]. cbn [obind mbind outcome_bind] in E. injection E as <-.
    apply Forall2_cons_inv_l in HF as (q & ql & Hq & _ & ->). done.
Qed.
Lemma delim_Ok str dl t d : cstring str t -> cstring dl d -> d <> [] ->
  exists l v, pieces d 0 t l /\ sv_delim str dl = Ok v /\
    match filter nonempty l with
    | q :: _ => view_of (View str (length t)) v q
    | [] => len v = 0 /\ arr (s v) = arr str /\ off (s v) = off str + length t
    end.
Proof.
  intros Hs Hd Hne. unfold sv_delim. rewrite (cstring_not_null _ _ Hs), (cstring_not_null _ _ Hd), (strlen_Ok _ _ Hs), (strlen_Ok _ _ Hd).
  cbn [obind mbind outcome_bind]. apply (first_token (View str (length t)) (View dl (length d)) t d); [by apply cstring_shows..|done|].
  destruct Hd as (pre & post & _ & _ & Hz & _). destruct d as [|b d']; [done|]. cbn. intros [= ->]. apply Hz. left.
Qed.
Lemma delim_empty_Ok str dl t : cstring str t -> cstring dl [] ->
  exists v, sv_delim str dl = Ok v /\ s v = str /\ shows v t.
Proof.
  intros Hs Hd. unfold sv_delim. rewrite (cstring_not_null _ _ Hs), (cstring_not_null _ _ Hd), (strlen_Ok _ _ Hs), (strlen_Ok _ _ Hd).
  cbn [obind mbind outcome_bind length]. unfold sv_begin_tok. cbn [s len]. rewrite (cstring_not_null _ _ Hs), (cstring_not_null _ _ Hd).
  exists (View str (length t)). split; [|split; [done|by apply cstring_shows]].
  assert (plus str 0 = str) as Hp by (unfold plus; rewrite Nat.add_0_r; by destruct str).
  assert (sv_after_find (View str (length t)) (View dl 0) = Ok 0) as ->.
  { unfold sv_after_find. cbn [len]. destruct (Nat.ltb_spec (length t) 0); [lia|]. destruct t as [|b t]; [done|]. cbn [length after_loop s].
    rewrite (cstring_reads dl [] Hd) by (cbn; lia). rewrite (cstring_reads str (b :: t) Hs) by (cbn; lia). cbn [obind mbind outcome_bind].
    pose proof (cstring_zero str (b :: t) 0 Hs) as Hz. cbn in *. destruct b as [|b]; [|done]. destruct Hz as [Hz _]. specialize (Hz eq_refl). lia. }
  cbn [obind mbind outcome_bind]. destruct (Nat.eqb_spec 0 (length t)) as [<-|Hl]; [by rewrite Hp|].
  rewrite minus_Ok by lia. cbn [obind mbind outcome_bind]. unfold sv_find. cbn [len s]. rewrite Nat.sub_0_r, Hp.
  destruct (_ || _); [done|]. unfold sv_strnstrn. rewrite Nat.eqb_refl, orb_true_r. cbn [orb obind mbind outcome_bind]. do 2 f_equal. lia.
Qed.
