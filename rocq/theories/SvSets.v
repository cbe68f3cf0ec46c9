(** Searching for bytes of a set. *)
From stdpp Require Import base numbers option list.
From Verif Require Import Common SvModel SvSpec SvTwoWay SvSearch SvFind.

Lemma byteset_Ok p t k : reads p t -> forall i acc, i + k <= length t ->
  exists bits, byteset k p i acc = Ok bits /\
    forall b, N.testbit bits b = true <-> N.testbit acc b = true \/ b ∈ take k (drop i t).
Proof.
  intros Hp. induction k as [|k IH]; intros i acc Hi; cbn [byteset].
  { exists acc. split; [done|]. intros b. rewrite take_0. split; [by left|]. intros [|H]; [done|by apply elem_of_nil in H]. }
  rewrite Hp by lia. cbn [obind mbind outcome_bind]. destruct (IH (i + 1) (N.setbit acc (nth_of t i))) as (bits & -> & Hb); [lia|].
  exists bits. split; [done|]. intros b. rewrite Hb, N.setbit_iff.
  rewrite (drop_S t (nth_of t i) i) by (apply nth_of_lookup; lia). replace (i + 1) with (S i) by lia. cbn [take]. rewrite elem_of_cons. intuition congruence.
Qed.
Lemma span_Ok p t q st (n := length t) : reads p t -> reads q st -> st <> [] ->
  exists r, sv_strspn (length t) p (length st) q = Ok r /\ r <= length t /\ (forall j, j < r -> nth_of t j ∈ st) /\ (r < length t -> nth_of t r ∉ st).
Proof.
  intros Hp Hq Hst. unfold sv_strspn. destruct (Nat.eqb_spec (length st) 0) as [E|_]; [by apply nil_length_inv in E|].
  destruct (Nat.eqb_spec (length st) 1) as [E1|E1].
  - destruct st as [|c [|]]; try done. destruct (Nat.eqb_spec (length t) 0) as [E0|E0].
    { exists 0. split; [done|]. split; [lia|]. split; [intros; lia|lia]. }
    rewrite Hq by (cbn; lia). cbn [obind mbind outcome_bind].
    destruct (while_loop_Ok (fun b => (b =? nth_of [c] 0)%N) p t (length t) 0 Hp) as (r & -> & H1 & H2 & H3); [lia|].
    exists r. split; [done|]. split; [lia|]. cbn in *. split.
    + intros j Hj. specialize (H2 j ltac:(lia)). apply N.eqb_eq in H2. rewrite H2. by apply elem_of_list_singleton.
    + intros Hr. specialize (H3 Hr). apply N.eqb_neq in H3. by rewrite elem_of_list_singleton.
  - destruct (byteset_Ok q st (length st) Hq 0 0%N) as (bits & -> & Hb); [lia|]. cbn [obind mbind outcome_bind].
    assert (forall b, N.testbit bits b = true <-> b ∈ st) as Hb'.
    { intros b. rewrite Hb, drop_0, firstn_all, N.bits_0. split; [by intros [|]|by right]. }
    destruct (while_loop_Ok (fun b => N.testbit bits b) p t (length t) 0 Hp) as (r & -> & H1 & H2 & H3); [lia|].
    exists r. split; [done|]. split; [lia|]. split.
    + intros j Hj. apply Hb', H2. lia.
    + intros Hr Hin. apply Hb' in Hin. rewrite H3 in Hin by done. done.
Qed.

Lemma lookup_nth_of (h : text) j c : h !! j = Some c -> j < length h /\ nth_of h j = c.
Proof. intros H. pose proof (lookup_lt_Some _ _ _ H). split; [done|]. rewrite nth_of_lookup in H by done. congruence. Qed.
Lemma first_byte_intro (P : N -> Prop) h r : r <= length h -> (forall j, j < r -> ~ P (nth_of h j)) -> (r < length h -> P (nth_of h r)) -> first_byte P h r.
Proof.
  intros H1 H2 H3. destruct (decide (r < length h)) as [Hr|Hr].
  - left. exists (nth_of h r). split; [by apply nth_of_lookup|]. split; [by apply H3|]. intros j c Hj Hc.
    apply lookup_nth_of in Hj as [Hj <-]. destruct (decide (r <= j)); [done|]. destruct (H2 j); [lia|done].
  - right. split; [|lia]. intros j c Hj. apply lookup_nth_of in Hj as [Hj <-]. apply H2. lia.
Qed.

Section sets.
Context (hay set : view) (h st : text).
Hypothesis hay_shows : shows hay h.
Hypothesis set_shows : shows set st.

Lemma first_not_of_Ok : exists r, sv_find_first_not_of hay set = Ok r /\ first_byte (fun b => b ∉ st) h r.
Proof.
  unfold sv_find_first_not_of.
  rewrite (shows_not_null _ _ hay_shows), (shows_not_null _ _ set_shows), (shows_len _ _ hay_shows), (shows_len _ _ set_shows). cbn [orb].
  destruct (Nat.eqb_spec (length h) 0) as [E|E].
  { exists 0. split; [done|]. apply first_byte_intro; [lia|intros; lia|lia]. }
  destruct (Nat.eqb_spec (length st) 0) as [E'|E'].
  { exists 0. split; [done|]. apply nil_length_inv in E' as ->. apply first_byte_intro; [lia|intros; lia|]. intros _. apply not_elem_of_nil. }
  destruct (span_Ok (s hay) h (s set) st (shows_reads _ _ hay_shows) (shows_reads _ _ set_shows)) as (r & -> & H1 & H2 & H3); [by intros ->|].
  exists r. split; [done|]. apply first_byte_intro; [done| |done]. intros j Hj Hn. apply Hn. by apply H2.
Qed.

(** The loop of sv_strcspn stops at the first byte of the set if there is one. *)
Lemma unbounded_Ok ok p t : reads p t -> forall f i m, i <= m < length t -> m < f + i -> ok (nth_of t m) = false ->
  exists r, unbounded_loop f p ok i = Ok r /\ i <= r <= m /\ (forall j, i <= j < r -> ok (nth_of t j) = true) /\ ok (nth_of t r) = false.
Proof.
  intros Hp f. induction f as [|f IH]; intros i m Hi Hf Hm; [lia|]. cbn [unbounded_loop]. rewrite Hp by lia. cbn [obind mbind outcome_bind].
  destruct (ok (nth_of t i)) eqn:E.
  - assert (i <> m) by congruence. destruct (IH (i + 1) m) as (r & -> & H1 & H2 & H3); [lia|lia|done|]. exists r. split; [done|]. split; [lia|]. split; [|done].
    intros j Hj. destruct (decide (j = i)) as [->|]; [done|]. apply H2. lia.
  - exists i. split; [done|]. split; [lia|]. split; [intros; lia|done].
Qed.
Lemma first_of_Ok : length st <= 1 \/ (exists b, b ∈ h /\ b ∈ st) ->
  exists r, sv_find_first_of hay set = Ok r /\ first_byte (fun b => b ∈ st) h r.
Proof.
  intros Hex. unfold sv_find_first_of.
  rewrite (shows_not_null _ _ hay_shows), (shows_not_null _ _ set_shows), (shows_len _ _ hay_shows), (shows_len _ _ set_shows). cbn [orb].
  destruct (Nat.eqb_spec (length h) 0) as [E|E].
  { exists 0. split; [done|]. apply first_byte_intro; [lia|intros; lia|lia]. }
  destruct (Nat.eqb_spec (length st) 0) as [E'|E'].
  { exists (length h). split; [done|]. apply nil_length_inv in E' as ->. apply first_byte_intro; [lia| |lia]. intros j _. apply not_elem_of_nil. }
  unfold sv_strcspn. destruct (Nat.eqb_spec (length st) 0); [lia|]. destruct (Nat.eqb_spec (length h) 0); [lia|].
  pose proof (shows_reads _ _ hay_shows) as Hp. pose proof (shows_reads _ _ set_shows) as Hq. destruct (Nat.eqb_spec (length st) 1) as [E1|E1].
  - destruct st as [|c [|]]; try done. rewrite Hq by (cbn; lia). cbn [obind mbind outcome_bind].
    destruct (while_loop_Ok (fun b => negb (b =? nth_of [c] 0)%N) (s hay) h (length h) 0 Hp) as (r & -> & H1 & H2 & H3); [lia|].
    exists r. split; [done|]. cbn in *. apply first_byte_intro; [lia| |].
    + intros j Hj Hin%elem_of_list_singleton. specialize (H2 j ltac:(lia)). apply negb_true_iff, N.eqb_neq in H2. done.
    + intros Hr. specialize (H3 Hr). apply negb_false_iff, N.eqb_eq in H3. rewrite H3. by apply elem_of_list_singleton.
  - destruct Hex as [|(b & Hbh & Hbs)]; [lia|].
    destruct (byteset_Ok (s set) st (length st) Hq 0 0%N) as (bits & -> & Hb); [lia|]. cbn [obind mbind outcome_bind].
    assert (forall b, N.testbit bits b = true <-> b ∈ st) as Hb'.
    { intros c. rewrite Hb, drop_0, firstn_all, N.bits_0. split; [by intros [|]|by right]. }
    apply elem_of_list_lookup in Hbh as [m Hm]. apply lookup_nth_of in Hm as [Hm Em].
    destruct (unbounded_Ok (fun b => negb (N.testbit bits b)) (s hay) h Hp (S (room (s hay))) 0 m) as (r & -> & H1 & H2 & H3); [lia| | |].
    + destruct hay_shows as (pre & post & Ha & _). unfold room. rewrite Ha, !app_length. lia.
    + rewrite Em. apply negb_false_iff. by apply Hb'.
    + exists r. split; [done|]. apply first_byte_intro; [lia| |].
      * intros j Hj Hin. specialize (H2 j ltac:(lia)). apply negb_true_iff in H2. apply Hb' in Hin. congruence.
      * intros _. apply negb_false_iff in H3. by apply Hb'.
Qed.

(** [ends e]: a run of bytes of the set ends right before e. *)
Definition ends (e : nat) : Prop := 0 < e < length h /\ nth_of h (e - 1) ∈ st /\ nth_of h e ∉ st.
Lemma last_loop_Ok last : st <> [] -> forall f i L, i <= length h -> length h < f + i -> (i = 0 \/ nth_of h (i - 1) ∉ st) ->
  ((exists e, ends e /\ e < i /\ L = last e /\ forall e', ends e' -> e' < i -> e' <= e) \/ ((forall e, ends e -> ~ e < i) /\ L = length h)) ->
  exists r, last_loop f hay set last i i L = Ok r /\
    ((exists e, ends e /\ r = last e /\ forall e', ends e' -> e' <= e) \/ ((forall e, ~ ends e) /\ r = length h)).
Proof.
  intros Hst f. induction f as [|f IH]; intros i L Hi Hf Hb HL; [lia|]. cbn [last_loop].
  rewrite (shows_len _ _ hay_shows), (shows_len _ _ set_shows). unfold minus. destruct (Nat.leb_spec i (length h)); [|lia]. cbn [obind mbind outcome_bind].
  pose proof (shows_drop hay h i hay_shows Hi) as Hd.
  destruct (span_Ok (plus (s hay) i) (drop i h) (s set) st (shows_reads _ _ Hd) (shows_reads _ _ set_shows) Hst) as (k & E & H1 & H2 & H3).
  rewrite drop_length in *. rewrite E. cbn [obind mbind outcome_bind]. cbv zeta.
  assert (forall j, i <= j < i + k -> nth_of h j ∈ st) as H2'.
  { intros j Hj. specialize (H2 (j - i) ltac:(lia)). rewrite nth_of_drop in H2. by replace (i + (j - i)) with j in H2 by lia. }
  rewrite nth_of_drop in H3.
  assert (forall e, ends e -> i <= e -> e < i + k -> False) as Hno.
  { intros e (He & _ & Hn) Hle Hlt. apply Hn, H2'. lia. }
  destruct (Nat.eqb_spec (i + k) (length h)) as [Ee|Ee].
  - exists L. split; [done|]. destruct HL as [(e & He & Hlt & -> & Hmax)|[Hnone ->]].
    + left. exists e. split; [done|]. split; [done|]. intros e' He'. destruct (decide (e' < i)) as [|Hge]; [by apply Hmax|].
      exfalso. apply (Hno e' He'); [lia|]. destruct He' as [? _]. lia.
    + right. split; [|done]. intros e He. destruct (decide (e < i)) as [Hlt|Hge]; [by apply (Hnone e)|].
      apply (Hno e He); [lia|]. destruct He as [? _]. lia.
  - assert (nth_of h (i + k) ∉ st) as Hn by (apply H3; lia).
    apply IH; [lia|lia|right; by replace (i + k + 1 - 1) with (i + k) by lia|].
    destruct (Nat.eqb_spec (i + k) i) as [Ek|Ek].
    + assert (~ ends i) as Hni.
      { intros (He & Hin & _). destruct Hb as [Hb|Hb]; [lia|]. by apply Hb. }
      destruct HL as [(e & He & Hlt & -> & Hmax)|[Hnone ->]].
      * left. exists e. split; [done|]. split; [lia|]. split; [done|]. intros e' He' Hlt'. apply Hmax; [done|].
        assert (e' <> i) by (intros ->; done). lia.
      * right. split; [|done]. intros e He Hlt'. apply (Hnone e He). assert (e <> i) by (intros ->; done). lia.
    + left. exists (i + k). split; [|split; [lia|split; [done|lia]]]. split; [lia|]. split; [|done]. apply H2'. lia.
Qed.
Lemma last_run last : h <> [] -> st <> [] -> exists r, last_loop (S (length h)) hay set last 0 0 (length h) = Ok r /\
  ((exists e, ends e /\ r = last e /\ forall e', ends e' -> e' <= e) \/ ((forall e, ~ ends e) /\ r = length h)).
Proof.
  intros Hh Hst. apply last_loop_Ok; [done|lia|lia|by left|]. right. split; [|done]. intros; lia.
Qed.

(** The next position with a property. *)
Lemma run_end j : j < length h -> nth_of h j ∈ st -> nth_of h (length h - 1) ∉ st -> exists e, j < e /\ ends e.
Proof.
  intros Hj Hin Hl. remember (length h - j) as d eqn:Ed. revert j Hj Hin Ed. induction d as [|d IH]; intros j Hj Hin Ed; [lia|].
  assert (j <> length h - 1) by (intros ->; done).
  destruct (decide (nth_of h (j + 1) ∈ st)) as [Hin'|Hin'].
  - destruct (IH (j + 1)) as (e & He & Hee); [lia|done|lia|]. exists e. split; [lia|done].
  - exists (j + 1). split; [lia|]. split; [lia|]. split; [by replace (j + 1 - 1) with j by lia|done].
Qed.
Lemma last_of_Ok : (forall b, last h = Some b -> b ∉ st) ->
  exists r, sv_find_last_of hay set = Ok r /\ last_byte (fun b => b ∈ st) h r.
Proof.
  intros Hlast. unfold sv_find_last_of.
  rewrite (shows_not_null _ _ hay_shows), (shows_not_null _ _ set_shows), (shows_len _ _ hay_shows), (shows_len _ _ set_shows). cbn [orb].
  destruct (Nat.eqb_spec (length h) 0) as [E|E].
  { exists 0. split; [done|]. right. apply nil_length_inv in E as ->. split; [|done]. intros j c Hj. done. }
  destruct (Nat.eqb_spec (length st) 0) as [E'|E'].
  { exists (length h). split; [done|]. apply nil_length_inv in E' as ->. right. split; [|done]. intros j c _. apply not_elem_of_nil. }
  assert (nth_of h (length h - 1) ∉ st) as Hl.
  { apply Hlast. rewrite last_lookup. replace (Init.Nat.pred (length h)) with (length h - 1) by lia. apply nth_of_lookup. lia. }
  destruct (last_run (fun i => i - 1)) as (r & -> & Hr); [by intros ->|by intros ->|]. exists r. split; [done|].
  destruct Hr as [(e & (He & Hin & Hnin) & -> & Hmax)|[Hnone ->]].
  - left. exists (nth_of h (e - 1)). split; [apply nth_of_lookup; lia|]. split; [done|]. intros j c Hj Hc. apply lookup_nth_of in Hj as [Hj <-].
    destruct (run_end j Hj Hc Hl) as (e' & He' & Hee). specialize (Hmax e' Hee). lia.
  - right. split; [|done]. intros j c Hj Hc. apply lookup_nth_of in Hj as [Hj <-]. destruct (run_end j Hj Hc Hl) as (e' & _ & Hee). by apply (Hnone e').
Qed.
(** A run at the end of hay is never seen. *)
Lemma last_of_wrong b : last h = Some b -> b ∈ st -> exists r, sv_find_last_of hay set = Ok r /\ r <> length h - 1.
Proof.
  intros Hlast Hb. unfold sv_find_last_of.
  rewrite (shows_not_null _ _ hay_shows), (shows_not_null _ _ set_shows), (shows_len _ _ hay_shows), (shows_len _ _ set_shows). cbn [orb].
  assert (h <> []) as Hh by by intros ->. assert (st <> []) as Hst by (intros ->; by apply elem_of_nil in Hb).
  destruct (Nat.eqb_spec (length h) 0) as [E|E]; [by apply nil_length_inv in E|].
  destruct (Nat.eqb_spec (length st) 0) as [E'|E']; [by apply nil_length_inv in E'|].
  destruct (last_run (fun i => i - 1) Hh Hst) as (r & -> & Hr). exists r. split; [done|].
  destruct Hr as [(e & (He & _) & -> & _)|[_ ->]]; lia.
Qed.
Lemma last_not_of_Ok : last_follows st h -> exists r, sv_find_last_not_of hay set = Ok r /\ last_byte (fun b => b ∉ st) h r.
Proof.
  intros Hf. unfold sv_find_last_not_of.
  rewrite (shows_not_null _ _ hay_shows), (shows_not_null _ _ set_shows), (shows_len _ _ hay_shows), (shows_len _ _ set_shows). cbn [orb].
  destruct (Nat.eqb_spec (length h) 0) as [E|E].
  { exists 0. split; [done|]. right. apply nil_length_inv in E as ->. split; [|done]. intros j c Hj. done. }
  destruct (Nat.eqb_spec (length st) 0) as [E'|E'].
  { exists (length h - 1). split; [done|]. apply nil_length_inv in E' as ->. left. exists (nth_of h (length h - 1)).
    split; [apply nth_of_lookup; lia|]. split; [apply not_elem_of_nil|]. intros j c Hj _. apply lookup_lt_Some in Hj. lia. }
  destruct (last_run (fun i => i)) as (r & -> & Hr); [by intros ->|by intros ->|]. exists r. split; [done|].
  destruct Hf as [->|[Hall|(a & x & y & b & Eh & Hx & Hy & Hb)]]; [done| |].
  - rewrite Forall_lookup in Hall. destruct Hr as [(e & (He & _ & Hn) & -> & _)|[_ ->]].
    + exfalso. apply Hn. apply (Hall e). apply nth_of_lookup. lia.
    + right. split; [|done]. intros j c Hj Hc. apply Hc. by apply (Hall j).
  - unfold text in *. assert (h !! (length a) = Some x) as Lx by (by rewrite Eh, lookup_app_r, Nat.sub_diag by lia).
    assert (h !! (length a + 1) = Some y) as Ly by (rewrite Eh, lookup_app_r by lia; by replace (length a + 1 - length a) with 1 by lia).
    assert (forall j c, h !! j = Some c -> c ∉ st -> j <= length a + 1) as Hle.
    { intros j c Hj Hc. destruct (decide (j <= length a + 1)) as [|Hlt]; [done|]. exfalso. apply Hc. rewrite Eh, lookup_app_r in Hj by lia.
      destruct (j - length a) as [|[|k]] eqn:Ek; [lia|lia|]. cbn in Hj. rewrite Forall_lookup in Hb. by apply (Hb k). }
    assert (ends (length a + 1)) as Hends.
    { apply lookup_nth_of in Lx as [_ <-]. apply lookup_nth_of in Ly as [Hlt <-]. split; [lia|]. split; [|done]. by replace (length a + 1 - 1) with (length a) by lia. }
    destruct Hr as [(e & He & -> & Hmax)|[Hnone _]]; [|by destruct (Hnone (length a + 1))].
    assert (e = length a + 1) as ->.
    { specialize (Hmax _ Hends). destruct He as (He & _ & Hn). assert (h !! e = Some (nth_of h e)) as L by (apply nth_of_lookup; lia). specialize (Hle _ _ L Hn). lia. }
    left. exists y. done.
Qed.
End sets.
