(** How many comparisons the flat priority queue makes. *)
From Coq Require Import Lia.
From stdpp Require Import base numbers option list.
From Verif Require Import Common BufferModel OrderSpec FpqModel FpqSpec FpqProofs TickModel FpqCostModel FpqCostSpec.

(** ** The counting functions do what those of FpqModel.v do *)
Section erase.
Context {A : Type} (cmp : A -> A -> comparison) (order : comparison).
Implicit Types b : buf A.

Lemma bubble_up_untick f b tmp i : untick (bubble_up_c cmp order f b tmp i) = bubble_up cmp order f b tmp i.
Proof. revert b i. induction f as [|f IH]; intros b [|i]; [done..|]. cbn [bubble_up_c bubble_up]. un. apply IH. Qed.
Lemma bubble_down_untick f b tmp i : untick (bubble_down_c cmp order f b tmp i) = bubble_down cmp order f b tmp i.
Proof.
  revert b i. induction f as [|f IH]; intros b i; cbn [bubble_down_c bubble_down]; [by destruct (_ <=? _)|].
  destruct (_ <=? _); [done|]. un. apply IH.
Qed.
Lemma up_untick b tmp i : untick (up_c cmp order b tmp i) = up cmp order b tmp i.
Proof. apply bubble_up_untick. Qed.
Lemma down_untick b tmp i : untick (down_c cmp order b tmp i) = down cmp order b tmp i.
Proof. apply bubble_down_untick. Qed.
Lemma heapify_loop_untick k b tmp : untick (heapify_loop_c cmp order k b tmp) = heapify_loop cmp order k b tmp.
Proof. revert b. induction k as [|k IH]; intros b; [done|]. cbn [heapify_loop_c heapify_loop]. un; [apply down_untick|apply IH]. Qed.
Lemma heapify_untick b l ok : untick (fpq_heapify_c cmp order b l ok) = fpq_heapify cmp order b l ok.
Proof. unfold fpq_heapify_c, fpq_heapify. un. apply heapify_loop_untick. Qed.
Lemma in_place_untick b n : untick (fpq_in_place_heapify_c cmp order b n) = fpq_in_place_heapify cmp order b n.
Proof. unfold fpq_in_place_heapify_c, fpq_in_place_heapify. un. apply heapify_loop_untick. Qed.
Lemma push_untick b x ok : untick (fpq_push_c cmp order b x ok) = fpq_push cmp order b x ok.
Proof. unfold fpq_push_c, fpq_push. un. apply up_untick. Qed.
Lemma emplace_untick b x ok : untick (fpq_emplace_c cmp order b x ok) = fpq_emplace cmp order b x ok.
Proof.
  unfold fpq_emplace_c, fpq_emplace. destruct (buf_alloc_back b ok) as [b1 new].
  match goal with |- untick (let '(_, _) := ?m in _) = _ => destruct m as [b2 [p|]] end; [|done]. un. apply up_untick.
Qed.
Lemma pop_untick b : untick (fpq_pop_c cmp order b) = fpq_pop cmp order b.
Proof. unfold fpq_pop_c, fpq_pop. un. apply down_untick. Qed.
Lemma erase_untick b h : untick (fpq_erase_c cmp order b h) = fpq_erase cmp order b h.
Proof.
  unfold fpq_erase_c, fpq_erase. un; rewrite ?up_untick, ?down_untick; done.
Qed.
Lemma fixup_untick b h : untick (update_fixup_c cmp order b h) = update_fixup cmp order b h.
Proof.
  unfold update_fixup_c, update_fixup. un; rewrite ?up_untick, ?down_untick; done.
Qed.
Lemma update_untick b h f : untick (fpq_update_c cmp order b h f) = fpq_update cmp order b h f.
Proof. unfold fpq_update_c, fpq_update. un. apply fixup_untick. Qed.
Lemma validate_untick b : untick (fpq_validate_c cmp order b) = fpq_validate cmp order b.
Proof.
  unfold fpq_validate_c, fpq_validate. destruct (_ <=? _); [done|].
  generalize (seq 0 ((b_sz b - 2) / 2 + 1)). intros l. induction l as [|i l IH]; [done|].
  cbn [validate_loop_c validate_loop]. un. apply IH.
Qed.
Lemma step_untick b o : untick (fpq_step_c cmp order b o) = fpq_step cmp order b o.
Proof.
  destruct o; cbn [fpq_step_c fpq_step]; un;
    rewrite ?push_untick, ?pop_untick, ?erase_untick, ?update_untick, ?heapify_untick, ?validate_untick; done.
Qed.

Lemma run_untick b os b' tr : fpq_run cmp order b os = Ok (b', tr) ->
  exists tr', fpq_run_c cmp order b os = Ok (b', tr') /\ List.map (fun e => fst (fst e)) tr' = List.map fst tr.
Proof.
  revert b b' tr. induction os as [|o os IH]; intros b b' tr; cbn [fpq_run_c fpq_run].
  { intros [= <- <-]. by exists []. }
  destruct (handle_ok b o); [|apply IH]. rewrite <- step_untick.
  destruct (fpq_step_c cmp order b o) as [[[b1 r] n]| |]; cbn [untick mbind outcome_bind obind]; [|done..].
  destruct (fpq_run cmp order b1 os) as [[b2 tr2]| |] eqn:E; cbn [mbind outcome_bind obind]; [|done..].
  intros [= <- <-]. destruct (IH _ _ _ E) as (tr' & -> & Htr). eexists. split; [done|]. cbn. by rewrite Htr.
Qed.
End erase.

(** ** Bounds *)
Section bounds.
Context {A : Type} (cmp : A -> A -> comparison) (order : comparison).
Implicit Types b : buf A.

Lemma swap_size b tmp i j b' : swap b tmp i j = Ok b' -> b_sz b' = b_sz b.
Proof.
  unfold swap. destruct tmp as [t|]; [|done]. destruct (_ || _); [done|].
  repeat match goal with |- context [mbind _ ?m] => destruct m; cbn [mbind outcome_bind obind]; [|done..] end.
  by intros [= <-].
Qed.

Lemma plain_Ok {B} (m : outcome B) x k : plain m = Ok (x, k) -> m = Ok x /\ k = 0.
Proof. destruct m; cbn; [by intros [= -> <-]|done..]. Qed.

Lemma up_within f b tmp i : within (bubble_up_c cmp order f b tmp i) (Nat.log2 (i + 1)).
Proof.
  revert b i. induction f as [|f IH]; intros b [|i]; try done; [apply within_plain..|].
  cbn [bubble_up_c]. replace (Nat.log2 (S i + 1)) with (1 + Nat.log2 (i / 2 + 1)).
  2:{ pose proof (Nat.div_mod i 2 ltac:(lia)). pose proof (Nat.mod_upper_bound i 2 ltac:(lia)).
      set (q := i / 2) in *. destruct (Nat.eq_dec (i mod 2) 0) as [Hm|Hm].
      - replace (S i + 1) with (2 * (q + 1)) by lia. by rewrite Nat.log2_double by lia.
      - replace (S i + 1) with (2 * (q + 1) + 1) by lia. by rewrite Nat.log2_succ_double by lia. }
  apply within_bind; [apply within_tick; lia|]. intros [] k Hw; [|apply within_plain].
  apply within_le with (0 + Nat.log2 (i / 2 + 1)); [|lia].
  apply within_bind; [apply within_plain|]. intros b' k' _. apply IH.
Qed.

Lemma down_size f b tmp i b' j k : bubble_down_c cmp order f b tmp i = Ok (b', j, k) -> b_sz b' = b_sz b.
Proof.
  revert b i k. induction f as [|f IH]; intros b i k; cbn [bubble_down_c]; destruct (_ <=? _); [by intros [= <-]|done|by intros [= <-]|].
  intros (next & k1 & k2 & _ & E & _)%tbind_Ok. apply tbind_Ok in E as (w & k3 & k4 & _ & E & _).
  destruct w; [|by injection E as <-]. apply tbind_Ok in E as (b1 & k5 & k6 & E1 & E & _).
  apply plain_Ok in E1 as [E1 _]. apply IH in E. by rewrite E, (swap_size _ _ _ _ _ E1).
Qed.

(** One level: [n / (i + 1)] halves. *)
Lemma level n i j : i * 2 + 1 < n -> i * 2 + 1 <= j -> 1 + Nat.log2 (n / (j + 1)) <= Nat.log2 (n / (i + 1)).
Proof.
  intros Hn Hj. assert (n / (j + 1) <= n / (i + 1) / 2) as H1.
  { rewrite Nat.div_div by lia. apply Nat.div_le_compat_l. lia. }
  assert (2 <= n / (i + 1)) as H2 by (apply Nat.div_le_lower_bound; lia).
  set (m := n / (i + 1)) in *. apply Nat.log2_le_mono in H1.
  enough (Nat.log2 m = 1 + Nat.log2 (m / 2)) by lia.
  pose proof (Nat.div_mod m 2 ltac:(lia)). pose proof (Nat.mod_upper_bound m 2 ltac:(lia)).
  assert (1 <= m / 2) by (apply Nat.div_le_lower_bound; lia).
  destruct (Nat.eq_dec (m mod 2) 0) as [E|E].
  - replace m with (2 * (m / 2)) at 1 by lia. by rewrite Nat.log2_double by lia.
  - replace m with (2 * (m / 2) + 1) at 1 by lia. by rewrite Nat.log2_succ_double by lia.
Qed.

Lemma down_within f b tmp i : within (bubble_down_c cmp order f b tmp i) (2 * Nat.log2 (b_sz b / (i + 1))).
Proof.
  revert b i. induction f as [|f IH]; intros b i; cbn [bubble_down_c]; destruct (_ <=? _) eqn:Hl; [apply within_plain|done|apply within_plain|].
  apply Nat.leb_gt in Hl. pose proof (level _ _ _ Hl (le_n _)) as Hlev.
  apply within_le with (1 + (1 + 2 * Nat.log2 (b_sz b / (i * 2 + 1 + 1)))); [|lia].
  apply within_bind.
  { destruct (_ <? _); [|apply within_plain]. apply within_le with (1 + 0); [|lia].
    apply within_bind; [by apply within_tick|intros; apply within_plain]. }
  intros next k Hnext. apply within_bind; [by apply within_tick|]. intros [] k' _; [|apply within_plain].
  apply within_free.
  intros b' Hs. eapply within_le; [apply IH|].
  rewrite (swap_size _ _ _ _ _ Hs). apply Nat.mul_le_mono_l, Nat.log2_le_mono, Nat.div_le_compat_l.
  split; [lia|]. destruct (_ <? _) in Hnext.
  - apply tbind_Ok in Hnext as (w & k1 & k2 & _ & Hnext & _). apply plain_Ok in Hnext as [[= <-] _]. destruct w; lia.
  - apply plain_Ok in Hnext as [[= <-] _]. lia.
Qed.

(** The sum of the depths below the first [k] elements. *)
Fixpoint below (n k : nat) : nat :=
  match k with 0 => 0 | S i => Nat.log2 (n / (i + 1)) + below n i end.

Lemma below_high n k : n / 2 <= k -> below n k = below n (n / 2).
Proof.
  intros Hk. replace k with (n / 2 + (k - n / 2)) by lia. generalize (k - n / 2). intros d. clear k Hk.
  induction d as [|d IH]; [by rewrite Nat.add_0_r|]. rewrite <- plus_n_Sm. cbn [below]. rewrite IH.
  enough (n / (n / 2 + d + 1) <= 1) as H.
  { destruct (n / (n / 2 + d + 1)) as [|[|?]]; [done|done|lia]. }
  apply Nat.lt_succ_r, Nat.div_lt_upper_bound; [lia|].
  pose proof (Nat.div_mod n 2 ltac:(lia)). pose proof (Nat.mod_upper_bound n 2 ltac:(lia)). lia.
Qed.
Lemma below_half n k : k <= n / 2 -> below n k = k + below (n / 2) k.
Proof.
  induction k as [|k IH]; [done|]. intros Hk. cbn [below]. rewrite IH by lia.
  enough (Nat.log2 (n / (k + 1)) = 1 + Nat.log2 (n / 2 / (k + 1))) by lia.
  assert (2 <= n / (k + 1)) as H2.
  { apply Nat.div_le_lower_bound; [lia|]. pose proof (Nat.div_mod n 2 ltac:(lia)). lia. }
  rewrite Nat.div_div, (Nat.mul_comm 2), <- Nat.div_div by lia. set (m := n / (k + 1)) in *.
  pose proof (Nat.div_mod m 2 ltac:(lia)). pose proof (Nat.mod_upper_bound m 2 ltac:(lia)).
  assert (1 <= m / 2) by (apply Nat.div_le_lower_bound; lia).
  destruct (Nat.eq_dec (m mod 2) 0) as [E|E].
  - replace m with (2 * (m / 2)) at 1 by lia. by rewrite Nat.log2_double by lia.
  - replace m with (2 * (m / 2) + 1) at 1 by lia. by rewrite Nat.log2_succ_double by lia.
Qed.
Lemma below_linear n k : below n k <= n.
Proof.
  revert k. induction (lt_wf n) as [n _ IH]. intros k.
  destruct (decide (n = 0)) as [->|Hn].
  { induction k as [|k IHk]; [done|]. cbn [below]. rewrite Nat.div_0_l by lia. cbn. lia. }
  pose proof (Nat.div_mod n 2 ltac:(lia)) as Hd.
  assert (n / 2 < n) as Hlt by (apply Nat.div_lt; lia).
  assert (forall k, k <= n / 2 -> below n k <= n) as H.
  { intros j Hj. rewrite below_half by done. pose proof (IH (n / 2) Hlt j). lia. }
  destruct (decide (k <= n / 2)); [by apply H|]. rewrite below_high by lia. by apply H.
Qed.

Lemma heapify_loop_within k b tmp : within (heapify_loop_c cmp order k b tmp) (2 * below (b_sz b) k).
Proof.
  revert b. induction k as [|k IH]; intros b; [apply within_plain|]. cbn [heapify_loop_c below].
  rewrite Nat.mul_add_distr_l. apply within_bind; [apply down_within|]. intros [b' j] n E. apply down_size in E.
  rewrite <- E. apply IH.
Qed.

Lemma heapify_within b l ok : within (fpq_heapify_c cmp order b l ok) (2 * length l).
Proof.
  unfold fpq_heapify_c. destruct (if _ <? _ then _ else _) as [b1 []]; try apply within_plain.
  apply within_free. intros s _.
  rewrite (plus_n_O (2 * length l)). apply within_bind; [|intros; apply within_plain].
  eapply within_le; [apply heapify_loop_within|]. cbn [b_sz]. pose proof (below_linear (length l) (length l / 2 + 1)). lia.
Qed.
Lemma in_place_within b n : within (fpq_in_place_heapify_c cmp order b n) (2 * n).
Proof.
  unfold fpq_in_place_heapify_c. destruct (_ <? _); [apply within_plain|].
  eapply within_le; [apply heapify_loop_within|]. cbn [b_sz set_size]. pose proof (below_linear n (n / 2 + 1)). lia.
Qed.

Lemma alloc_sz b n al ok : b_sz (fst (buf_alloc b n al ok)) = b_sz b.
Proof. unfold buf_alloc. by repeat match goal with |- context [if ?c then _ else _] => destruct c end. Qed.
Lemma alloc_back_sz b ok b' p : buf_alloc_back b ok = (b', Some p) -> b_sz b' = b_sz b + 1.
Proof.
  unfold buf_alloc_back. destruct (_ =? _); [|intros [= <- _]; cbn; lia].
  pose proof (alloc_sz b start_capacity (b_alloc b) ok) as H1. pose proof (alloc_sz b (b_cap b * 2) (b_alloc b) ok) as H2.
  destruct (b_cap b =? 0); [destruct (buf_alloc b start_capacity _ _) as [b1 []]|destruct (buf_alloc b (b_cap b * 2) _ _) as [b1 []]];
    intros [= <- _]; cbn in *; lia.
Qed.

Lemma settle_within b (p : nat) (x : A) : within
    (s ⇠ plain (slot_set (b_slots b) p (Some x));
     let b3 := set_slots b s in
     if 1 <? b_sz b3 then
       '(b4, i) ⇠ up_c cmp order b3 (buf_at b3 (b_sz b3)) (b_sz b3 - 1);
       plain (Ok (b4, buf_at b4 i))
     else plain (Ok (b3, buf_at b3 0))) (Nat.log2 (b_sz b)).
Proof.
  apply within_free. intros s _.
  cbn zeta. destruct (1 <? _) eqn:E; [|apply within_plain]. apply Nat.ltb_lt in E.
  rewrite (plus_n_O (Nat.log2 _)). apply within_bind; [|intros [] ? _; apply within_plain].
  eapply within_le; [apply up_within|]. cbn [b_sz set_slots] in *. by replace (b_sz b - 1 + 1) with (b_sz b) by lia.
Qed.

Lemma push_within b x ok : within (fpq_push_c cmp order b x ok) (Nat.log2 (b_sz b + 1)).
Proof.
  unfold fpq_push_c. pose proof (alloc_sz b (b_cap b * 2) (b_alloc b) ok) as Ha.
  destruct (if _ <=? _ then _ else _) as [b1 r] eqn:E1.
  assert (b_sz b1 = b_sz b) as H1 by (destruct (_ <=? _); [by rewrite E1 in Ha|by injection E1 as <- _]).
  destruct r; try apply within_plain. destruct (buf_alloc_back b1 ok) as [b2 [p|]] eqn:E2; [|apply within_plain].
  apply alloc_back_sz in E2. rewrite <- H1, <- E2. apply settle_within.
Qed.
Lemma emplace_within b x ok : within (fpq_emplace_c cmp order b x ok) (Nat.log2 (b_sz b + 1)).
Proof.
  unfold fpq_emplace_c. destruct (buf_alloc_back b ok) as [b1 new] eqn:E1.
  pose proof (alloc_sz b1 (b_cap b1 * 2) (b_alloc b1) ok) as Ha.
  destruct (if _ =? _ then _ else _) as [b2 [p|]] eqn:E2; [|apply within_plain].
  enough (b_sz b2 <= b_sz b + 1) by (eapply within_le; [apply settle_within|by apply Nat.log2_le_mono]).
  assert (b_sz b1 <= b_sz b + 1).
  { clear E2. destruct new; [apply alloc_back_sz in E1; lia|]. revert E1. unfold buf_alloc_back. destruct (_ =? _); [|done].
    pose proof (alloc_sz b start_capacity (b_alloc b) ok) as H1. pose proof (alloc_sz b (b_cap b * 2) (b_alloc b) ok) as H2.
    destruct (b_cap b =? 0); [destruct (buf_alloc b start_capacity _ _) as [b1' []]|destruct (buf_alloc b (b_cap b * 2) _ _) as [b1' []]];
      intros E; inversion E; subst; cbn in *; lia. }
  destruct (_ =? _).
  - destruct (buf_alloc b1 _ _ _) as [b3 []]; cbn in Ha; injection E2 as <- _; lia.
  - injection E2 as <- _; lia.
Qed.

Lemma down0_within b tmp : within (down_c cmp order b tmp 0) (2 * Nat.log2 (b_sz b)).
Proof. eapply within_le; [apply down_within|]. by rewrite Nat.add_0_l, Nat.div_1_r. Qed.
Lemma downi_within b tmp i : within (down_c cmp order b tmp i) (2 * Nat.log2 (b_sz b)).
Proof.
  eapply within_le; [apply down_within|]. apply Nat.mul_le_mono_l, Nat.log2_le_mono.
  apply Nat.div_le_upper_bound; nia.
Qed.
Lemma upi_within b tmp i : i < b_sz b -> within (up_c cmp order b tmp i) (2 * Nat.log2 (b_sz b)).
Proof.
  intros Hi. eapply within_le; [apply up_within|].
  pose proof (Nat.log2_le_mono (i + 1) (b_sz b) ltac:(lia)). lia.
Qed.

Lemma pop_within b : within (fpq_pop_c cmp order b) (2 * Nat.log2 (b_sz b - 1)).
Proof.
  unfold fpq_pop_c. destruct (_ =? _); [apply within_plain|]. destruct (_ =? _); [apply within_plain|].
  apply within_free. intros b1 E. rewrite <- (swap_size _ _ _ _ _ E).
  rewrite (plus_n_O (2 * _)). apply within_bind; [|intros [] ? _; apply within_plain]. apply down0_within.
Qed.

Lemma erase_within b h : within (fpq_erase_c cmp order b h) (1 + 2 * Nat.log2 (b_sz b - 1)).
Proof.
  unfold fpq_erase_c. destruct (_ =? _); [apply within_plain|]. destruct (_ =? _); [apply within_plain|].
  apply within_free. intros [] Hh. destruct (h =? _) eqn:Eh; [apply within_plain|]. apply Nat.eqb_neq in Eh.
  assert (h < b_sz b) as Hlt by (destruct (h <? b_sz b) eqn:E; [by apply Nat.ltb_lt|done]).
  apply within_free. intros b1 E. rewrite <- (swap_size _ _ _ _ _ E). cbn zeta.
  assert (h < b_sz (set_size b1 (b_sz b1 - 1))) as Hs by (cbn; rewrite (swap_size _ _ _ _ _ E); lia).
  apply within_free. intros x _.
  apply within_free. intros y _.
  apply within_bind; [by apply within_tick|]. intros c k4 _.
  change (b_sz b1 - 1) with (b_sz (set_size b1 (b_sz b1 - 1))) at 2.
  destruct (is_order order c); [|destruct c; [apply within_plain|..]];
    (rewrite (plus_n_O (2 * _)); apply within_bind; [|intros [] ? _; apply within_plain]);
    [by apply upi_within|apply downi_within..].
Qed.

Lemma update_within b h f : within (fpq_update_c cmp order b h f) (1 + 2 * Nat.log2 (b_sz b)).
Proof.
  unfold fpq_update_c. destruct (_ =? _); [apply within_plain|].
  apply within_free. intros x _.
  apply within_free. intros s _.
  rewrite (plus_n_O (1 + _)). apply within_bind; [|intros [] ? _; apply within_plain].
  change (b_sz b) with (b_sz (set_slots b s)). generalize (set_slots b s). clear b s. intros b.
  unfold update_fixup_c.
  apply within_free. intros [] Hh. assert (h < b_sz b) as Hlt by (destruct (h <? b_sz b) eqn:E; [by apply Nat.ltb_lt|done]).
  destruct (_ =? _); [eapply within_le; [apply down0_within|lia]|].
  apply within_free. intros y _.
  apply within_free. intros z _.
  apply within_bind; [by apply within_tick|]. intros c k4 _.
  destruct (is_order order c); [by apply upi_within|]. destruct c; [apply within_plain|apply downi_within..].
Qed.

Lemma validate_within b : within (fpq_validate_c cmp order b) (b_sz b).
Proof.
  unfold fpq_validate_c. destruct (_ <=? 1) eqn:E; [apply within_plain|]. apply Nat.leb_gt in E.
  assert (forall k i, i + k = (b_sz b - 2) / 2 + 1 ->
    within (validate_loop_c cmp order b (seq i k)) (b_sz b - 1 - 2 * i)) as H.
  { induction k as [|k IH]; intros i Hi; [apply within_plain|]. cbn [seq validate_loop_c].
    pose proof (Nat.mul_div_le (b_sz b - 2) 2 ltac:(lia)) as Hd.
    destruct (i * 2 + 1 <? b_sz b) eqn:E1; [apply Nat.ltb_lt in E1|apply Nat.ltb_ge in E1; lia].
    apply within_le with (1 + (b_sz b - 1 - 2 * i - 1)); [|lia].
    apply within_bind; [by apply within_tick|]. intros [] k1 _; [apply within_plain|].
    destruct (i * 2 + 2 <? b_sz b) eqn:E2; [apply Nat.ltb_lt in E2|apply Nat.ltb_ge in E2].
    - apply within_le with (1 + (b_sz b - 1 - 2 * S i)); [|lia].
      apply within_bind; [by apply within_tick|]. intros [] k2 _; [apply within_plain|]. apply IH. lia.
    - apply within_le with (0 + (b_sz b - 1 - 2 * S i)); [|lia].
      apply within_bind; [apply within_plain|]. intros [] k2 _; [apply within_plain|]. apply IH. lia. }
  eapply within_le; [apply H; lia|]. lia.
Qed.

Lemma within_map {B C} (m : ticked B) (f : B -> ticked C) n :
  within m n -> (forall a k, m = Ok (a, k) -> within (f a) 0) -> within (tbind f m) n.
Proof. intros H1 H2. rewrite (plus_n_O n). by apply within_bind. Qed.

Lemma step_within b o : within (fpq_step_c cmp order b o) (comparisons_allowed o (b_sz b)).
Proof.
  destruct o; cbn [fpq_step_c comparisons_allowed].
  - apply within_map; [apply push_within|]. intros [b' r] k _. apply within_map; intros; apply within_plain.
  - apply within_map; [apply pop_within|]. intros [b' r] k _. apply within_plain.
  - apply within_map; [apply erase_within|]. intros [b' r] k _. apply within_plain.
  - apply within_map; [apply update_within|]. intros [b' r] k _. apply within_map; intros; apply within_plain.
  - apply within_map; [apply heapify_within|]. intros [b' r] k _. apply within_plain.
  - apply within_plain.
  - apply within_map; intros; apply within_plain.
  - apply within_plain.
  - apply within_map; [apply validate_within|]. intros r k _. apply within_plain.
Qed.

Lemma run_within b os b' tr : fpq_run_c cmp order b os = Ok (b', tr) ->
  Forall (fun '(o, r, n, k) => k <= comparisons_allowed o n) tr.
Proof.
  revert b b' tr. induction os as [|o os IH]; intros b b' tr; cbn [fpq_run_c]; [by intros [= _ <-]|].
  destruct (handle_ok b o); [|apply IH].
  destruct (fpq_step_c cmp order b o) as [[[b1 r] n]| |] eqn:E; cbn [mbind outcome_bind obind]; [|done..].
  destruct (fpq_run_c cmp order b1 os) as [[b2 tr2]| |] eqn:E2; cbn [mbind outcome_bind obind]; [|done..].
  intros [= _ <-]. constructor; [by eapply step_within|by eapply IH].
Qed.
End bounds.

Lemma history_within {A : Type} (cmp : A -> A -> comparison) (order : comparison) :
  total_preorder cmp -> order <> Eq -> forall (cap : nat) (grow : bool) (os : list (fpq_op A)),
  exists b tr tr', fpq_run cmp order (fresh_fpq cap grow) os = Ok (b, tr) /\
    fpq_run_c cmp order (fresh_fpq cap grow) os = Ok (b, tr') /\
    List.map (fun e => fst (fst e)) tr' = List.map fst tr /\
    Forall (fun '(o, r, n, k) => k <= comparisons_allowed o n) tr'.
Proof.
  intros Hc Ho cap grow os. destruct (run_Ok cmp order Hc Ho os _ [] (fresh_ok cmp order cap grow)) as (b & c & tr & Hr & _).
  destruct (run_untick cmp order _ _ _ _ Hr) as (tr' & Hr' & Htr). exists b, tr, tr'. do 3 (split; [done|]). by eapply run_within.
Qed.
