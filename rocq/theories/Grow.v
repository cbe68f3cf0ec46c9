(** The slots moved by the growth of the array containers over a history. *)
From stdpp Require Import base numbers option gmap list.
From Verif Require Import Common BufferModel BufferSpec BufferProofs FpqModel FpqSpec FpqProofs TickModel GrowModel GrowSpec.
From Verif Require WordSame.

Lemma tbind_Ok {X Y} (m : ticked X) (f : X -> ticked Y) y n : tbind f m = Ok (y, n) ->
  exists x k1 k2, m = Ok (x, k1) /\ f x = Ok (y, k2) /\ n = k1 + k2.
Proof.
  destruct m as [[x k1]| |]; cbn; try done. destruct (f x) as [[y' k2]| |] eqn:E; cbn; try done.
  intros [= <- <-]. eauto 10.
Qed.
Lemma plain_Ok {X} (m : outcome X) x n : plain m = Ok (x, n) -> m = Ok x /\ n = 0.
Proof. destruct m; cbn; try done. by intros [= <- <-]. Qed.
Lemma untick_Ok {X} (m : ticked X) x : untick m = Ok x -> exists n, m = Ok (x, n).
Proof. destruct m as [[y n]| |]; cbn; try done. intros [= <-]. eauto. Qed.

Section buffer.
Context {A : Type}.
Implicit Types b : buf A.

(** Erasure. *)
Lemma alloc_erase b c f k : untick (buf_alloc_c b c f k) = Ok (buf_alloc b c f k).
Proof. unfold buf_alloc_c. by destruct (buf_alloc b c f k). Qed.
Lemma back_erase b k : untick (buf_alloc_back_c b k) = Ok (buf_alloc_back b k).
Proof.
  unfold buf_alloc_back_c, buf_alloc_back. destruct (_ =? _); [|done]. rewrite untick_bind, untick_if, !alloc_erase.
  destruct (b_cap b =? 0); cbn [mbind outcome_bind obind].
  - by destruct (buf_alloc b _ _ _) as [b' []].
  - by destruct (buf_alloc b _ _ _) as [b' []].
Qed.
Lemma buf_step_erase b o : untick (buf_step_c b o) = buf_step b o.
Proof.
  destruct o; cbn [buf_step_c]; try apply untick_plain; cbn [buf_step].
  - rewrite untick_bind. apply bind_ext; [|by intros []]. unfold buf_push_back_c, buf_push_back.
    rewrite untick_bind, back_erase. cbn [mbind outcome_bind obind].
    destruct (buf_alloc_back b ok) as [b' [i|]]; [|done]. by destruct (slot_set _ _ _).
  - rewrite untick_bind, alloc_erase. cbn [mbind outcome_bind obind]. by destruct (buf_alloc b _ _ _).
Qed.
Lemma buf_run_erase os : forall b, untick (buf_run_c b os) = buf_run b os.
Proof.
  induction os as [|o os IH]; intros b; [done|]. cbn [buf_run_c buf_run]. rewrite untick_bind, buf_step_erase.
  apply bind_ext; [done|]. intros [b1 r]. rewrite untick_bind, IH. apply bind_ext; [done|]. by intros [].
Qed.

(** A request that the allocator is asked for. *)
Lemma alloc_Ok b c f k b' r n : buf_alloc_c b c f k = Ok (b', r, n) ->
  b_sz b' = b_sz b /\ b_alloc b' = b_alloc b /\
  (r = OK /\ f = true /\ b_cap b' = c /\ n = min (b_cap b) c \/ r <> OK /\ b' = b /\ n = 0).
Proof.
  unfold buf_alloc_c, buf_alloc. destruct f; cbn [negb]; [|intros [= <- <- <-]; split_and!; try done; by right].
  destruct (negb (c =? 0) && negb k); intros [= <- <- <-]; cbn [b_sz b_alloc]; [split_and!; try done; by right|].
  split; [done|]. split; [done|]. left. split_and!; try done. unfold b_cap. cbn. apply realloc_length.
Qed.
Lemma back_Ok b k b' r n : b_sz b <= b_cap b -> buf_alloc_back_c b k = Ok (b', r, n) ->
  b_alloc b' = b_alloc b /\
  (r = None /\ b' = b /\ n = 0 \/
   is_Some r /\ b_sz b' = S (b_sz b) /\ b_cap b' = b_cap b /\ b_sz b < b_cap b /\ n = 0 \/
   is_Some r /\ b_sz b' = S (b_sz b) /\ b_cap b' = grown (b_cap b) /\ b_sz b = b_cap b /\ n = b_cap b /\ b_alloc b = true).
Proof.
  intros Hs. unfold buf_alloc_back_c. destruct (Nat.eqb_spec (b_sz b) (b_cap b)) as [E|E].
  - intros H. apply tbind_Ok in H as ([b1 r1] & k1 & k2 & H & H2 & ->).
    assert (b_sz b1 = b_sz b /\ b_alloc b1 = b_alloc b /\
      (r1 = OK /\ b_alloc b = true /\ b_cap b1 = grown (b_cap b) /\ k1 = b_cap b \/ r1 <> OK /\ b1 = b /\ k1 = 0)) as (S1 & S2 & Hc).
    { destruct (Nat.eqb_spec (b_cap b) 0) as [Z|Z]; apply alloc_Ok in H as (? & ? & [(? & ? & Hc & ?)|?]); (split; [done|]); (split; [done|]); auto;
        left; split_and!; try done.
      - by rewrite Hc, Z.
      - lia.
      - rewrite Hc. destruct (b_cap b); [done|]. cbn. lia.
      - lia. }
    destruct Hc as [(-> & Ha & C1 & C2)|(Hn & -> & ->)].
    + injection H2 as <- <- <-. cbn [b_alloc b_sz]. split; [done|]. right. right. split_and!; try done; try lia.
    + destruct r1; try done; injection H2 as <- <- <-; (split; [done|]); by left.
  - intros [= <- <- <-]. cbn [b_alloc b_sz]. split; [done|]. right. left. split_and!; try done; try lia.
Qed.

(** One call on a buffer. *)
Definition saved b : nat := 2 * b_sz b - b_cap b.
Lemma rep_sizes b v : rep b v -> b_sz b <= b_cap b /\ b_sz b = length (v_list v) /\ b_cap b = v_cap v.
Proof. intros H. pose proof (rep_sz _ _ H). by destruct H as (_ & ? & ? & _). Qed.
Lemma push_shape b p x b' (r : slotref) n :
  (s ← slot_set (b_slots b) p (Some x); Ok (Buf s (b_sz b) (b_alloc b), Some p, 0)) = Ok (b', r, n) ->
  b_sz b' = b_sz b /\ b_cap b' = b_cap b /\ b_alloc b' = b_alloc b /\ n = 0.
Proof.
  intros H. apply WordSame.bind_Ok in H as (s & Hs & [= <- <- <-]). apply WordSame.slot_set_length in Hs. done.
Qed.
Lemma buf_step_pays b v o v' r b' n : rep b v -> vec_step v o = Some (v', r) -> buf_step_c b o = Ok (b', r, n) -> rep b' v' ->
  n + saved b' <= 2 * asks o + saved b /\ n <= b_cap b /\ (b_alloc b = false -> 0 < n -> exists c f k, o = BReserve c f k).
Proof.
  intros Hr Hv H Hr'. apply rep_sizes in Hr as (S1 & S2 & S3). apply rep_sizes in Hr' as (T1 & T2 & T3). unfold saved.
  destruct v as [l c g]. cbn [v_list v_cap] in *.
  assert ((forall x k, o <> BPush x k) -> (forall c f k, o <> BReserve c f k) -> n = 0 /\ b_sz b' <= b_sz b /\ b_cap b' = b_cap b) as Hp.
  { intros N1 N2. destruct o; cbn [buf_step_c] in H; [by destruct (N1 x ok)|..]; try (by destruct (N2 cap has_fn ok));
      apply plain_Ok in H as [_ ->]; (split; [done|]); rewrite S2, S3, T2, T3; clear -Hv; cbn [vec_step] in Hv;
      repeat (case_match; try done); injection Hv as <- <-; cbn [v_list v_cap];
      rewrite ?take_length, ?insert_length; lia. }
  destruct o; cbn [asks] in *;
    try (destruct Hp as (-> & ? & ?); [done..|]; split_and!; [lia|lia|lia]).
  - clear Hp Hv. cbn [buf_step_c] in H. apply tbind_Ok in H as ([b1 r1] & k1 & k2 & H & [= <- <- <-] & ->).
    apply tbind_Ok in H as ([b2 r2] & k3 & k4 & H & H2 & ->). apply back_Ok in H as (Ha & H); [|lia].
    assert (b_sz b1 = b_sz b2 /\ b_cap b1 = b_cap b2 /\ k4 = 0) as (E1 & E2 & ->).
    { destruct r2 as [i|]; [|by injection H2 as <- <- <-]. by apply push_shape in H2 as (? & ? & ? & ?). }
    rewrite E1, E2. clear -H S1. destruct H as [(_ & -> & ->)|[(_ & -> & -> & ? & ->)|(_ & -> & -> & ? & -> & Hal)]].
    + split_and!; [lia|lia|lia].
    + split_and!; [lia|lia|lia].
    + split_and!; [|lia|by rewrite Hal]. unfold grown. destruct (b_cap b); lia.
  - clear Hp. cbn [buf_step_c] in H. apply tbind_Ok in H as ([b1 r1] & k1 & k2 & H & [= <- <- <-] & ->).
    apply alloc_Ok in H as (H1 & H2 & [(-> & -> & H3 & ->)|(Hn & -> & ->)]); split_and!; try lia; eauto.
Qed.
Lemma buf_run_pays os : forall b v v' rs, rep b v -> vec_run v os = Some (v', rs) ->
  exists b' n, buf_run_c b os = Ok (b', rs, n) /\ n + saved b' <= 2 * total asks os + saved b.
Proof.
  induction os as [|o os IH]; intros b v v' rs Hr; cbn [vec_run buf_run_c].
  { intros [= <- <-]. exists b, 0. split; [done|]. cbn. lia. }
  destruct (vec_step v o) as [[v1 r]|] eqn:E1; [|done]. cbn. destruct (vec_run v1 os) as [[v2 rs']|] eqn:E2; [|done].
  cbn. intros [= <- <-]. destruct (step_refines b v o v1 r Hr E1) as (b1 & H1 & Hr1).
  rewrite <- buf_step_erase in H1. apply untick_Ok in H1 as [n1 H1]. rewrite H1. cbn [tbind mbind outcome_bind obind total].
  destruct (IH b1 v1 v2 rs' Hr1 E2) as (b2 & n2 & -> & Hn2). cbn [tbind mbind outcome_bind obind].
  destruct (buf_step_pays b v o v1 r b1 n1 Hr E1 H1 Hr1) as (Hn1 & _). exists b2, (n1 + (n2 + 0)). split; [done|]. unfold saved in *. lia.
Qed.
Lemma buf_history cap grow os v rs : vec_run (Vec [] cap grow) os = Some (v, rs) ->
  exists b n, buf_run_c (fresh_buf (A:=A) cap grow) os = Ok (b, rs, n) /\ n <= 2 * total asks os.
Proof.
  intros H. destruct (buf_run_pays os _ _ _ _ (rep_fresh cap grow) H) as (b & n & H1 & H2).
  exists b, n. split; [done|]. unfold saved in H2. cbn in H2. lia.
Qed.
Lemma buf_last_call cap grow os v rs o v' r : vec_run (Vec [] cap grow) os = Some (v, rs) -> vec_step v o = Some (v', r) ->
  exists b b' n, buf_run (fresh_buf (A:=A) cap grow) os = Ok (b, rs) /\ buf_step_c b o = Ok (b', r, n) /\
    n <= v_cap v /\ (v_grow v = false -> 0 < n -> exists c f k, o = BReserve c f k).
Proof.
  intros H Ho. destruct (run_refines _ _ _ _ _ (rep_fresh cap grow) H) as (b & H1 & Hr).
  destruct (step_refines b v o v' r Hr Ho) as (b' & H2 & Hr'). rewrite <- buf_step_erase in H2. apply untick_Ok in H2 as [n H2].
  destruct (buf_step_pays b v o v' r b' n Hr Ho H2 Hr') as (_ & Hn & Hg). exists b, b', n. split; [done|]. split; [done|].
  pose proof (rep_sizes b v Hr) as (_ & _ & <-). split; [done|]. intros Hf. apply Hg. by destruct Hr as (_ & _ & _ & ->).
Qed.
End buffer.

Section heap.
Context {A : Type} (cmp : A -> A -> comparison) (order : comparison).
Implicit Types b : buf A.

Lemma fpq_step_erase b o : untick (fpq_step_c cmp order b o) = fpq_step cmp order b o.
Proof.
  destruct o; cbn [fpq_step_c]; try apply untick_plain; cbn [fpq_step]; rewrite untick_bind; apply bind_ext.
  - unfold fpq_push_c, fpq_push. rewrite untick_bind, untick_if, alloc_erase.
    assert (untick (Ok (b, OK, 0)) = Ok (b, OK)) as -> by done.
    destruct (_ <=? _); cbn [mbind outcome_bind obind].
    + destruct (buf_alloc b _ _ _) as [b1 r]. destruct r; try done. rewrite untick_bind, back_erase. cbn [mbind outcome_bind obind].
      destruct (buf_alloc_back b1 ok) as [b2 [i|]]; [|done]. by rewrite untick_plain.
    + rewrite untick_bind, back_erase. cbn [mbind outcome_bind obind].
      destruct (buf_alloc_back b ok) as [b2 [i|]]; [|done]. by rewrite untick_plain.
  - intros [b' r]. by rewrite untick_obind.
  - unfold fpq_heapify_c, fpq_heapify. cbv zeta. rewrite untick_bind, untick_if, alloc_erase.
    assert (untick (Ok (b, OK, 0)) = Ok (b, OK)) as -> by done.
    destruct (_ <? _); cbn [mbind outcome_bind obind].
    + destruct (buf_alloc b _ _ _) as [b1 r]. destruct r; try done. by rewrite untick_plain.
    + by rewrite untick_plain.
  - by intros [].
Qed.
Lemma fpq_run_erase os : forall b, untick (fpq_run_c cmp order b os) = fpq_run cmp order b os.
Proof.
  induction os as [|o os IH]; intros b; [done|]. cbn [fpq_run_c fpq_run]. destruct (handle_ok b o); [|done].
  rewrite untick_bind, fpq_step_erase.
  apply bind_ext; [done|]. intros [b1 r]. rewrite untick_bind, IH. apply bind_ext; [done|]. by intros [].
Qed.

(** The calls that do not ask for memory. *)
Definition kept b b' : Prop := b_cap b' = b_cap b /\ b_sz b' <= b_sz b /\ b_alloc b' = b_alloc b.
Lemma kept_refl b : kept b b.
Proof. unfold kept. auto with lia. Qed.
Lemma kept_set b n : n <= b_sz b -> kept b (set_size b n).
Proof. by unfold kept. Qed.
Lemma kept_trans b1 b2 b3 : kept b1 b2 -> kept b2 b3 -> kept b1 b3.
Proof. unfold kept. intros (? & ? & ?) (? & ? & ?). split_and!; try congruence. lia. Qed.
Lemma kept_swap b t i j b' : swap b t i j = Ok b' -> kept b b'.
Proof. intros H. apply WordSame.swap_shape in H as (? & ? & ?). unfold kept. split_and!; try done. lia. Qed.
Lemma kept_up b t i b' j : up cmp order b t i = Ok (b', j) -> kept b b'.
Proof. intros H. apply WordSame.bubble_up_shape in H as (? & ? & ?). unfold kept. split_and!; try done. lia. Qed.
Lemma kept_down b t i b' j : down cmp order b t i = Ok (b', j) -> kept b b'.
Proof. intros H. apply WordSame.bubble_down_shape in H as (? & ? & ?). unfold kept. split_and!; try done. lia. Qed.

Lemma pop_kept b b' r : fpq_pop cmp order b = Ok (b', r) -> kept b b'.
Proof.
  unfold fpq_pop. destruct (_ =? 0); [intros [= <- <-]; apply kept_refl|].
  destruct (_ =? 1); [intros [= <- <-]; apply kept_set; lia|].
  intros H. apply WordSame.bind_Ok in H as (b1 & H1 & H). apply WordSame.bind_Ok in H as ([b3 j] & H2 & [= <- <-]).
  apply kept_swap in H1. apply kept_down in H2. eapply kept_trans; [done|]. eapply kept_trans; [|done]. apply kept_set. lia.
Qed.
Lemma erase_kept b e b' r : fpq_erase cmp order b e = Ok (b', r) -> kept b b'.
Proof.
  unfold fpq_erase. destruct (_ =? 0); [intros [= <- <-]; apply kept_refl|].
  destruct (_ =? 1); [intros [= <- <-]; apply kept_set; lia|].
  intros H. apply WordSame.bind_Ok in H as ([] & _ & H). destruct (_ =? _); [injection H as <- <-; apply kept_set; lia|].
  apply WordSame.bind_Ok in H as (b1 & H1 & H). apply kept_swap in H1.
  apply WordSame.bind_Ok in H as (x & _ & H). apply WordSame.bind_Ok in H as (y & _ & H).
  assert (kept b (set_size b1 (b_sz b1 - 1))) as Hk by (eapply kept_trans; [done|apply kept_set; lia]).
  destruct (is_order _ _).
  { apply WordSame.bind_Ok in H as ([b3 j] & H2 & [= <- <-]). apply kept_up in H2. by eapply kept_trans. }
  destruct (cmp x y); [by injection H as <- <-|..];
    (apply WordSame.bind_Ok in H as ([b3 j] & H2 & [= <- <-]); apply kept_down in H2; by eapply kept_trans).
Qed.
Lemma update_kept b e f b' r : fpq_update cmp order b e f = Ok (b', r) -> kept b b'.
Proof.
  unfold fpq_update. destruct (_ =? 0); [intros [= <- <-]; apply kept_refl|].
  intros H. apply WordSame.bind_Ok in H as (x & _ & H). apply WordSame.bind_Ok in H as (s & Hs & H).
  apply WordSame.bind_Ok in H as ([b1 j] & H & [= <- <-]). apply WordSame.slot_set_length in Hs.
  assert (kept b (set_slots b s)) as Hk by (unfold kept, set_slots, b_cap; cbn; split_and!; try done).
  eapply kept_trans; [exact Hk|]. clear Hk Hs. revert H. generalize (set_slots b s). clear b s x. intros b H.
  unfold update_fixup in H. apply WordSame.bind_Ok in H as ([] & _ & H). destruct (_ =? 0); [by apply kept_down in H|].
  apply WordSame.bind_Ok in H as (x & _ & H). apply WordSame.bind_Ok in H as (y & _ & H).
  destruct (is_order _ _); [by apply kept_up in H|].
  destruct (cmp x y); [injection H as <- <-; apply kept_refl|..]; by apply kept_down in H.
Qed.

(** The slots saved for the next growth; the queue grows one slot before it is full. *)
Definition stored b : nat := if b_cap b =? 0 then 0 else 2 * b_sz b + 1 - b_cap b.
Lemma kept_stored b b' : kept b b' -> stored b' <= stored b.
Proof. unfold kept, stored. intros (-> & ? & _). destruct (_ =? 0); lia. Qed.

Lemma fpq_step_pays b o b' r n : b_sz b <= b_cap b -> fpq_step_c cmp order b o = Ok (b', r, n) ->
  b_sz b' <= b_cap b' /\ n + stored b' <= 2 * passes o + stored b /\ n <= b_cap b /\ (b_alloc b = false -> n = 0) /\
  b_alloc b' = b_alloc b.
Proof.
  intros Hs H.
  assert (kept b b' -> n = 0 -> b_sz b' <= b_cap b' /\ n + stored b' <= 2 * passes o + stored b /\ n <= b_cap b /\ (b_alloc b = false -> n = 0) /\
    b_alloc b' = b_alloc b) as Hk.
  { intros Hk ->. pose proof (kept_stored _ _ Hk). destruct Hk as (? & ? & ?). split_and!; try done; lia. }
  destruct o; cbn [fpq_step_c passes] in *.
  - clear Hk. apply tbind_Ok in H as ([b1 r1] & k1 & k2 & H & H2 & ->). apply WordSame.bind_Ok in H2 as (v & _ & [= <- <- <-]).
    apply tbind_Ok in H as ([b2 r2] & k3 & k4 & H1 & H & ->).
    assert (b_sz b2 = b_sz b /\ b_alloc b2 = b_alloc b /\
      (r2 = OK /\ b_cap b2 = b_cap b /\ k3 = 0 /\ (b_cap b = 0 \/ b_sz b + 1 < b_cap b) \/
       r2 = OK /\ b_cap b2 = b_cap b * 2 /\ b_cap b <= b_sz b + 1 /\ b_cap b <> 0 /\ k3 = b_cap b /\ b_alloc b = true \/ r2 <> OK /\ b2 = b /\ k3 = 0))
      as (S1 & S2 & S3).
    { destruct (Nat.leb_spec (b_cap b) (b_sz b + 1)).
      - apply alloc_Ok in H1 as (? & ? & [(-> & ? & ? & ->)|(? & -> & ->)]); (split; [done|]); (split; [done|]).
        + destruct (decide (b_cap b = 0)) as [Z|Z]; [left|right; left]; split_and!; try done; try lia.
        + auto.
      - injection H1 as <- <- <-. split; [done|]. split; [done|]. left. split_and!; try done. lia. }
    assert (r2 = OK -> b_sz b2 <= b_cap b2 -> b_alloc b1 = b_alloc b2 /\
      (b_sz b1 = b_sz b2 /\ b_cap b1 = b_cap b2 /\ k4 = 0 \/
       b_sz b1 = S (b_sz b2) /\ b_cap b1 = b_cap b2 /\ b_sz b2 < b_cap b2 /\ k4 = 0 \/
       b_sz b1 = S (b_sz b2) /\ b_cap b1 = grown (b_cap b2) /\ b_sz b2 = b_cap b2 /\ k4 = b_cap b2 /\ b_alloc b2 = true)) as Hb.
    { intros -> Hle. apply tbind_Ok in H as ([b3 [p|]] & k5 & k6 & H3 & H & ->); apply back_Ok in H3 as (E & H3); try done.
      - apply plain_Ok in H as (H & ->). apply WordSame.settle_shape in H as (-> & -> & ->). rewrite Nat.add_0_r.
        split; [done|]. destruct H3 as [(? & _)|[(_ & -> & -> & ? & ->)|(_ & -> & -> & ? & -> & ?)]]; [done|right; left; auto|right; right; auto].
      - injection H as <- <- <-. rewrite Nat.add_0_r. split; [done|].
        destruct H3 as [(? & -> & ->)|[([? ?] & _)|([? ?] & _)]]; try done. by left. }
    destruct S3 as [(-> & C1 & -> & C2)|[(-> & C1 & C2 & C3 & -> & C4)|(Hn & -> & ->)]].
    + destruct Hb as (E & Hb); [done|lia|]. rewrite S2 in E. unfold stored. rewrite C1, S1 in Hb.
      destruct Hb as [(-> & -> & ->)|[(-> & -> & ? & ->)|(-> & -> & ? & -> & ?)]].
      * split_and!; try done; try lia; destruct (Nat.eqb_spec (b_cap b) 0); lia.
      * split_and!; try done; try lia; destruct (Nat.eqb_spec (b_cap b) 0); lia.
      * destruct C2 as [Z|Z]; [|lia]. rewrite Z in *. cbn [grown Nat.eqb]. split_and!; try done; lia.
    + destruct Hb as (E & Hb); [done|lia|]. rewrite S2 in E. unfold stored. rewrite C1, S1 in Hb.
      assert ((b_cap b =? 0) = false) as -> by (apply Nat.eqb_neq; lia).
      destruct Hb as [(-> & -> & ->)|[(-> & -> & ? & ->)|(-> & -> & ? & -> & ?)]]; [| |lia].
      * destruct (Nat.eqb_spec (b_cap b * 2) 0); split_and!; try done; try lia; try (intros; congruence).
      * destruct (Nat.eqb_spec (b_cap b * 2) 0); split_and!; try done; try lia; try (intros; congruence).
    + destruct r2; try done; injection H as <- <- <-; split_and!; try done; lia.
  - apply plain_Ok in H as (H & ->). apply WordSame.bind_Ok in H as ([b1 r1] & H & [= <- <-]). apply Hk; [|done]. by eapply pop_kept.
  - apply plain_Ok in H as (H & ->). apply WordSame.bind_Ok in H as ([b1 r1] & H & [= <- <-]). apply Hk; [|done]. by eapply erase_kept.
  - apply plain_Ok in H as (H & ->). apply WordSame.bind_Ok in H as ([b1 r1] & H & H2). apply WordSame.bind_Ok in H2 as (v & _ & [= <- <-]).
    apply Hk; [|done]. by eapply update_kept.
  - clear Hk. apply tbind_Ok in H as ([b1 r1] & k1 & k2 & H & [= <- <- <-] & ->). unfold fpq_heapify_c in H. cbv zeta in H.
    apply tbind_Ok in H as ([b2 r2] & k3 & k4 & H1 & H & ->).
    assert (b_sz b2 = b_sz b /\ b_alloc b2 = b_alloc b /\
      (r2 = OK /\ length l + 1 <= b_cap b2 /\ k3 <= length l /\ k3 <= b_cap b /\ (b_alloc b = false -> k3 = 0) \/ r2 <> OK /\ b2 = b /\ k3 = 0))
      as (S1 & S2 & S3).
    { destruct (Nat.ltb_spec (b_cap b) (length l + 1)).
      - apply alloc_Ok in H1 as (? & ? & [(-> & Ha & ? & ->)|(? & -> & ->)]); (split; [done|]); (split; [done|]).
        + left. split_and!; try done; try lia. by rewrite Ha.
        + auto.
      - injection H1 as <- <- <-. split; [done|]. split; [done|]. left. split_and!; try done; lia. }
    destruct S3 as [(-> & C1 & C2 & C3 & C4)|(Hn & -> & ->)].
    + apply plain_Ok in H as (H & ->). apply WordSame.bind_Ok in H as (s & Hc & H). apply WordSame.bind_Ok in H as (b3 & H & [= <- <-]).
      apply WordSame.heapify_shape in H as (E1 & E2 & E3). apply WordSame.copy_in_length in Hc.
      cbn [b_sz b_alloc] in *. assert (b_cap b3 = b_cap b2) as Ec by (rewrite E1; exact Hc).
      unfold stored. rewrite Ec, E2, E3. destruct (Nat.eqb_spec (b_cap b2) 0); split_and!; try done; try lia; intros Ha; rewrite (C4 Ha); lia.
    + destruct r2; try done; injection H as <- <- <-; split_and!; try done; lia.
  - apply plain_Ok in H as (H & ->). injection H as <- <-. apply Hk; [|done]. apply kept_set. lia.
  - apply plain_Ok in H as (H & ->). apply WordSame.bind_Ok in H as (v & _ & [= <- <-]). apply Hk; [|done]. apply kept_refl.
  - apply plain_Ok in H as (H & ->). injection H as <- <-. apply Hk; [|done]. apply kept_refl.
  - apply plain_Ok in H as (H & ->). apply WordSame.bind_Ok in H as (v & _ & [= <- <-]). apply Hk; [|done]. apply kept_refl.
Qed.

Lemma fpq_run_pays os : forall b b' tr n, b_sz b <= b_cap b -> fpq_run_c cmp order b os = Ok (b', tr, n) ->
  n + stored b' <= 2 * total passes os + stored b /\ (b_alloc b = false -> n = 0).
Proof.
  induction os as [|o os IH]; intros b b' tr n Hs; cbn [fpq_run_c total].
  { intros [= <- <- <-]. split; [lia|done]. }
  destruct (handle_ok b o).
  - intros H. apply tbind_Ok in H as ([b1 r] & k1 & k2 & H1 & H & ->). apply tbind_Ok in H as ([b2 rs'] & k3 & k4 & H2 & [= <- <- <-] & ->).
    apply fpq_step_pays in H1 as (P1 & P2 & _ & P3 & P4); [|done]. apply IH in H2 as (Q1 & Q2); [|done]. split; [lia|].
    intros Ha. rewrite P3, Q2 by congruence; done.
  - intros H. apply IH in H as (Q1 & Q2); [|done]. split; [lia|done].
Qed.
Lemma fpq_history (Hc : OrderSpec.total_preorder cmp) (Ho : order <> Eq) cap grow os :
  exists b tr n, fpq_run_c cmp order (fresh_fpq cap grow) os = Ok (b, tr, n) /\ n <= 2 * total passes os /\ (grow = false -> n = 0).
Proof.
  destruct (run_Ok cmp order Hc Ho os (fresh_fpq cap grow) [] (fresh_ok cmp order cap grow)) as (b & c & tr & H & _).
  rewrite <- fpq_run_erase in H. apply untick_Ok in H as [n H]. exists b, tr, n. split; [done|].
  assert (b_cap (fresh_fpq (A:=A) cap grow) = cap) as Hcap by apply replicate_length.
  apply fpq_run_pays in H as (H1 & H2); [|cbn; lia]. split; [|done]. unfold stored in H1. rewrite Hcap in H1. cbn [fresh_fpq b_sz] in H1.
  destruct (Nat.eqb_spec cap 0); lia.
Qed.
End heap.
