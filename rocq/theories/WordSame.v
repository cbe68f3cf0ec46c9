(** The sizes of the models that take them as natural numbers are the sizes in 64
    bits, as long as the memory of a container has the size it should have. *)
From stdpp Require Import base numbers list.
From Verif Require Import Common BufferModel FdeqModel FpqModel WordModel WordSpec WordProofs.
From Verif Require FhmModel FhmSpec FhmMapProofs FlatModel FrmModel FomModel.
Local Open Scope Z_scope.

Lemma bind_Ok {X Y} (m : outcome X) (f : X -> outcome Y) y :
  (x ← m; f x) = Ok y -> exists x, m = Ok x /\ f x = Ok y.
Proof. destruct m as [x| |]; cbn; intros H; try done. by exists x. Qed.
Lemma slot_set_length {X} (l l' : list X) i x : slot_set l i x = Ok l' -> length l' = length l.
Proof. unfold slot_set. destruct (_ <? _)%nat; intros [= <-]; try done. by rewrite insert_length. Qed.
Lemma copy_in_length {X} (l l' : slots X) i vs : copy_in l i vs = Ok l' -> length l' = length l.
Proof.
  unfold copy_in. destruct (Nat.leb_spec (i + length vs) (length l)); intros [= <-].
  rewrite !app_length, take_length, drop_length. lia.
Qed.

Lemma same_eqb (m n : nat) : (Z.of_nat m =? Z.of_nat n) = (m =? n)%nat.
Proof. destruct (Nat.eqb_spec m n), (Z.eqb_spec (Z.of_nat m) (Z.of_nat n)); lia || done. Qed.
Lemma same_eqb0 (m : nat) : (Z.of_nat m =? 0) = (m =? 0)%nat.
Proof. apply (same_eqb m 0). Qed.
Lemma same_ltb (m n : nat) : (Z.of_nat m <? Z.of_nat n) = (m <? n)%nat.
Proof. destruct (Nat.ltb_spec m n), (Z.ltb_spec (Z.of_nat m) (Z.of_nat n)); lia || done. Qed.
Lemma same_leb (m n : nat) : (Z.of_nat m <=? Z.of_nat n) = (m <=? n)%nat.
Proof. destruct (Nat.leb_spec m n), (Z.leb_spec (Z.of_nat m) (Z.of_nat n)); lia || done. Qed.

(** Byte offset of a slot. *)
Definition offset (e : Z) (i : nat) : Z := e * Z.of_nat i.

Lemma small_word s z : fits s -> 0 <= z <= 16 * limit - 16 -> word z = z.
Proof. intros _ Hz. apply word_id. rewrite modulus, limit_val in *. lia. Qed.

Section buffer.
Context {A : Type}.
Implicit Types b : buf A.

Lemma same_alloc_back s b yes : fits s -> as_buf s b ->
  as_buf (st (w_alloc_back s yes)) (fst (buf_alloc_back b yes)) /\
  slot (w_alloc_back s yes) = offset (elem s) <$> snd (buf_alloc_back b yes).
Proof.
  intros Hf Hb. pose proof Hb as (Hc & Hn & Hp). pose proof (double_small s Hf) as [Hd Hd'].
  pose proof (fits_small s Hf) as (Sc & Sn & Se). pose proof (fits_cap s Hf) as Fc. pose proof (fits_block s Hf) as Fb.
  pose proof (fits_count s Hf) as Fn.
  assert (word (count s + 1) = count s + 1) as Ew. { apply word_id. rewrite modulus, limit_val in *. lia. }
  assert (word (elem s * count s) = elem s * count s) as Ew2. { apply word_id. rewrite modulus, limit_val in *. nia. }
  unfold w_alloc_back, buf_alloc_back. rewrite Hc, Hn, same_eqb, same_eqb0. destruct (b_sz b =? b_cap b)%nat.
  - assert ((if (b_cap b =? 0)%nat then 8 else word (Z.of_nat (b_cap b) * 2)) =
            Z.of_nat (if (b_cap b =? 0)%nat then start_capacity else b_cap b * 2)%nat) as ->.
    { rewrite <- Hc, Hd, Hc. unfold start_capacity. destruct (b_cap b =? 0)%nat; lia. }
    assert ((if (b_cap b =? 0)%nat then buf_alloc b start_capacity (b_alloc b) yes
             else buf_alloc b (b_cap b * 2) (b_alloc b) yes) =
            buf_alloc b (if (b_cap b =? 0)%nat then start_capacity else b_cap b * 2)%nat (b_alloc b) yes) as ->.
    { by destruct (b_cap b =? 0)%nat. }
    remember (if (b_cap b =? 0)%nat then start_capacity else b_cap b * 2)%nat as c eqn:Ec.
    assert (elem s * Z.of_nat c < 2 ^ 64) as Hlt.
    { subst c. unfold start_capacity. rewrite modulus, limit_val in *. destruct (Nat.eqb_spec (b_cap b) 0); lia. }
    rewrite Hp. destruct (same_alloc s b c (b_alloc b) yes Hf Hb Hlt) as [Hs Ha].
    assert (elem (st (w_alloc s (Z.of_nat c) (b_alloc b) yes)) = elem s) as He.
    { unfold w_alloc. destruct (b_alloc b); [|done]. cbn [negb]. by destruct (_ && _). }
    assert (count (st (w_alloc s (Z.of_nat c) (b_alloc b) yes)) = count s) as Hk.
    { unfold w_alloc. destruct (b_alloc b); [|done]. cbn [negb]. by destruct (_ && _). }
    assert (slot (w_alloc s (Z.of_nat c) (b_alloc b) yes) = None) as Hsl.
    { unfold w_alloc. destruct (b_alloc b); [|done]. cbn [negb]. by destruct (_ && _). }
    destruct (buf_alloc b c (b_alloc b) yes) as [b' r]. cbn [fst snd] in *. rewrite Ha. destruct Hs as (Q1 & Q2 & Q3).
    rewrite Hk in Q2. destruct r; cbn [st slot fst snd]; try by (split; [split_and!; congruence|rewrite Hsl]).
    rewrite He, Hk, Ew, Ew2. split.
    + unfold as_buf, sized, b_cap, set_count in *. cbn. split_and!; try done. lia.
    + cbn. f_equal. unfold offset. congruence.
  - cbn [plainly ans st slot asked fst snd]. rewrite Ew, Ew2. split.
    + unfold as_buf, sized, b_cap, set_count in *. cbn. split_and!; try done. lia.
    + cbn. f_equal. unfold offset. congruence.
Qed.

Lemma same_deque s (d : fdeq A) n yes d' r : fits s -> as_buf s (d_buf d) -> elem s * Z.of_nat n <= limit ->
  maybe_resize d n yes = Ok (d', r) ->
  as_buf (st (w_deque s (Z.of_nat n) yes)) (d_buf d') /\ ans (w_deque s (Z.of_nat n) yes) = r.
Proof.
  intros Hf Hb Hlim. pose proof Hb as (Hc & Hn & Hp).
  pose proof (fits_small s Hf) as (Sc & Sn & Se).
  pose proof (le_product _ _ _ (proj1 Se) (Nat2Z.is_nonneg n) Hlim) as Hn2.
  unfold w_deque, maybe_resize.
  rewrite !(small_word s) by (done || rewrite ?(small_word s) by (done || rewrite limit_val in *; lia); rewrite limit_val in *; lia).
  fold (d_cap d) (d_sz d) (d_alloc d) in *. rewrite Hc, Hn, Hp, <- !Nat2Z.inj_add, same_ltb, same_eqb0.
  destruct (_ <? _)%nat; [by intros [= <- <-]|]. destruct (d_alloc d) eqn:Hal; cbn [negb]; [|by intros [= <- <-]].
  destruct yes; cbn [negb]; [|by intros [= <- <-]].
  intros H. apply bind_Ok in H as (m & Hm & [= <- <-]). split; [|done].
  unfold as_buf, sized, b_cap. cbn. split_and!; try done.
  assert (length m = length (replicate (if (d_cap d =? 0)%nat then start_capacity else ((d_cap d + n) * 2)%nat) (None : option A))) as ->.
  { destruct (d_sz d =? 0)%nat; [by injection Hm as <-|]. unfold unroll in Hm.
    apply bind_Ok in Hm as (c1 & _ & Hm). apply bind_Ok in Hm as (m1 & Hm1 & Hm). apply copy_in_length in Hm1.
    destruct (_ <? _)%nat; [|by injection Hm as <-].
    apply bind_Ok in Hm as (c2 & _ & Hm). apply copy_in_length in Hm. congruence. }
  rewrite replicate_length. unfold start_capacity. destruct (d_cap d =? 0)%nat; lia.
Qed.

Context (cmp : A -> A -> comparison) (order : comparison).

Lemma swap_shape b t i j b' : swap b t i j = Ok b' -> b_cap b' = b_cap b /\ b_sz b' = b_sz b /\ b_alloc b' = b_alloc b.
Proof.
  unfold swap. destruct t as [t|]; [|done]. destruct (_ || _); [done|].
  intros H. apply bind_Ok in H as (xi & _ & H). apply bind_Ok in H as (s1 & H1 & H). apply bind_Ok in H as (xj & _ & H).
  apply bind_Ok in H as (s2 & H2 & H). apply bind_Ok in H as (xt & _ & H). apply bind_Ok in H as (s3 & H3 & [= <-]).
  apply slot_set_length in H1, H2, H3. unfold b_cap, set_slots. cbn. split_and!; try done. congruence.
Qed.

Lemma bubble_up_shape f : forall b t i b' j, bubble_up cmp order f b t i = Ok (b', j) ->
  b_cap b' = b_cap b /\ b_sz b' = b_sz b /\ b_alloc b' = b_alloc b.
Proof.
  induction f as [|f IH]; intros b t [|i] b' j; cbn [bubble_up]; try done; try by intros [= <- <-].
  intros H. apply bind_Ok in H as (w & _ & H). destruct w; [|by injection H as <- <-].
  apply bind_Ok in H as (b1 & Hs & H). apply swap_shape in Hs as (? & ? & ?). apply IH in H as (? & ? & ?).
  split_and!; congruence.
Qed.

Lemma bubble_down_shape f : forall b t i b' j, bubble_down cmp order f b t i = Ok (b', j) ->
  b_cap b' = b_cap b /\ b_sz b' = b_sz b /\ b_alloc b' = b_alloc b.
Proof.
  induction f as [|f IH]; intros b t i b' j; cbn [bubble_down]; (destruct (_ <=? _)%nat; [by intros [= <- <-]|]); [done|].
  intros H. apply bind_Ok in H as (n & _ & H). apply bind_Ok in H as (w & _ & H). destruct w; [|by injection H as <- <-].
  apply bind_Ok in H as (b1 & Hs & H). apply swap_shape in Hs as (? & ? & ?). apply IH in H as (? & ? & ?).
  split_and!; congruence.
Qed.

Lemma heapify_shape k : forall b t b', heapify_loop cmp order k b t = Ok b' ->
  b_cap b' = b_cap b /\ b_sz b' = b_sz b /\ b_alloc b' = b_alloc b.
Proof.
  induction k as [|k IH]; intros b t b'; cbn [heapify_loop]; [by intros [= <-]|].
  intros H. apply bind_Ok in H as ([b1 j] & Hd & H). apply bubble_down_shape in Hd as (? & ? & ?).
  apply IH in H as (? & ? & ?). split_and!; congruence.
Qed.

(** The end of push and emplace: the element is put into its slot and moved up. *)
Lemma settle_shape b p e b' sl :
  (s ← slot_set (b_slots b) p (Some e);
   let b3 := set_slots b s in
   if (1 <? b_sz b3)%nat then
     '(b4, i) ← up cmp order b3 (buf_at b3 (b_sz b3)) (b_sz b3 - 1);
     Ok (b4, buf_at b4 i)
   else Ok (b3, buf_at b3 0)) = Ok (b', sl) ->
  b_cap b' = b_cap b /\ b_sz b' = b_sz b /\ b_alloc b' = b_alloc b.
Proof.
  intros H. apply bind_Ok in H as (s & Hs & H). apply slot_set_length in Hs. cbn zeta in H.
  assert (b_cap (set_slots b s) = b_cap b) as Hc by (unfold b_cap, set_slots; cbn; congruence).
  destruct (_ <? _)%nat.
  - apply bind_Ok in H as ([b4 i] & Hu & [= <- _]). apply bubble_up_shape in Hu as (? & ? & ?).
    cbn in *. split_and!; congruence.
  - injection H as <- _. done.
Qed.

Lemma as_buf_shape s b b' : as_buf s b -> b_cap b' = b_cap b /\ b_sz b' = b_sz b /\ b_alloc b' = b_alloc b -> as_buf s b'.
Proof. intros (? & ? & ?) (? & ? & ?). unfold as_buf, sized. split_and!; congruence. Qed.

Lemma same_push s b e yes b' sl : fits s -> as_buf s b -> granted (asked (w_heap_push s yes)) yes ->
  fpq_push cmp order b e yes = Ok (b', sl) ->
  as_buf (st (w_heap_push s yes)) b'.
Proof.
  intros Hf Hb Hg. pose proof Hb as (Hc & Hn & Hp). pose proof (double_small s Hf) as [Hd Hd'].
  pose proof (fits_small s Hf) as (Sc & Sn & Se). pose proof (fits_count s Hf) as Fn.
  unfold w_heap_push, fpq_push in *. rewrite Hd in *.
  rewrite (small_word s) in * by (done || rewrite limit_val in *; lia).
  assert ((cap s <=? count s + 1) = (b_cap b <=? b_sz b + 1)%nat) as E.
  { rewrite Hc, Hn. change 1 with (Z.of_nat 1). by rewrite <- Nat2Z.inj_add, same_leb. }
  rewrite E in *.
  remember (if (b_cap b <=? b_sz b + 1)%nat then w_alloc s (cap s * 2) (perm s) yes else plainly OK s) as r eqn:Er.
  destruct (if (b_cap b <=? b_sz b + 1)%nat then buf_alloc b (b_cap b * 2) (b_alloc b) yes else (b, OK)) as [b1 r1] eqn:E1.
  assert (as_buf (st r) b1 /\ ans r = r1 /\ (granted (asked r) yes -> good s r)) as (Hb1 & Ha & Hgood).
  { subst r. destruct (_ <=? _)%nat.
    - replace (cap s * 2) with (Z.of_nat (b_cap b * 2)) in * by lia.
      rewrite Hp. destruct (same_alloc s b (b_cap b * 2) (b_alloc b) yes Hf Hb Hd') as [Q1 Q2]. rewrite E1 in *.
      split_and!; try done. intros Hg'. apply alloc_good; try done. lia.
    - injection E1 as <- <-. split_and!; try done. intros _. by apply good_plainly. }
  rewrite Ha in *. destruct r1; try by intros [= <- <-].
  cbn in Hg. apply granted_app in Hg as [Hg1 Hg2]. specialize (Hgood Hg1).
  destruct (same_alloc_back (st r) b1 yes (proj1 Hgood) Hb1) as [Q1 Q2].
  destruct (buf_alloc_back b1 yes) as [b2 new]. cbn [fst snd] in *. destruct new as [p|]; [|by intros [= <- <-]].
  intros H. cbn [st]. eapply as_buf_shape; [exact Q1|]. by eapply settle_shape.
Qed.

Lemma same_emplace s b e yes b' sl : fits s -> as_buf s b -> granted (asked (w_heap_emplace s yes)) yes ->
  fpq_emplace cmp order b e yes = Ok (b', sl) ->
  as_buf (st (w_heap_emplace s yes)) b'.
Proof.
  intros Hf Hb Hg. unfold w_heap_emplace, fpq_emplace in *.
  destruct (same_alloc_back s b yes Hf Hb) as [Q1 Q2].
  assert (granted (asked (w_alloc_back s yes)) yes) as Hg1.
  { destruct (_ =? _); [|done]. cbn in Hg. by apply granted_app in Hg as [? _]. }
  destruct (alloc_back_good s yes Hf Hg1) as (F & He & Hp & _).
  remember (w_alloc_back s yes) as r eqn:Er. clear Er. destruct (buf_alloc_back b yes) as [b1 new]. cbn [fst snd] in *.
  pose proof Q1 as (Hc & Hn & Hal). rewrite Hc, Hn, same_eqb in *.
  destruct (b_sz b1 =? b_cap b1)%nat eqn:E.
  - pose proof (double_small _ F) as [Hd Hd']. rewrite Hc in Hd, Hd'. rewrite Hd in *.
    replace (Z.of_nat (b_cap b1) * 2) with (Z.of_nat (b_cap b1 * 2)) in * by lia. rewrite <- Hp, Hal in *.
    destruct (same_alloc (st r) b1 (b_cap b1 * 2) (b_alloc b1) yes F Q1 Hd') as [P1 P2].
    destruct (buf_alloc b1 (b_cap b1 * 2) (b_alloc b1) yes) as [b2 r2]. cbn [fst snd st] in *.
    intros H. destruct r2; try by injection H as <- <-.
    destruct (buf_back b2) as [p|]; [|by injection H as <- <-].
    eapply as_buf_shape; [exact P1|]. by eapply settle_shape.
  - destruct new as [p|]; [|by intros [= <- <-]]. intros H. eapply as_buf_shape; [exact Q1|]. by eapply settle_shape.
Qed.

Lemma same_heapify s b (l : list A) yes b' r : fits s -> as_buf s b ->
  elem s * Z.of_nat (length l) <= limit ->
  fpq_heapify cmp order b l yes = Ok (b', r) ->
  as_buf (st (w_heapify s (Z.of_nat (length l)) yes)) b' /\ ans (w_heapify s (Z.of_nat (length l)) yes) = r.
Proof.
  intros Hf Hb Hlim. pose proof Hb as (Hc & Hn & Hp). pose proof (fits_small s Hf) as (Sc & Sn & Se).
  pose proof (le_product _ _ _ (proj1 Se) (Nat2Z.is_nonneg (length l)) Hlim) as Hn2.
  unfold w_heapify, fpq_heapify.
  rewrite !(small_word s) by (done || rewrite limit_val in *; lia).
  replace (Z.of_nat (length l) + 1) with (Z.of_nat (length l + 1)) by lia. rewrite Hc, same_ltb, Hp.
  remember (if (b_cap b <? length l + 1)%nat then w_alloc s (Z.of_nat (length l + 1)) (b_alloc b) yes else plainly OK s) as q eqn:Eq.
  destruct (if (b_cap b <? length l + 1)%nat then buf_alloc b (length l + 1) (b_alloc b) yes else (b, OK)) as [b1 r1] eqn:E1.
  assert (as_buf (st q) b1 /\ ans q = r1) as (Hb1 & Ha).
  { subst q. destruct (_ <? _)%nat; [|by injection E1 as <- <-].
    destruct (same_alloc s b (length l + 1) (b_alloc b) yes Hf Hb) as [Q1 Q2].
    - rewrite modulus, limit_val in *. lia.
    - by rewrite E1 in *. }
  rewrite Ha. destruct r1; try by intros [= <- <-].
  intros H. apply bind_Ok in H as (m & Hm & H). apply bind_Ok in H as (b3 & Hh & [= <- <-]). split; [|done].
  apply heapify_shape in Hh as (H1 & H2 & H3). pose proof Hb1 as (Hc1 & Hn1 & Hp1).
  assert (length l <= b_cap b1)%nat as Hle.
  { unfold copy_in in Hm. rewrite fmap_length in Hm. destruct (Nat.leb_spec (0 + length l) (length (b_slots b1))); [|done].
    unfold b_cap. lia. }
  apply copy_in_length in Hm. cbn [st]. unfold w_size_set. rewrite Hc1.
  destruct (Z.ltb_spec (Z.of_nat (b_cap b1)) (Z.of_nat (length l))); [lia|].
  unfold as_buf, sized, plainly, set_count. cbn [st cap count perm]. rewrite H1, H2, H3. unfold b_cap in *. cbn. rewrite Hm. done.
Qed.

Lemma same_plus s b n : as_buf s b ->
  as_buf (st (w_size_plus s (Z.of_N n))) (fst (buf_size_plus b n)) /\
  ans (w_size_plus s (Z.of_N n)) = snd (buf_size_plus b n).
Proof.
  intros (Hc & Hn & Hp). unfold w_size_plus, buf_size_plus, word, size_t_mod. rewrite Hc, Hn.
  assert ((Z.of_nat (b_sz b) + Z.of_N n) mod 2 ^ 64 = Z.of_N ((N.of_nat (b_sz b) + n) mod 2 ^ 64)) as ->.
  { rewrite N2Z.inj_mod by done. rewrite N2Z.inj_add, nat_N_Z. done. }
  remember ((N.of_nat (b_sz b) + n) mod 2 ^ 64)%N as m eqn:Em. clear Em.
  destruct (Z.ltb_spec (Z.of_nat (b_cap b)) (Z.of_N m)), (N.ltb_spec (N.of_nat (b_cap b)) m); try lia;
    (split; [|done]); unfold as_buf, sized, b_cap in *; cbn; split_and!; try done; lia.
Qed.
End buffer.

Section hash.
Import FhmModel.
Context {K V : Type} (wide : bool) (eqb : K -> K -> bool).
Local Notation fhm := (buf (hcell K V)).

Lemma set_hash_length (T T' : slots (hcell K V)) i h : set_hash T i h = Ok T' -> length T' = length T.
Proof.
  unfold set_hash. intros H. apply bind_Ok in H as ([[? kv]|] & _ & H); by apply slot_set_length in H.
Qed.
Lemma swap3_length (T T' : slots (hcell K V)) t a b : swap3 T t a b = Ok T' -> length T' = length T.
Proof.
  unfold swap3. destruct (_ =? _)%nat; [by intros [= <-]|].
  intros H. apply bind_Ok in H as (xa & _ & H). apply bind_Ok in H as (T1 & H1 & H). apply bind_Ok in H as (xb & _ & H).
  apply bind_Ok in H as (T2 & H2 & H). apply bind_Ok in H as (xt & _ & H).
  apply slot_set_length in H1, H2, H. congruence.
Qed.

Lemma insert_loop_shape f : forall (h h' : fhm) i dist, insert_loop wide f h i dist = Ok h' ->
  b_cap h' = b_cap h /\ b_alloc h' = b_alloc h /\ (b_sz h' = b_sz h + 1 \/ b_sz h' = b_cap h)%nat.
Proof.
  induction f as [|f IH]; intros h h' i dist; cbn [insert_loop]; [done|].
  intros H. apply bind_Ok in H as (sh & _ & H). destruct (sh =? 0)%N.
  - apply bind_Ok in H as (x & _ & H). apply bind_Ok in H as (T1 & H1 & H). apply bind_Ok in H as (T2 & H2 & H).
    apply bind_Ok in H as (T3 & H3 & [= <-]). apply slot_set_length in H1. apply set_hash_length in H2, H3.
    unfold size_inc, with_size, with_slots, b_cap. cbn. assert (length T3 = length (b_slots h)) as -> by congruence.
    split_and!; try done. case_match; [by right|by left].
  - destruct (_ <? dist)%nat.
    + apply bind_Ok in H as (T1 & H1 & H). apply swap3_length in H1. apply IH in H as (Q1 & Q2 & Q3).
      unfold with_slots, b_cap in *. cbn in *. rewrite H1 in *. done.
    + by apply IH in H.
Qed.

Lemma rehash_shape old : forall new new' : fhm, rehash wide eqb old new = Ok new' -> (2 <= b_sz new)%nat -> (2 <= b_cap new)%nat ->
  b_cap new' = b_cap new /\ b_alloc new' = b_alloc new /\ (2 <= b_sz new')%nat.
Proof.
  induction old as [|c old IH]; intros new new'; cbn [rehash]; [by intros [= <-]|].
  destruct c as [[h kv]|]; [|done]. destruct (h =? 0)%N; [apply IH|]. destruct kv as [kv|]; [|done].
  intros H Hs Hc. apply bind_Ok in H as (e & _ & H). apply bind_Ok in H as (new1 & Hi & H).
  unfold insert in Hi. destruct (e_at e); [|done]. apply bind_Ok in Hi as (T1 & H1 & Hi). apply slot_set_length in H1.
  apply insert_loop_shape in Hi as (Q1 & Q2 & Q3). unfold with_slots, b_cap in *. cbn in *. rewrite H1 in *.
  apply IH in H as (P1 & P2 & P3); [|lia..]. split_and!; congruence || lia.
Qed.

Lemma same_hash s (h : fhm) yes h' r : fits s -> as_buf s h -> maybe_resize wide eqb h yes = Ok (h', r) ->
  exists moved, (moved = 0 \/ 0 <= moved /\ (b_cap h' <> 0)%nat /\ 2 + moved = Z.of_nat (b_sz h')) /\
    as_buf (st (w_hash s moved yes)) h' /\ ans (w_hash s moved yes) = r.
Proof.
  intros Hf Hb. pose proof Hb as (Hc & Hn & Hp). unfold maybe_resize, w_hash.
  remember (if negb (b_cap h =? 0)%nat && (b_sz h <? 2)%nat
            then Buf (zeroed (b_cap h)) (if b_cap h <? 2 then b_cap h else 2)%nat (b_alloc h) else h) as h1 eqn:E1.
  remember (if negb (cap s =? 0) && (count s <? 2) then st (w_size_set s 2) else s) as s1 eqn:Es.
  assert (as_buf s1 h1 /\ fits s1 /\ elem s1 = elem s) as (Hb1 & Hf1 & He1).
  { subst h1 s1.
    assert (negb (cap s =? 0) && (count s <? 2) = negb (b_cap h =? 0)%nat && (b_sz h <? 2)%nat) as ->.
    { rewrite Hc, Hn, same_eqb0. by rewrite <- (same_ltb _ 2). }
    destruct (_ && _); [|done]. destruct (size_set_good s 2 Hf) as (G1 & G2 & G3 & _); [lia|]. split_and!; try done.
    unfold as_buf, sized, w_size_set.
    assert (b_cap (Buf (zeroed (K := K) (V := V) (b_cap h)) (if b_cap h <? 2 then b_cap h else 2)%nat (b_alloc h)) = b_cap h) as ->.
    { unfold b_cap at 1, zeroed. cbn [b_slots]. apply replicate_length. }
    cbn [b_sz b_alloc]. rewrite Hc.
    destruct (Z.ltb_spec (Z.of_nat (b_cap h)) 2), (Nat.ltb_spec (b_cap h) 2); try lia; cbn; split_and!; done || lia. }
  clear E1 Es Hb Hc Hn Hp. destruct Hb1 as (Hc & Hn & Hp). rewrite Hc, Hn, Hp, same_eqb0.
  assert ((5 * Z.of_nat (b_sz h1) <=? 4 * Z.of_nat (b_cap h1)) = (5 * b_sz h1 <=? 4 * b_cap h1)%nat) as ->.
  { destruct (Z.leb_spec (5 * Z.of_nat (b_sz h1)) (4 * Z.of_nat (b_cap h1))), (Nat.leb_spec (5 * b_sz h1) (4 * b_cap h1)); lia || done. }
  destruct (_ && _). { intros [= <- <-]. exists 0. split; [by left|]. done. }
  destruct (b_alloc h1) eqn:Hal; cbn [negb]; [|intros [= <- <-]; exists 0; split; [by left|]; unfold as_buf, sized; cbn; by rewrite Hal].
  pose proof (fits_small s1 Hf1) as (Sc & Sn & Se). rewrite Hn in Sn.
  rewrite (small_word s1) by (done || rewrite limit_val in *; lia).
  replace (Z.to_N (Z.of_nat (b_sz h1) * 2)) with (N.of_nat (b_sz h1 * 2)) by lia.
  assert ((if (b_cap h1 =? 0)%nat then Z.of_N (first_above 0 primes) else Z.of_N (first_above (N.of_nat (b_sz h1 * 2)) primes)) =
     Z.of_nat (if (b_cap h1 =? 0)%nat then next_prime 0 else next_prime (b_sz h1 * 2))) as ->.
  { unfold next_prime. change (N.of_nat 0) with 0%N. destruct (b_cap h1 =? 0)%nat; by rewrite N_nat_Z. }
  pose proof (above_11 (N.of_nat (b_sz h1 * 2))) as H11.
  assert ((if (b_cap h1 =? 0)%nat then next_prime 0 else next_prime (b_sz h1 * 2)) = 0 \/
          2 <= (if (b_cap h1 =? 0)%nat then next_prime 0 else next_prime (b_sz h1 * 2)))%nat as H2.
  { destruct (b_cap h1 =? 0)%nat; [right; unfold next_prime; cbn; lia|]. unfold next_prime. lia. }
  remember (if (b_cap h1 =? 0)%nat then next_prime 0 else next_prime (b_sz h1 * 2)) as c eqn:Ec. clear Ec.
  rewrite same_leb. destruct (Nat.leb_spec c (b_cap h1)).
  { intros [= <- <-]. exists 0. split; [by left|]. unfold as_buf, sized. cbn. by rewrite Hal. }
  destruct yes; cbn [negb]; [|intros [= <- <-]; exists 0; split; [by left|]; unfold as_buf, sized; cbn; by rewrite Hal].
  intros H'. apply bind_Ok in H' as (new & Hr & [= <- <-]).
  assert (b_cap (Buf (zeroed (K := K) (V := V) c) 2 true) = c) as Hz by (unfold b_cap, zeroed; cbn; apply replicate_length).
  apply rehash_shape in Hr as (P1 & P2 & P3); [|cbn; lia|rewrite Hz; lia].
  exists (Z.of_nat (b_sz new - 2)). split; [right; rewrite P1, Hz; split_and!; lia|]. split; [|done].
  unfold as_buf, sized. cbn [st cap count perm]. rewrite P1, Hz, P2. cbn [b_alloc]. split_and!; try done. lia.
Qed.

(** The elements moved are those of the map. *)
Lemma same_hash_moved hash_fn (Hkey : FhmSpec.key_ok hash_fn eqb) s (h : fhm) l yes : fits s -> as_buf s h ->
  FhmMapProofs.fhm_ok wide hash_fn eqb h l ->
  exists h' r moved, maybe_resize wide eqb h yes = Ok (h', r) /\ reasonable s (WHash moved) /\
    as_buf (st (w_hash s moved yes)) h' /\ ans (w_hash s moved yes) = r.
Proof.
  intros Hf Hb Hok.
  destruct (FhmMapProofs.maybe_resize_Ok wide hash_fn eqb Hkey h l yes Hok) as (h' & r & Hr & _ & _ & _ & _ & Hsz & _).
  destruct (same_hash s h yes h' r Hf Hb Hr) as (moved & Hm & H1 & H2).
  exists h', r, moved. split; [done|]. split; [|done].
  destruct Hb as (_ & Hn & _). cbn [reasonable]. destruct Hm as [->|(? & Hc & Hm)]; [lia|]. specialize (Hsz Hc).
  destruct Hok as [_ [(? & Hs & ->)|(? & _ & _ & [Hs|[Hs ->]])]]; cbn [length] in *; lia.
Qed.
End hash.

Section maps.
Context {K V : Type} (alloc : bool).
Import FlatModel.
Local Notation flat := (flat K V).

Lemma same_map_back1 s (m : flat) yes junk : fits s -> as_map alloc s m ->
  as_map alloc (st (w_alloc_back s yes)) (fst (buf_alloc_back alloc m (if yes : bool then Some junk else None))) /\
  slot (w_alloc_back s yes) = offset (elem s) <$> snd (buf_alloc_back alloc m (if yes : bool then Some junk else None)).
Proof.
  intros Hf Hb. pose proof Hb as (Hc & Hn & Hp). pose proof (double_small s Hf) as [Hd Hd'].
  pose proof (fits_small s Hf) as (Sc & Sn & Se). pose proof (fits_cap s Hf) as Fc. pose proof (fits_block s Hf) as Fb.
  pose proof (fits_count s Hf) as Fn.
  assert (word (WordModel.count s + 1) = WordModel.count s + 1) as Ew. { apply word_id. rewrite modulus, limit_val in *. lia. }
  assert (word (elem s * WordModel.count s) = elem s * WordModel.count s) as Ew2. { apply word_id. rewrite modulus, limit_val in *. nia. }
  unfold w_alloc_back, buf_alloc_back. rewrite Hd, Hc, Hn, same_eqb, same_eqb0, Hp.
  destruct (sz m =? cap m)%nat eqn:E.
  - unfold w_alloc. destruct alloc; cbn [negb]; [|by destruct yes].
    assert (((if (cap m =? 0)%nat then 8 else Z.of_nat (cap m) * 2) =? 0) = false) as ->.
    { destruct (Nat.eqb_spec (cap m) 0); [done|]. apply Z.eqb_neq. lia. }
    cbn [negb andb]. destruct yes; cbn [negb ans st slot asked fst snd]; [|done].
    cbn [WordModel.count elem WordModel.cap perm]; rewrite Ew, Ew2. unfold as_map, sized, grow, set_sz, set_count. cbn. split; [split_and!|].
    + destruct (cap m =? 0)%nat; lia.
    + lia.
    + done.
    + unfold offset. by rewrite Hn.
  - cbn [plainly ans st slot asked]. rewrite Ew, Ew2. destruct yes; cbn.
    all: unfold as_map, sized, set_count, offset; cbn; rewrite Hn; split_and!; try done; lia.
Qed.
End maps.

Section sealed.
Context {K V : Type} (alloc : bool) (seal : FlatModel.flat K V -> outcome (FlatModel.flat K V)).
Hypothesis seal_sizes : forall m m', seal m = Ok m' -> FlatModel.sz m' = FlatModel.sz m /\ FlatModel.cap m' = FlatModel.cap m.

Lemma same_map_back s m yes junk m' o : fits s -> as_map alloc s m ->
  granted (asked (w_map_back s yes)) yes ->
  FlatModel.alloc_back alloc seal m (if yes : bool then Some junk else None) = Ok (m', o) ->
  as_map alloc (st (w_map_back s yes)) m' /\ slot (w_map_back s yes) = offset (elem s) <$> o.
Proof using seal_sizes.
  intros Hf Hb Hg. pose proof Hb as (Hc & Hn & Hp). unfold w_map_back, FlatModel.alloc_back in *.
  rewrite Hn, same_eqb0 in *. destruct (same_map_back1 alloc s m yes junk Hf Hb) as [Q1 Q2].
  destruct (FlatModel.sz m =? 0)%nat.
  - destruct (FlatModel.buf_alloc_back alloc m (if yes then Some junk else None)) as [m1 [i|]] eqn:E1;
      cbn [fst snd fmap option_fmap option_map] in Q1, Q2; rewrite Q2 in *.
    + cbn in Hg. apply granted_app in Hg as [Hg1 Hg2]. destruct (alloc_back_good s yes Hf Hg1) as (F & He & _).
      intros H. apply bind_Ok in H as (m2 & Hs & H). apply seal_sizes in Hs as [Hs1 Hs2].
      assert (as_map alloc (st (w_alloc_back s yes)) m2) as Q3.
      { destruct Q1 as (? & ? & ?). unfold as_map, sized. split_and!; congruence. }
      destruct (same_map_back1 alloc _ m2 yes junk F Q3) as [P1 P2]. injection H as H. rewrite H in *. cbn in *.
      by rewrite He in *.
    + intros [= <- <-]. done.
  - intros [= H]. rewrite H in *. done.
Qed.
End sealed.

Lemma fom_seal_sizes {K V} (m m' : FlatModel.flat K V) : FomModel.fom_seal m = Ok m' ->
  FlatModel.sz m' = FlatModel.sz m /\ FlatModel.cap m' = FlatModel.cap m.
Proof. by intros [= <-]. Qed.
Lemma frm_seal_sizes {K V} (m m' : FlatModel.flat K V) : FrmModel.frm_seal m = Ok m' ->
  FlatModel.sz m' = FlatModel.sz m /\ FlatModel.cap m' = FlatModel.cap m.
Proof. unfold FrmModel.frm_seal. intros H. by apply bind_Ok in H as (t & _ & [= <-]). Qed.
