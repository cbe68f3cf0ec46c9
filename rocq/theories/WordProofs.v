(** Proofs about the arithmetic on sizes. *)
From stdpp Require Import base numbers list.
From Verif Require Import Common BufferModel FlatModel FhmModel WordModel WordSpec.
Local Open Scope Z_scope.

Lemma word_id z : 0 <= z < 2 ^ 64 -> word z = z.
Proof. intros H. unfold word. by apply Z.mod_small. Qed.

Lemma limit_val : limit = 1152921504606846976.
Proof. reflexivity. Qed.
Lemma modulus : 2 ^ 64 = 18446744073709551616.
Proof. reflexivity. Qed.

(** A product bounds its factors. *)
Lemma le_product e c b : 0 < e -> 0 <= c -> e * c <= b -> c <= b.
Proof. nia. Qed.
Lemma lt_product e c b : 0 < e -> 0 <= c -> e * c < b -> c < b.
Proof. nia. Qed.

Lemma fits_small s : fits s -> 0 <= cap s <= limit /\ 0 <= count s <= limit /\ 0 < elem s <= limit.
Proof.
  intros [He Hc Hb Hl]. pose proof (le_product (elem s) (cap s) limit). lia.
Qed.

(** One request for [c] slots whose bytes are a size_t. *)
Lemma request_fits s c : fits s -> 0 <= c -> elem s * c < 2 ^ 64 -> word (elem s * c) = elem s * c.
Proof. intros [He _ _ _] Hc Hlt. apply word_id. nia. Qed.

Definition good (s : store) (r : reply) : Prop :=
  fits (st r) /\ elem (st r) = elem s /\ perm (st r) = perm s /\
  Forall (fun p => snd p = elem s * fst p) (asked r) /\
  (forall o, slot r = Some o -> 0 <= o /\ o + elem s <= block (st r)).

Lemma good_plainly s r : fits s -> good s (plainly r s).
Proof. intros Hf. unfold good, plainly. cbn. split_and!; try done. Qed.

Lemma good_count s r n : fits s -> 0 <= n <= cap s -> good s (plainly r (set_count s n)).
Proof.
  intros [He Hc Hb Hl] Hn. unfold good, plainly, set_count. cbn. by split_and!.
Qed.

Lemma alloc_good s c fn yes : fits s -> count s <= c -> elem s * c < 2 ^ 64 ->
  granted (asked (w_alloc s c fn yes)) yes -> good s (w_alloc s c fn yes).
Proof.
  intros Hf Hc Hlt Hg. unfold w_alloc in *. destruct fn; cbn [negb] in *; [|by apply good_plainly].
  pose proof (fits_count s Hf) as Hcnt. pose proof (fits_elem s Hf) as He. pose proof (fits_block s Hf) as Hbl.
  rewrite (request_fits s c Hf) in * by lia.
  destruct (negb (c =? 0) && negb yes) eqn:E.
  - unfold good. cbn. split_and!; try done. by repeat constructor.
  - unfold good. cbn. split_and!; try done; [|by repeat constructor]. split; cbn; try lia.
    apply andb_false_iff in E as [E|E].
    + destruct (Z.eqb_spec c 0); [|done]. subst. rewrite limit_val. lia.
    + destruct yes; [|done]. cbn in Hg. specialize (Hg eq_refl). inversion Hg; subst. done.
Qed.

(** Doubling does not leave size_t. *)
Lemma double_small s : fits s -> word (cap s * 2) = cap s * 2 /\ elem s * (cap s * 2) < 2 ^ 64.
Proof.
  intros Hf. pose proof (fits_small s Hf) as (Hc & _ & He). pose proof (fits_cap s Hf). pose proof (fits_block s Hf).
  rewrite limit_val, modulus in *. split; [|lia]. apply word_id. rewrite modulus. lia.
Qed.

Lemma alloc_back_good s yes : fits s ->
  granted (asked (w_alloc_back s yes)) yes -> good s (w_alloc_back s yes).
Proof.
  intros Hf. pose proof (fits_small s Hf) as (Hc & Hn & He). pose proof (double_small s Hf) as [Hd Hd'].
  pose proof (fits_count s Hf) as Hcnt.
  unfold w_alloc_back. destruct (Z.eqb_spec (count s) (cap s)) as [E|E].
  - intros Hg.
    assert (good s (w_alloc s (if cap s =? 0 then 8 else word (cap s * 2)) (perm s) yes)) as Hgood.
    { rewrite Hd. apply alloc_good; try done.
      - destruct (Z.eqb_spec (cap s) 0); lia.
      - destruct (Z.eqb_spec (cap s) 0); [|done]. rewrite modulus, limit_val in *. lia.
      - rewrite Hd in Hg. by destruct (ans (w_alloc _ _ _ _)). }
    assert (ans (w_alloc s (if cap s =? 0 then 8 else word (cap s * 2)) (perm s) yes) = OK ->
      count s < cap (st (w_alloc s (if cap s =? 0 then 8 else word (cap s * 2)) (perm s) yes)) /\
      count (st (w_alloc s (if cap s =? 0 then 8 else word (cap s * 2)) (perm s) yes)) = count s) as Hroom.
    { rewrite Hd. unfold w_alloc. destruct (perm s); cbn [negb]; [|done]. destruct (_ && _); [done|].
      cbn. intros _. destruct (Z.eqb_spec (cap s) 0); lia. }
    clear Hg Hd Hd'. remember (w_alloc s _ (perm s) yes) as r eqn:Er. clear Er.
    destruct Hgood as (Hfit & Hel & Hp & Hq & Hs).
    destruct (ans r) eqn:Ea; try by (unfold good; split_and!).
    destruct (Hroom eq_refl) as [Hlt Hceq]. destruct Hfit as [F1 F2 F3 F4]. unfold good, set_count. cbn.
    assert (word (count (st r) + 1) = count s + 1) as ->.
    { rewrite Hceq. apply word_id. rewrite modulus, limit_val in *. lia. }
    assert (word (elem (st r) * count (st r)) = elem s * count s) as ->.
    { rewrite Hceq, Hel. apply word_id. pose proof (fits_cap s Hf). pose proof (fits_block s Hf).
      rewrite modulus, limit_val in *. nia. }
    rewrite Hel in *. split_and!; try done.
    + split; cbn; rewrite ?Hel; try lia.
    + intros o [= <-]. nia.
  - intros _. cbn [ans plainly st asked]. unfold good, set_count. cbn. destruct Hf as [F1 F2 F3 F4].
    assert (word (count s + 1) = count s + 1) as ->. { apply word_id. rewrite modulus, limit_val in *. lia. }
    assert (word (elem s * count s) = elem s * count s) as ->.
    { apply word_id. rewrite modulus, limit_val in *. nia. }
    split_and!; try done.
    + split; cbn; lia.
    + intros o [= <-]. nia.
Qed.

Lemma granted_app l k yes : granted (l ++ k) yes -> granted l yes /\ granted k yes.
Proof. unfold granted. intros H. split; intros Hy; specialize (H Hy); apply Forall_app in H; tauto. Qed.

Lemma good_then s r r' : good s r -> good (st r) r' ->
  good s (Reply (ans r') (st r') (asked r ++ asked r') (slot r')).
Proof.
  intros (F1 & E1 & P1 & Q1 & S1) (F2 & E2 & P2 & Q2 & S2). rewrite E1 in *. unfold good. cbn.
  split_and!; try done; [congruence|]. apply Forall_app. done.
Qed.

(** The requests of the second of two steps. *)
Lemma heap_push_good s yes : fits s ->
  granted (asked (w_heap_push s yes)) yes -> good s (w_heap_push s yes).
Proof.
  intros Hf Hg. pose proof (double_small s Hf) as [Hd Hd']. pose proof (fits_count s Hf).
  unfold w_heap_push in *. rewrite Hd in *.
  remember (if cap s <=? word (count s + 1) then w_alloc s (cap s * 2) (perm s) yes else plainly OK s) as r eqn:Er.
  assert (granted (asked r) yes) as Hg1.
  { destruct (ans r); try done. cbn in Hg. by apply granted_app in Hg as [? _]. }
  assert (good s r) as Hgood.
  { subst r. destruct (_ <=? _); [|by apply good_plainly]. apply alloc_good; try done. lia. }
  destruct (ans r) eqn:Ea; try done. cbn in Hg. apply granted_app in Hg as [_ Hg2].
  apply good_then; [done|]. apply alloc_back_good; [apply Hgood|done].
Qed.

Lemma map_back_good s yes : fits s ->
  granted (asked (w_map_back s yes)) yes -> good s (w_map_back s yes).
Proof.
  intros Hf Hg. unfold w_map_back in *. destruct (count s =? 0); [|by apply alloc_back_good].
  destruct (slot (w_alloc_back s yes)) eqn:Es; [|by apply alloc_back_good].
  cbn in Hg. apply granted_app in Hg as [Hg1 Hg2]. pose proof (alloc_back_good s yes Hf Hg1) as Hgood.
  apply good_then; [done|]. apply alloc_back_good; [apply Hgood|done].
Qed.

Lemma heap_emplace_good s yes : fits s ->
  granted (asked (w_heap_emplace s yes)) yes -> good s (w_heap_emplace s yes).
Proof.
  intros Hf Hg. unfold w_heap_emplace in *.
  remember (w_alloc_back s yes) as r eqn:Er.
  assert (granted (asked r) yes) as Hg1.
  { destruct (_ =? _); [|done]. cbn in Hg. by apply granted_app in Hg as [? _]. }
  assert (good s r) as Hgood by (subst; by apply alloc_back_good).
  destruct (Z.eqb_spec (count (st r)) (cap (st r))) as [E|_]; [|done].
  cbn in Hg. apply granted_app in Hg as [_ Hg2]. clear Er.
  destruct Hgood as (F & He & Hp & Hq & Hs). pose proof (double_small _ F) as [Hd Hd']. rewrite Hd in *.
  rewrite <- Hp in *.
  assert (good (st r) (w_alloc (st r) (cap (st r) * 2) (perm (st r)) yes)) as (F2 & He2 & Hp2 & Hq2 & Hs2).
  { apply alloc_good; try done. pose proof (fits_count _ F). lia. }
  remember (w_alloc (st r) (cap (st r) * 2) (perm (st r)) yes) as r' eqn:Er'. clear Er'.
  rewrite He in *. unfold good. cbn. split_and!; try done; [congruence|by apply Forall_app|].
  intros o. destruct (ans r'); try done.
  pose proof (fits_small _ F2) as (S1 & S2 & S3). pose proof (fits_count _ F2). pose proof (fits_cap _ F2) as Hcap.
  pose proof (fits_block _ F2) as Hbl. rewrite He2 in *.
  destruct (Z.ltb_spec (word (count (st r') - 1)) (cap (st r'))) as [Hlt|]; [|done].
  destruct (decide (count (st r') = 0)) as [E0|Hne].
  - rewrite E0 in Hlt. change (word (0 - 1)) with 18446744073709551615 in Hlt. rewrite limit_val in *. lia.
  - assert (word (count (st r') - 1) = count (st r') - 1) as ->. { apply word_id. rewrite modulus, limit_val in *. lia. }
    assert (word ((count (st r') - 1) * elem s) = (count (st r') - 1) * elem s) as ->.
    { apply word_id. rewrite modulus, limit_val in *. nia. }
    intros [= <-]. nia.
Qed.

Lemma size_set_good s n : fits s -> 0 <= n -> good s (w_size_set s n).
Proof.
  intros Hf Hn. unfold w_size_set. pose proof (fits_count s Hf).
  destruct (Z.ltb_spec (cap s) n); apply good_count; try done; lia.
Qed.

Lemma heapify_good s n yes : fits s -> 0 <= n -> elem s * n <= limit ->
  granted (asked (w_heapify s n yes)) yes -> good s (w_heapify s n yes).
Proof.
  intros Hf Hn Hlim Hg. pose proof (fits_small s Hf) as (Hc & Hk & He). pose proof (fits_count s Hf).
  pose proof (le_product _ _ _ (proj1 (fits_elem s Hf)) Hn Hlim) as Hn2.
  unfold w_heapify in *.
  assert (word (n + 1) = n + 1) as Ew. { apply word_id. rewrite modulus, limit_val in *. lia. }
  rewrite Ew in *.
  remember (if cap s <? n + 1 then w_alloc s (n + 1) (perm s) yes else plainly OK s) as r eqn:Er.
  assert (granted (asked r) yes) as Hg1 by (destruct (ans r); try done).
  assert (good s r) as Hgood.
  { subst r. destruct (Z.ltb_spec (cap s) (n + 1)); [|by apply good_plainly]. apply alloc_good; try done; [lia|].
    rewrite modulus, limit_val in *. lia. }
  destruct (ans r) eqn:Ea; try done.
  pose proof (good_then _ _ _ Hgood (size_set_good _ n (proj1 Hgood) Hn)) as (G1 & G2 & G3 & G4 & _).
  unfold good. cbn in *. split_and!; try done.
  apply Forall_app in G4. tauto.
Qed.

Lemma deque_good s n yes : fits s -> 0 <= n -> elem s * n <= limit ->
  granted (asked (w_deque s n yes)) yes -> good s (w_deque s n yes).
Proof.
  intros Hf Hn Hlim Hg. pose proof (fits_small s Hf) as (Hc & Hk & He). pose proof (fits_count s Hf).
  pose proof (le_product _ _ _ (proj1 (fits_elem s Hf)) Hn Hlim) as Hn2. pose proof (fits_cap s Hf).
  pose proof (fits_block s Hf).
  unfold w_deque in *.
  assert (word (count s + n) = count s + n) as Ew. { apply word_id. rewrite modulus, limit_val in *. lia. }
  assert (word (cap s + n) = cap s + n) as Ew2. { apply word_id. rewrite modulus, limit_val in *. lia. }
  assert (word ((cap s + n) * 2) = (cap s + n) * 2) as Ew3. { apply word_id. rewrite modulus, limit_val in *. lia. }
  rewrite Ew, Ew2, Ew3 in *. destruct (Z.ltb_spec (count s + n) (cap s)); [by apply good_plainly|].
  destruct (perm s) eqn:Hp; cbn [negb] in *; [|by apply good_plainly].
  remember (if cap s =? 0 then 8 else (cap s + n) * 2) as c eqn:Ec.
  assert (elem s * c < 2 ^ 64 /\ cap s <= c) as [Hec Hcc].
  { rewrite modulus, limit_val in *. subst c. destruct (Z.eqb_spec (cap s) 0); lia. }
  rewrite (request_fits s c Hf) in * by lia. destruct yes; cbn [negb] in *.
  - unfold good. cbn. split_and!; try done; [|by repeat constructor]. cbn in Hg. specialize (Hg eq_refl).
    inversion Hg; subst. split; cbn; try done; lia.
  - unfold good. cbn. split_and!; try done. by repeat constructor.
Qed.

(** The primes grow by no more than a factor of four. *)
Fixpoint gentle (p : N) (l : list N) : bool :=
  match l with [] => true | q :: l => (q <=? 4 * p)%N && gentle q l end.
Lemma first_above_gentle n l : forall p, (p <= n)%N -> gentle p l = true -> (first_above n l <= 4 * n)%N.
Proof.
  induction l as [|q l IH]; intros p Hp Hg; cbn [first_above gentle] in *; [lia|].
  apply andb_prop in Hg as [Hq Hg]. apply N.leb_le in Hq. destruct (N.ltb_spec n q); [lia|]. by eapply IH.
Qed.
Lemma next_above n : (first_above n primes <= N.max 11 (4 * n))%N.
Proof.
  assert (gentle 11 (tail primes) = true) as Hg by (by vm_compute).
  assert (primes = 11%N :: tail primes) as -> by reflexivity. cbn [first_above].
  destruct (N.ltb_spec n 11); [lia|].
  pose proof (first_above_gentle n (tail primes) 11%N) as Hf. specialize (Hf ltac:(lia) Hg).
  remember (first_above n (tail primes)) as q eqn:Eq. clear Eq. lia.
Qed.

Lemma above_11 n : (first_above n primes = 0 \/ 11 <= first_above n primes)%N.
Proof.
  assert (Forall (fun p => 11 <= p)%N primes) as Hl by (unfold primes; repeat constructor; done).
  induction Hl as [|p l Hp Hl IH]; cbn [first_above]; [by left|]. destruct (n <? p)%N; [by right|done].
Qed.

Lemma hash_good s moved yes : fits s -> 0 <= moved -> 2 + moved <= Z.max 2 (count s) ->
  granted (asked (w_hash s moved yes)) yes -> good s (w_hash s moved yes).
Proof.
  intros Hf Hm Hmc Hg. unfold w_hash in *.
  remember (if negb (cap s =? 0) && (count s <? 2) then st (w_size_set s 2) else s) as s1 eqn:Es.
  assert (fits s1 /\ elem s1 = elem s /\ perm s1 = perm s /\ cap s1 = cap s /\
    (2 <= count s -> count s1 = count s)) as (Hf1 & He1 & Hp1 & Hc1 & Hn1).
  { clear Hg. subst s1. destruct (negb (cap s =? 0) && (count s <? 2)) eqn:E; [|by split_and!].
    destruct (size_set_good s 2 Hf) as (G1 & G2 & G3 & _); [lia|]. split_and!; try done.
    - unfold w_size_set. by destruct (cap s <? 2).
    - apply andb_prop in E as [_ E]. apply Z.ltb_lt in E. lia. }
  clear Es.
  assert (forall r, good s (plainly r s1)) as Hpl.
  { intros r. unfold good, plainly. cbn. split_and!; try done. }
  destruct (negb (cap s1 =? 0) && (5 * count s1 <=? 4 * cap s1)); [apply Hpl|]. destruct (perm s1) eqn:Hp; cbn [negb] in *; [|apply Hpl].
  pose proof (fits_small s1 Hf1) as (Hc & Hk & He). pose proof (fits_count s1 Hf1). pose proof (fits_cap s1 Hf1).
  pose proof (fits_block s1 Hf1).
  assert (word (count s1 * 2) = count s1 * 2) as Ew. { apply word_id. rewrite modulus, limit_val in *. lia. }
  rewrite Ew in *.
  remember (if cap s1 =? 0 then Z.of_N (first_above 0 primes)
            else Z.of_N (first_above (Z.to_N (count s1 * 2)) primes)) as c eqn:Ec.
  assert (0 <= c <= Z.max 11 (8 * count s1) /\ (c = 0 \/ 11 <= c)) as [Hcb Hc11].
  { pose proof (next_above (Z.to_N (count s1 * 2))) as Hp'. subst c.
    pose proof (above_11 (Z.to_N (count s1 * 2))) as Hp2.
    remember (first_above (Z.to_N (count s1 * 2)) primes) as q eqn:Eq. clear Eq.
    change (first_above 0 primes) with 11%N. destruct (cap s1 =? 0); lia. }
  clear Ec. destruct (Z.leb_spec c (cap s1)) as [|Hlt]; [apply Hpl|].
  assert (elem s1 * c < 2 ^ 64) as Hec. { rewrite modulus, limit_val in *. nia. }
  rewrite (request_fits s1 c Hf1) in * by lia. rewrite He1 in *.
  destruct yes; cbn [negb] in *.
  - unfold good. cbn. split_and!; try done; [|by repeat constructor]. cbn in Hg. specialize (Hg eq_refl).
    inversion Hg; subst. split; cbn; try done; try lia.
  - unfold good. cbn. split_and!; try done; [congruence|]. by repeat constructor.
Qed.

Lemma size_minus_good s n : fits s -> 0 <= n -> good s (w_size_minus s n).
Proof.
  intros Hf Hn. unfold w_size_minus. pose proof (fits_count s Hf).
  destruct (Z.ltb_spec (count s) n); apply good_count; try done; lia.
Qed.

Lemma size_plus_good s n : fits s -> 0 <= n -> count s + n < 2 ^ 64 -> good s (w_size_plus s n).
Proof.
  intros Hf Hn Hlt. unfold w_size_plus. pose proof (fits_count s Hf). rewrite word_id by lia.
  destruct (Z.ltb_spec (cap s) (count s + n)); apply good_count; try done; lia.
Qed.

Lemma step_good s o yes : fits s -> reasonable s o ->
  granted (asked (w_step s o yes)) yes -> good s (w_step s o yes).
Proof.
  intros Hf Hr Hg. destruct o; cbn [w_step reasonable] in *.
  - destruct Hr; by apply alloc_good.
  - destruct Hr; by apply alloc_back_good.
  - destruct Hr; by apply size_plus_good.
  - destruct Hr; by apply size_minus_good.
  - destruct Hr; by apply size_set_good.
  - destruct Hr; by apply deque_good.
  - destruct Hr; by apply heap_push_good.
  - destruct Hr; by apply heap_emplace_good.
  - destruct Hr; by apply heapify_good.
  - destruct Hr; by apply hash_good.
  - destruct Hr; by apply map_back_good.
Qed.

Lemma calls_fit s os s' qs : calls s os s' qs -> fits s ->
  fits s' /\ elem s' = elem s /\ Forall (fun p => snd p = elem s * fst p) qs.
Proof.
  induction 1 as [s|s o yes os s' qs Hr Hg Hc IH]; intros Hf; [done|].
  destruct (step_good s o yes Hf Hr Hg) as (F & E & _ & Q & _). destruct (IH F) as (F' & E' & Q').
  rewrite E in *. split_and!; try done. by apply Forall_app.
Qed.

Lemma slot_inside s o yes p : fits s -> reasonable s o -> granted (asked (w_step s o yes)) yes ->
  slot (w_step s o yes) = Some p ->
  0 <= p /\ p + elem s <= block (st (w_step s o yes)).
Proof. intros Hf Hr Hg. destruct (step_good s o yes Hf Hr Hg) as (_ & _ & _ & _ & H). apply H. Qed.

(** The address of every slot of the capacity lies in the block. *)
Lemma address_inside s i : fits s -> 0 <= i < cap s ->
  word (i * elem s) = i * elem s /\ i * elem s + elem s <= block s.
Proof.
  intros Hf Hi. pose proof (fits_small s Hf) as (Hc & _ & He). pose proof (fits_cap s Hf). pose proof (fits_block s Hf).
  rewrite limit_val in *. split; [|nia]. apply word_id. rewrite modulus. nia.
Qed.

(** Agreement with the models that take sizes as natural numbers. *)
Lemma same_alloc {A} s (b : buf A) c fn yes : fits s -> as_buf s b -> elem s * Z.of_nat c < 2 ^ 64 ->
  as_buf (st (w_alloc s (Z.of_nat c) fn yes)) (fst (buf_alloc b c fn yes)) /\
  ans (w_alloc s (Z.of_nat c) fn yes) = snd (buf_alloc b c fn yes).
Proof.
  intros Hf (Hc & Hn & Hp) Hlt. unfold w_alloc, buf_alloc. destruct fn; cbn [negb]; [|done].
  replace (Z.of_nat c =? 0) with (c =? 0)%nat by (destruct (Nat.eqb_spec c 0), (Z.eqb_spec (Z.of_nat c) 0); lia || done).
  destruct (negb (c =? 0)%nat && negb yes); [done|]. cbn. split; [|done].
  unfold as_buf, sized, b_cap. cbn. split_and!; try done. unfold realloc.
  rewrite app_length, take_length, replicate_length. lia.
Qed.
