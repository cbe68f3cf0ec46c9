(** The slots written and read by the resizing of a hash map over a history. *)
From stdpp Require Import base numbers option list.
From Verif Require Import Common BufferModel FhmModel FhmSpec FhmProofs FhmMapProofs TickModel FhmCostModel FhmCostSpec.
From Verif Require WordProofs WordSame.

Section cost.
Context {K V : Type} (wide : bool) (hash_fn : K -> N) (eqb : K -> K -> bool).
Context (Hkey : key_ok hash_fn eqb).
Local Notation fhm := (buf (hcell K V)).
Local Notation fhm_ok := (fhm_ok wide hash_fn eqb).

(** Erasure. *)
Lemma rehash_erase old : forall new : fhm, untick (rehash_c wide eqb old new) = rehash wide eqb old new.
Proof.
  induction old as [|c old IH]; intros new; [done|]. cbn [rehash_c rehash]. destruct c as [[h kv]|]; [|done].
  assert (forall m : ticked fhm, untick ('(r, n) ← m; Ok (r, S n)) = untick m) as Hs by (by intros [[? ?]| |]).
  destruct (h =? 0)%N; [by rewrite Hs|]. destruct kv as [kv|]; [|done].
  rewrite untick_obind. apply bind_ext; [done|]. intros e. rewrite untick_obind. apply bind_ext; [done|]. intros new'.
  by rewrite Hs.
Qed.
Lemma resize_erase (h : fhm) ok : untick (maybe_resize_c wide eqb h ok) = maybe_resize wide eqb h ok.
Proof.
  unfold maybe_resize_c, maybe_resize. cbv zeta.
  remember (if negb (b_cap h =? 0) && (b_sz h <? 2) then _ else h) as h1 eqn:E1. clear E1.
  destruct (negb (b_cap h1 =? 0) && (5 * b_sz h1 <=? 4 * b_cap h1)); [done|]. destruct (negb (b_alloc h1)); [done|].
  destruct (_ <=? b_cap h1); [done|]. destruct (negb ok); [done|].
  rewrite <- rehash_erase. by destruct (rehash_c wide eqb _ _) as [[? ?]| |].
Qed.
Lemma entry_erase (h : fhm) k ok : untick (entry_c wide hash_fn eqb h k ok) = entry wide hash_fn eqb h k ok.
Proof.
  unfold entry_c, entry. rewrite untick_bind, resize_erase. apply bind_ext; [done|]. intros [h1 r]. by rewrite untick_obind.
Qed.
Lemma obind_assoc {X Y Z} (m : outcome X) (f : X -> outcome Y) (g : Y -> outcome Z) :
  (y ← (x ← m; f x); g y) = (x ← m; y ← f x; g y).
Proof. by destruct m. Qed.

Lemma step_erase (h : fhm) o : untick (fhm_step_c wide hash_fn eqb h o) = fhm_step wide hash_fn eqb h o.
Proof.
  unfold fhm_step_c. destruct o; cbn [entry_of]; try apply untick_plain; rewrite untick_bind, entry_erase;
    cbn [fhm_step]; unfold fhm_contains, fhm_insert, fhm_try_insert, fhm_insert_or_assign, fhm_try_insert_w,
      fhm_insert_or_assign_w, via_entry; cbv zeta; try rewrite obind_assoc;
    (apply bind_ext; [done|]); intros [h1 e]; rewrite untick_plain; cbn [rest]; unfold via_c; try done;
    repeat first [done | rewrite obind_assoc | case_match; [|] | apply bind_ext; [done|]; intros ?
                 | progress cbn [mbind outcome_bind obind]].
  all: repeat case_match; done.
Qed.
Lemma run_erase os : forall h : fhm, untick (fhm_run_c wide hash_fn eqb h os) = fhm_run wide hash_fn eqb h os.
Proof.
  induction os as [|o os IH]; intros h; [done|]. cbn [fhm_run_c fhm_run]. rewrite untick_bind, step_erase.
  apply bind_ext; [done|]. intros [h1 r]. rewrite untick_bind, IH. apply bind_ext; [done|]. by intros [].
Qed.

(** Capacity and size over the calls that do not resize. *)
Definition keeps (h h' : fhm) : Prop := b_cap h' = b_cap h /\ b_sz h <= b_sz h' + 1 /\ b_sz h' <= b_cap h'.
Lemma keeps_slots (h : fhm) T : b_sz h <= b_cap h -> length T = b_cap h -> keeps h (with_slots h T).
Proof. unfold keeps, b_cap. cbn. lia. Qed.
Lemma keeps_refl (h : fhm) : b_sz h <= b_cap h -> keeps h h.
Proof. unfold keeps. lia. Qed.
Lemma loop_keeps f (h h' : fhm) i dist : b_sz h <= b_cap h -> insert_loop wide f h i dist = Ok h' ->
  keeps h h' /\ b_sz h <= b_sz h'.
Proof.
  revert h i dist. induction f as [|f IH]; intros h i dist Hs; cbn [insert_loop]; [done|].
  intros H. apply WordSame.bind_Ok in H as (sh & _ & H). destruct (sh =? 0)%N.
  - apply WordSame.bind_Ok in H as (x & _ & H). apply WordSame.bind_Ok in H as (T1 & H1 & H).
    apply WordSame.bind_Ok in H as (T2 & H2 & H). apply WordSame.bind_Ok in H as (T3 & H3 & [= <-]).
    apply WordSame.slot_set_length in H1. apply WordSame.set_hash_length in H2, H3.
    unfold keeps, size_inc, with_size, with_slots, b_cap in *. cbn [b_slots b_sz b_alloc] in *.
    match goal with |- context [if ?a <? ?b then _ else _] => destruct (Nat.ltb_spec a b) end; lia.
  - destruct (_ <? dist)%nat.
    + apply WordSame.bind_Ok in H as (T1 & H1 & H). apply WordSame.swap3_length in H1.
      apply IH in H; unfold keeps, with_slots, b_cap in *; cbn in *; lia.
    + by apply IH in H.
Qed.
Lemma insert_keeps (h h' : fhm) kv hash i : b_sz h <= b_cap h -> insert wide h kv hash i = Ok h' -> keeps h h'.
Proof.
  intros Hs H. unfold insert in H. destruct i as [i|]; [|done]. apply WordSame.bind_Ok in H as (T1 & H1 & H).
  apply WordSame.slot_set_length in H1. apply loop_keeps in H; unfold keeps, b_cap in *; cbn in *; lia.
Qed.
Lemma erase_loop_keeps f : forall (h h' : fhm) i n, b_sz h <= b_cap h -> erase_loop wide f h i n = Ok h' -> keeps h h'.
Proof.
  induction f as [|f IH]; intros h h' i n Hs; cbn [erase_loop]; [done|].
  intros H. apply WordSame.bind_Ok in H as (nh & _ & H). case_match.
  - apply WordSame.bind_Ok in H as (T1 & H1 & [= <-]). apply WordSame.set_hash_length in H1.
    unfold keeps, size_dec, with_size, with_slots, b_cap in *. cbn in *. lia.
  - apply WordSame.bind_Ok in H as (T1 & H1 & H). apply WordSame.swap3_length in H1.
    apply IH in H; unfold keeps, with_slots, b_cap in *; cbn in *; lia.
Qed.
Lemma erase_keeps (h h' : fhm) i : b_sz h <= b_cap h -> erase wide h i = Ok h' -> keeps h h'.
Proof.
  intros Hs H. unfold erase in H. destruct i as [i|]; [|done]. apply WordSame.bind_Ok in H as (T1 & H1 & H).
  apply WordSame.set_hash_length in H1. apply erase_loop_keeps in H; unfold keeps, b_cap in *; cbn in *; lia.
Qed.
Lemma overwrite_keeps (h h' : fhm) i hash kv : b_sz h <= b_cap h -> overwrite h i hash kv = Ok h' -> keeps h h'.
Proof.
  intros Hs H. unfold overwrite in H. apply WordSame.bind_Ok in H as (j & _ & H). apply WordSame.bind_Ok in H as (T1 & H1 & [= <-]).
  apply WordSame.slot_set_length in H1. by apply keeps_slots.
Qed.
Lemma swaps_keeps (h h' : fhm) e kv hash : b_sz h <= b_cap h -> swaps wide h e kv hash = Ok h' -> keeps h h'.
Proof.
  intros Hs H. unfold swaps in H. apply WordSame.bind_Ok in H as (j & _ & H). apply WordSame.bind_Ok in H as (sh & _ & H).
  destruct (sh =? 0)%N.
  - apply WordSame.bind_Ok in H as (T1 & H1 & [= <-]). apply WordSame.slot_set_length in H1.
    unfold keeps, size_inc, with_size, with_slots, b_cap in *. cbn [b_slots b_sz b_alloc] in *.
    match goal with |- context [if ?a <? ?b then _ else _] => destruct (Nat.ltb_spec a b) end; lia.
  - apply WordSame.bind_Ok in H as (c & _ & H). apply WordSame.bind_Ok in H as (T1 & H1 & H). apply WordSame.slot_set_length in H1.
    apply insert_keeps in H; unfold keeps, b_cap in *; cbn in *; lia.
Qed.

Ltac peel :=
  repeat match goal with
  | H : (_ ≫= _) = Ok _ |- _ => apply WordSame.bind_Ok in H as (? & ? & H)
  | H : (if ?b then _ else _) = Ok _ |- _ => destruct b eqn:?
  | H : (let '(_, _) := ?p in _) = Ok _ |- _ => destruct p
  | H : match ?c with _ => _ end = Ok _ |- _ => destruct c eqn:?; try done
  | H : Ok _ = Ok _ |- _ => injection H as; subst
  | H : slot_set _ _ _ = Ok _ |- _ => apply WordSame.slot_set_length in H
  | H : set_hash _ _ _ = Ok _ |- _ => apply WordSame.set_hash_length in H
  end.
Ltac kept :=
  first [ by apply keeps_refl | by eapply insert_keeps | by eapply erase_keeps | by eapply overwrite_keeps
        | by eapply swaps_keeps | apply keeps_slots; [done|unfold b_cap; congruence] ].

Lemma rest_keeps o (h h' : fhm) e r : b_sz h <= b_cap h -> rest wide hash_fn o h e = Ok (h', r) -> keeps h h'.
Proof.
  intros Hs H. destruct o; cbn [rest] in H; try done; unfold via_c, or_insert, insert_entry, or_insert_w, insert_entry_w, remove_entry, and_modify in H;
    cbv zeta in H; peel; kept.
Qed.
Lemma plain_keeps o (h h' : fhm) r : b_sz h <= b_cap h -> entry_of o = None -> fhm_step wide hash_fn eqb h o = Ok (h', r) -> keeps h h'.
Proof. intros Hs He H. destruct o; try done; cbn [fhm_step] in H; unfold fhm_remove in H; peel; kept. Qed.

(** How many elements a call may add. *)
Lemma del_length k (l : list (K * V)) : length (del eqb k l) <= length l.
Proof. induction l as [|x l IH]; cbn [del]; [done|]. destruct (eqb k (fst x)); cbn [length]; lia. Qed.
Lemma call_adds full (l l' : list (K * V)) o r : fhm_call eqb full l o r l' -> length l' <= length l + adds o.
Proof.
  intros H. assert (l' ≡ₚ l \/ l' ≡ₚ fst (spec_step eqb full l o)) as [Hp|Hp].
  { unfold fhm_call in H. destruct full; [|right; by destruct H]. destruct (spec_refused eqb l o); [left|right]; by destruct H. }
  { rewrite Hp. lia. }
  rewrite (Permutation_length Hp). clear H Hp. pose proof (del_length) as Hd.
  destruct o; cbn [spec_step adds fst]; try lia;
    repeat case_match; cbn [fst length]; rewrite ?put_length; try lia; specialize (Hd k l); lia.
Qed.

(** Work paid for in advance: the growth to come, the first table, and the first memset. *)
Definition saved (h : fhm) : nat := 13 * (2 * b_sz h - b_cap h).
Definition due (h : fhm) : nat := if b_cap h =? 0 then 11 else if b_sz h <? 2 then b_cap h else 0.

Lemma rehash_count old : forall (new new' : fhm) n, rehash_c wide eqb old new = Ok (new', n) -> n = length old.
Proof.
  induction old as [|c old IH]; intros new new' n; cbn [rehash_c]; [by intros [= <- <-]|].
  destruct c as [[h kv]|]; [|done]. destruct (h =? 0)%N.
  - intros H. apply WordSame.bind_Ok in H as ([r k] & H & [= <- <-]). apply IH in H as ->. done.
  - destruct kv as [kv|]; [|done]. intros H. apply WordSame.bind_Ok in H as (e & _ & H). apply WordSame.bind_Ok in H as (n1 & _ & H).
    apply WordSame.bind_Ok in H as ([r k] & H & [= <- <-]). apply IH in H as ->. done.
Qed.

Lemma resize_pays h l ok h1 r n : fhm_ok h l -> maybe_resize_c wide eqb h ok = Ok (h1, r, n) ->
  fhm_ok h1 l /\ n + saved h1 + due h1 <= saved h + due h /\ (b_cap h1 <> 0 -> 2 <= b_sz h1).
Proof.
  intros Hok Hr.
  destruct (maybe_resize_Ok wide hash_fn eqb Hkey h l ok Hok) as (h' & r' & Hm & Hok1 & _ & _ & _ & Hsz & _).
  rewrite <- resize_erase, Hr in Hm. cbn in Hm. injection Hm as <- <-.
  split; [done|]. assert (b_cap h1 <> 0 -> 2 <= b_sz h1) as Hs2 by (intros Hc; specialize (Hsz Hc); lia).
  split; [|done].
  unfold maybe_resize_c in Hr. cbv zeta in Hr.
  destruct Hok as [_ [(Hc0 & Hs0 & ->)|(Hc & _ & Hroom & Hs)]].
  - assert (negb (b_cap h =? 0) && (b_sz h <? 2) = false) as E by (by rewrite Hc0). rewrite E in Hr.
    assert (negb (b_cap h =? 0) && (5 * b_sz h <=? 4 * b_cap h) = false) as E2 by (by rewrite Hc0). rewrite E2 in Hr.
    destruct (b_alloc h); cbn [negb] in Hr; [|injection Hr as <- <- <-; lia].
    rewrite Hc0 in Hr. cbn [Nat.eqb] in Hr. rewrite next_prime_0 in Hr. cbn [Nat.leb] in Hr.
    destruct ok; cbn [negb] in Hr; [|injection Hr as <- <- <-; lia].
    apply WordSame.bind_Ok in Hr as ([new k] & Hh & [= <- <- <-]). pose proof (rehash_count _ _ _ _ Hh) as ->.
    pose proof (rehash_erase (b_slots h) (Buf (zeroed 11) 2 true)) as He. rewrite Hh in He. symmetry in He.
    apply WordSame.rehash_shape in He as (C1 & _ & C2); [|cbn; lia|vm_compute; lia].
    assert (b_cap new = 11) as C3 by (rewrite C1; by vm_compute).
    change (length (b_slots h)) with (b_cap h). rewrite Hc0.
    assert (b_sz new = 2) as C4 by (rewrite Hsz; [done|lia]).
    unfold saved, due. rewrite Hc0, Hs0, C3, C4. cbn. lia.
  - destruct Hs as [Hs|[Hs ->]].
    + assert (negb (b_cap h =? 0) && (b_sz h <? 2) = false) as E.
      { destruct (Nat.ltb_spec (b_sz h) 2); [lia|]. apply andb_false_r. }
      rewrite E in Hr. assert (due h = 0) as Hd.
      { unfold due. destruct (Nat.eqb_spec (b_cap h) 0); [lia|]. destruct (Nat.ltb_spec (b_sz h) 2); lia. }
      destruct (negb (b_cap h =? 0) && (5 * b_sz h <=? 4 * b_cap h)) eqn:E2; [injection Hr as <- <- <-; lia|].
      destruct (b_alloc h) eqn:Hal; cbn [negb] in Hr; [|injection Hr as <- <- <-; lia].
      destruct (Nat.eqb_spec (b_cap h) 0); [lia|]. cbn [negb andb] in E2. apply Nat.leb_gt in E2.
      destruct (Nat.leb_spec (next_prime (b_sz h * 2)) (b_cap h)) as [|Hlt]; [injection Hr as <- <- <-; lia|].
      destruct ok; cbn [negb] in Hr; [|injection Hr as <- <- <-; lia].
      apply WordSame.bind_Ok in Hr as ([new k] & Hh & [= <- <- <-]). pose proof (rehash_count _ _ _ _ Hh) as ->.
      pose proof (next_prime_range (b_sz h * 2)) as Hp.
      assert (next_prime (b_sz h * 2) <= Nat.max 11 (4 * (b_sz h * 2))) as Hp2.
      { pose proof (WordProofs.next_above (N.of_nat (b_sz h * 2))) as Ha. unfold next_prime.
        remember (first_above (N.of_nat (b_sz h * 2)) primes) as q eqn:Eq. clear Eq. lia. }
      remember (next_prime (b_sz h * 2)) as p eqn:Ep. clear Ep.
      assert (length (zeroed (K := K) (V := V) p) = p) as Hz by apply replicate_length.
      pose proof (rehash_erase (b_slots h) (Buf (zeroed p) 2 true)) as He. rewrite Hh in He. symmetry in He.
      apply WordSame.rehash_shape in He as (C1 & _ & C2); [|cbn; lia|unfold b_cap; cbn; lia].
      assert (b_cap new = p) as C3 by (rewrite C1; exact Hz).
      assert (b_sz new = b_sz h) as C4 by (rewrite Hsz; lia).
      change (length (b_slots h)) with (b_cap h). rewrite Hd. unfold saved, due. rewrite C3, C4.
      destruct (Nat.eqb_spec p 0); [lia|]. destruct (Nat.ltb_spec (b_sz h) 2); [lia|].
      clear -Hp Hp2 E2 Hlt Hc. lia.
    + assert (negb (b_cap h =? 0) && (b_sz h <? 2) = true) as E.
      { rewrite Hs. destruct (Nat.eqb_spec (b_cap h) 0); [lia|]. done. }
      rewrite E in Hr. destruct (Nat.ltb_spec (b_cap h) 2); [lia|].
      assert (b_cap (Buf (zeroed (K := K) (V := V) (b_cap h)) 2 (b_alloc h)) = b_cap h) as Hz by apply replicate_length.
      rewrite Hz in Hr. cbn [b_sz] in Hr.
      assert (negb (b_cap h =? 0) && (5 * 2 <=? 4 * b_cap h) = true) as E2.
      { destruct (Nat.eqb_spec (b_cap h) 0); [lia|]. destruct (Nat.leb_spec (5 * 2) (4 * b_cap h)); [done|lia]. }
      rewrite E2 in Hr. injection Hr as <- <- <-. unfold saved, due. rewrite Hz, Hs. cbn [b_sz].
      destruct (Nat.eqb_spec (b_cap h) 0); [lia|]. cbn [Nat.ltb Nat.leb]. lia.
Qed.

(** A call that does not resize. *)
Lemma keeps_pays (h h' : fhm) l l' a : fhm_ok h l -> fhm_ok h' l' -> keeps h h' -> length l' <= length l + a ->
  saved h' + due h' <= 26 * a + saved h + due h.
Proof.
  intros [_ H] [_ H'] (K1 & K2 & K3) Ha. unfold saved, due. rewrite K1 in *.
  destruct (Nat.eqb_spec (b_cap h) 0).
  - destruct H as [(_ & Hs & _)|?]; [|lia]. destruct H' as [(_ & Hs' & _)|?]; lia.
  - destruct H as [?|(? & _ & _ & Hs)]; [lia|]. destruct H' as [?|(_ & _ & _ & Hs')]; [lia|].
    destruct (Nat.ltb_spec (b_sz h) 2), (Nat.ltb_spec (b_sz h') 2); destruct Hs as [?|[? ->]], Hs' as [?|[? ->]]; cbn [length] in *; lia.
Qed.

Lemma ok_room (h : fhm) l : fhm_ok h l -> b_sz h <= b_cap h.
Proof. intros [_ [?|(? & _ & ? & [?|[? ?]])]]; lia. Qed.

Lemma step_pays h l o : fhm_ok h l ->
  exists h' r l' n, fhm_step_c wide hash_fn eqb h o = Ok (h', r, n) /\ fhm_ok h' l' /\
    n + saved h' + due h' <= 26 * adds o + saved h + due h.
Proof.
  intros Hok. destruct (step_Ok wide hash_fn eqb Hkey h l o Hok) as (h' & r & l' & Hs & _ & Hcall & Hok').
  apply call_adds in Hcall. pose proof Hs as Hs0. rewrite <- step_erase in Hs.
  destruct (fhm_step_c wide hash_fn eqb h o) as [[[h2 r2] n]| |] eqn:E; try done. cbn in Hs. injection Hs as -> ->.
  exists h', r, l', n. split; [done|]. split; [done|]. unfold fhm_step_c in E. destruct (entry_of o) as [[k ok]|] eqn:Eo.
  - destruct (entry_c wide hash_fn eqb h k ok) as [[[h1 e] k1]| |] eqn:Ee; try done. cbn in E.
    destruct (rest wide hash_fn o h1 e) as [[h3 r3]| |] eqn:Er; try done. cbn in E. injection E as -> -> <-.
    unfold entry_c in Ee. destruct (maybe_resize_c wide eqb h ok) as [[[h4 r4] k2]| |] eqn:Em; try done. cbn in Ee.
    destruct (find wide eqb h4 k _) as [e4| |]; try done. cbn in Ee. injection Ee as -> _ <-.
    apply (resize_pays h l) in Em as (Hok1 & Hp & _); [|done].
    apply rest_keeps in Er; [|by eapply ok_room]. pose proof (keeps_pays _ _ _ _ _ Hok1 Hok' Er Hcall). lia.
  - apply plain_keeps in Hs0; [|by eapply ok_room|done].
    destruct (fhm_step wide hash_fn eqb h o) as [[h3 r3]| |]; try done. cbn in E. injection E as -> -> <-.
    pose proof (keeps_pays _ _ _ _ _ Hok Hok' Hs0 Hcall). lia.
Qed.

Lemma run_pays os : forall h l, fhm_ok h l ->
  exists h' tr l' n, fhm_run_c wide hash_fn eqb h os = Ok (h', tr, n) /\ fhm_ok h' l' /\
    n + saved h' + due h' <= 26 * adds_all os + saved h + due h.
Proof.
  induction os as [|o os IH]; intros h l Hok; cbn [fhm_run_c adds_all].
  - exists h, [], l, 0. split; [done|]. split; [done|lia].
  - destruct (step_pays h l o Hok) as (h1 & r & l1 & n1 & -> & Hok1 & H1). cbn [tbind mbind outcome_bind obind].
    destruct (IH h1 l1 Hok1) as (h2 & tr & l2 & n2 & -> & Hok2 & H2). cbn [tbind mbind outcome_bind obind].
    eexists h2, _, l2, _. split; [done|]. split; [done|]. lia.
Qed.

Lemma history_pays cap grow (os : list (fhm_op K V)) : cap = 0 \/ 6 <= cap -> (N.of_nat cap < 2 ^ 64)%N ->
  exists h tr n, fhm_run_c wide hash_fn eqb (fresh_fhm cap grow) os = Ok (h, tr, n) /\
    n <= 26 * adds_all os + Nat.max 11 cap.
Proof.
  intros Hc Hm. destruct (run_pays os (fresh_fhm cap grow) []) as (h & tr & l & n & Hr & _ & Hn).
  { by apply fresh_ok. }
  exists h, tr, n. split; [done|].
  assert (b_cap (fresh_fhm (K := K) (V := V) cap grow) = cap) as Hz by apply replicate_length.
  unfold saved at 2, due at 2 in Hn. rewrite Hz in Hn. change (b_sz (fresh_fhm cap grow)) with 0 in Hn. cbn [Nat.ltb Nat.leb Nat.mul] in Hn.
  destruct (Nat.eqb_spec cap 0); lia.
Qed.

(** After clear every insertion writes the whole table. *)
Lemma rounds_cost kvs : forall (h : fhm), 6 <= b_cap h -> (N.of_nat (b_cap h) < 2 ^ 64)%N ->
  exists h', rounds_c wide hash_fn eqb h kvs = Ok (h', length kvs * b_cap h).
Proof.
  induction kvs as [|kv kvs IH]; intros h Hc Hm; cbn [rounds_c]; [by exists h|].
  unfold fhm_clear. cbn [negb mbind outcome_bind obind].
  assert (forall T al, 6 <= length T -> (N.of_nat (length T) < 2 ^ 64)%N ->
    exists h1 r, fhm_step_c wide hash_fn eqb (Buf T 0 al) (HInsert kv true) = Ok (h1, r, length T) /\ b_cap h1 = length T) as Hstep.
  { intros T al H6 HT.
    assert (fhm_step wide hash_fn eqb (Buf T 0 al) (HInsert kv true) = fhm_step wide hash_fn eqb (fresh_fhm (length T) al) (HInsert kv true)) as Hz.
    { by apply step_zeroed. }
    destruct (step_Ok wide hash_fn eqb Hkey (fresh_fhm (length T) al) [] (HInsert kv true)) as (h1 & r & l' & Hs & _).
    { apply fresh_ok; [by right|done]. }
    rewrite Hs, <- step_erase in Hz.
    destruct (fhm_step_c wide hash_fn eqb (Buf T 0 al) (HInsert kv true)) as [[[h2 r2] n]| |] eqn:E; try done. cbn in Hz. injection Hz as -> ->.
    exists h1, r. unfold fhm_step_c in E. cbn [entry_of] in E.
    destruct (entry_c wide hash_fn eqb (Buf T 0 al) (fst kv) true) as [[[h3 e] k1]| |] eqn:Ee; try done. cbn [tbind mbind outcome_bind obind] in E.
    destruct (rest wide hash_fn (HInsert kv true) h3 e) as [[h4 r4]| |] eqn:Er; try done. cbn in E. injection E as -> -> <-.
    assert (h3 = Buf (zeroed (length T)) 2 al /\ k1 = length T) as [-> ->].
    { unfold entry_c in Ee.
      assert (maybe_resize_c wide eqb (Buf T 0 al) true = Ok (Buf (zeroed (length T)) 2 al, OK, length T)) as Em.
      { unfold maybe_resize_c. change (b_cap (Buf T 0 al)) with (length T). cbn [b_sz b_alloc].
        assert (negb (length T =? 0) && (0 <? 2) = true) as -> by (destruct (Nat.eqb_spec (length T) 0); [lia|done]). cbv zeta.
        destruct (Nat.ltb_spec (length T) 2); [lia|].
        assert (b_cap (Buf (zeroed (K := K) (V := V) (length T)) 2 al) = length T) as -> by apply replicate_length. cbn [b_sz].
        assert (negb (length T =? 0) && (5 * 2 <=? 4 * length T) = true) as ->.
        { destruct (Nat.eqb_spec (length T) 0); [lia|]. destruct (Nat.leb_spec (5 * 2) (4 * length T)); [done|lia]. }
        done. }
      rewrite Em in Ee. cbn [tbind mbind outcome_bind obind] in Ee. destruct (find _ _ _ _ _); try done. cbn in Ee. injection Ee as <- _ <-. split; [done|lia]. }
    assert (b_cap (Buf (zeroed (K := K) (V := V) (length T)) 2 al) = length T) as Hz by apply replicate_length.
    apply rest_keeps in Er as (K1 & _); [|rewrite Hz; cbn; lia]. rewrite K1, Hz. rewrite Nat.add_0_r. done. }
  destruct (Hstep (b_slots h) (b_alloc h)) as (h1 & r & Hs & Hc1); [done..|].
  unfold with_size. rewrite Hs. cbn [tbind mbind outcome_bind obind]. change (length (b_slots h)) with (b_cap h) in *.
  destruct (IH h1) as (h' & ->); [lia|by rewrite Hc1|]. cbn. exists h'. by rewrite Hc1.
Qed.
End cost.
