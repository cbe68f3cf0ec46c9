(** Properties of the flat hash map. *)
From stdpp Require Import base numbers option list list_numbers.
From Verif Require Import Common BufferModel FhmModel FhmSpec FhmProofs FhmMapProofs.

(** States reached by any history from an empty map without memory, or with
    zeroed memory for at least six slots. *)
Definition reachable {K V} (wide : bool) (hash_fn : K -> N) (eqb : K -> K -> bool)
    (h : buf (hcell K V)) : Prop :=
  exists cap grow os tr, (cap = 0 \/ 6 <= cap) /\ (N.of_nat cap < 2 ^ 64)%N /\
    fhm_run wide hash_fn eqb (fresh_fhm cap grow) os = Ok (h, tr).

Section lemmas.
Context {K V : Type} (wide : bool) (hash_fn : K -> N) (eqb : K -> K -> bool).
Context (Hkey : key_ok hash_fn eqb).

Lemma reachable_ok (h : buf (hcell K V)) : reachable wide hash_fn eqb h ->
  exists l, fhm_ok wide hash_fn eqb h l.
Proof.
  intros (cap & grow & os & tr & Hc & Hm & Hr).
  destruct (run_Ok wide hash_fn eqb Hkey os (fresh_fhm cap grow) [] (fresh_ok wide hash_fn eqb cap grow Hc Hm))
    as (h' & tr' & l & Hr' & Hok & _). rewrite Hr in Hr'. simplify_eq. eauto.
Qed.

Lemma reachable_iter (h : buf (hcell K V)) : reachable wide hash_fn eqb h ->
  exists l, fhm_iter h = Ok l /\ uniq eqb l /\
    (forall k, fhm_get wide hash_fn eqb h k = Ok (assoc eqb k l)) /\
    fhm_size h = N.of_nat (length l) /\ exists l0, fhm_ok wide hash_fn eqb h l0 /\ l0 ≡ₚ l.
Proof.
  intros (l & Hok)%reachable_ok. destruct (fhm_iter_Ok wide hash_fn eqb h l Hok) as (l' & Hi & Hp).
  pose proof (ok_uniq wide hash_fn eqb h l Hok) as Hu.
  exists l'. split; [done|]. split; [by eapply (uniq_perm hash_fn eqb Hkey)|].
  split. { intros k. rewrite (get_Ok wide hash_fn eqb Hkey h l k Hok). f_equal.
           by apply (assoc_perm hash_fn eqb Hkey). }
  split. { rewrite (fhm_size_Ok wide hash_fn eqb h l Hok). by rewrite (Permutation_length Hp). }
  exists l. done.
Qed.

Lemma history (cap : nat) (grow : bool) (os : list (fhm_op K V)) :
  cap = 0 \/ 6 <= cap -> (N.of_nat cap < 2 ^ 64)%N ->
  exists h tr l, fhm_run wide hash_fn eqb (fresh_fhm cap grow) os = Ok (h, tr) /\
    fhm_trace eqb [] tr l /\ uniq eqb l /\
    (forall k, fhm_get wide hash_fn eqb h k = Ok (assoc eqb k l)) /\
    fhm_size h = N.of_nat (length l) /\ map (fun x => fst (fst x)) tr = os.
Proof.
  intros Hc Hm.
  destruct (run_Ok wide hash_fn eqb Hkey os (fresh_fhm cap grow) [] (fresh_ok wide hash_fn eqb cap grow Hc Hm))
    as (h & tr & l & Hr & Hok & _ & Htr & Hmap).
  exists h, tr, l. split; [done|]. split; [done|]. split; [by eapply ok_uniq|].
  split; [intros k; by apply get_Ok|]. split; [|done]. by eapply fhm_size_Ok.
Qed.

Lemma growth (h : buf (hcell K V)) ok : reachable wide hash_fn eqb h ->
  exists h' r l l', maybe_resize wide eqb h ok = Ok (h', r) /\
    fhm_iter h = Ok l /\ fhm_iter h' = Ok l' /\ l' ≡ₚ l /\ fhm_size h' = fhm_size h /\
    (forall k, fhm_get wide hash_fn eqb h' k = fhm_get wide hash_fn eqb h k) /\
    (r = OK <-> fhm_full h ok = false) /\
    (r <> OK -> b_cap h' = b_cap h /\ (fhm_size h <> 0%N -> h' = h)).
Proof.
  intros (l & Hok)%reachable_ok.
  destruct (maybe_resize_Ok wide hash_fn eqb Hkey h l ok Hok) as (h' & r & Hr & Hok' & _ & Hfull & _ & _ & _ & Href).
  destruct (fhm_iter_Ok wide hash_fn eqb h l Hok) as (l1 & Hi1 & Hp1).
  destruct (fhm_iter_Ok wide hash_fn eqb h' l Hok') as (l2 & Hi2 & Hp2).
  exists h', r, l1, l2. split_and!; try done.
  - by rewrite Hp2, Hp1.
  - by rewrite !(fhm_size_Ok wide hash_fn eqb _ l).
  - intros k. by rewrite !(get_Ok wide hash_fn eqb Hkey _ l).
  - intros Hne. destruct (Href Hne) as [Hc Hsame]. split; [done|]. intros Hs. apply Hsame.
    rewrite (fhm_size_Ok wide hash_fn eqb _ l Hok) in Hs.
    destruct Hok as [_ [(_ & _ & ->)|(_ & _ & _ & [?|[_ ->]])]]; done.
Qed.

Lemma probe (h : buf (hcell K V)) k : reachable wide hash_fn eqb h ->
  (b_cap h = 0 \/ exists i kv, 2 <= i < b_cap h /\ b_slots h !! i = Some (Some (0%N, kv))) /\
  exists e, find wide eqb h k (filter hash_fn k) = Ok e /\ has (e_st e) ST_INPUT_ERROR = false /\
    (has (e_st e) ST_OCCUPIED = true <-> exists kv, fhm_get wide hash_fn eqb h k = Ok (Some kv)).
Proof.
  intros (l & Hok)%reachable_ok. split.
  - destruct Hok as [_ [(? & _)|(Hc & Htbl & Hr & _)]]; [by left|right].
    destruct (empty_slot wide hash_fn eqb _ _ Htbl Hr) as (z & Hz & Ez). destruct Htbl as (_ & HT & _).
    destruct (occ_at_None hash_fn _ z HT (proj2 Hz) Ez) as [kv E]. exists z, kv. done.
  - rewrite (get_Ok wide hash_fn eqb Hkey _ l k Hok).
    destruct (lookup_cases wide hash_fn eqb Hkey h l k Hok) as (e & He & Hcase). exists e. split; [done|].
    destruct Hcase as [(Hc & -> & Hs)|[(Hc & i & kv & -> & Hi & Ho & Ha & Hs)|(Hc & Hs & Ha)]].
    + unfold find in He. rewrite Hc in He. cbn [Nat.eqb] in He. simplify_eq. split; [done|]. split; [done|].
      by intros [? ?].
    + split; [done|]. rewrite Ha. split; [eauto|done].
    + split; [|rewrite Hs, Ha; split; [done|by intros [? ?]]].
      destruct h as [T sz al]. destruct Hok as [_ [(? & _)|(_ & Htbl & Hr & Hsz)]]; [done|].
      cbn [b_slots b_sz] in *. unfold b_cap in *. cbn [b_slots] in *.
      destruct (find_Ok wide hash_fn eqb Hkey T sz al l k Htbl Hr) as (i & st & Hf & _ & Hst).
      { destruct Hsz as [->|[-> _]]; lia. }
      rewrite Hf in He. simplify_eq. by destruct Hst as [(-> & _)|(-> & _)].
Qed.

Lemma entry_ops (h : buf (hcell K V)) k f ok : reachable wide hash_fn eqb h -> fhm_full h ok = false ->
  exists l, fhm_iter h = Ok l /\
  (exists h', fhm_step wide hash_fn eqb h (HAndModify k f ok) =
        Ok (h', RVal ((fun x => (fst x, f (snd x))) <$> assoc eqb k l)) /\
      fhm_size h' = fhm_size h /\
      forall k', fhm_get wide hash_fn eqb h' k' =
        Ok ((if eqb k k' then fun x => (fst x, f (snd x)) else fun x => x) <$> assoc eqb k' l)) /\
  (exists h', fhm_step wide hash_fn eqb h (HRemoveEntry k ok) =
        Ok (h', REnt (Res None (match assoc eqb k l with Some _ => true | None => false end) false)) /\
      forall k', fhm_get wide hash_fn eqb h' k' = Ok (if eqb k k' then None else assoc eqb k' l)).
Proof.
  intros (l & Hi & _ & _ & _ & l0 & Hok & Hp)%reachable_iter Hf. exists l. split; [done|].
  apply entry_ops_Ok; try done. by eapply (fhm_ok_perm wide hash_fn eqb Hkey).
Qed.

Lemma clear_plain (h : buf (hcell K V)) : exists h', fhm_clear h false = Ok (h', []) /\
  fhm_size h' = 0%N /\ fhm_is_empty h' = true /\ fhm_iter h' = Ok [] /\
  (forall o, asks_entry o ->
     fhm_step wide hash_fn eqb h' o = fhm_step wide hash_fn eqb (fresh_fhm (b_cap h) (b_alloc h)) o).
Proof.
  exists (with_size h 0). split; [done|]. split; [done|]. split; [done|].
  split. { unfold fhm_iter, fhm_begin. cbn. by destruct (length _). }
  intros o Ho. by apply step_zeroed.
Qed.

Lemma clear_destructor (h : buf (hcell K V)) : reachable wide hash_fn eqb h ->
  exists l d, fhm_iter h = Ok l /\ fhm_clear h true = Ok (h, d) /\ d ≡ₚ l.
Proof.
  intros (l & Hi & _ & _ & _ & l0 & Hok & Hp)%reachable_iter.
  destruct (destroyed_map wide hash_fn eqb h l0 Hok) as (d & Hd & Hpd). exists l, d.
  split; [done|]. unfold fhm_clear. cbn [negb]. rewrite Hd. split; [done|]. by rewrite Hpd.
Qed.

Lemma iteration (h : buf (hcell K V)) : reachable wide hash_fn eqb h ->
  exists l, fhm_iter h = Ok l /\ uniq eqb l /\ fhm_size h = N.of_nat (length l) /\
    forall kv, kv ∈ l <-> fhm_get wide hash_fn eqb h (fst kv) = Ok (Some kv).
Proof.
  intros (l & Hi & Hu & Hg & Hs & _)%reachable_iter. exists l. split_and!; try done.
  intros kv. rewrite Hg. split.
  - intros Hin. f_equal. apply (assoc_uniq hash_fn eqb Hkey); try done. by destruct Hkey.
  - intros [= Ha]. by apply (assoc_Some eqb) in Ha as [? _].
Qed.

Lemma free_plain (h : buf (hcell K V)) : b_alloc h = true ->
  fhm_clear_and_free h false = Ok (fresh_fhm 0 true, OK, []).
Proof. destruct h as [T sz al]. cbn. by intros ->. Qed.

Lemma free_destructor (h : buf (hcell K V)) : reachable wide hash_fn eqb h -> b_alloc h = true ->
  exists l d h', fhm_iter h = Ok l /\ fhm_clear_and_free h true = Ok (h', OK, d) /\ d ≡ₚ l /\ b_cap h' = 0 /\
    forall o, asks_entry o -> op_ok o = true ->
      fhm_step wide hash_fn eqb h' o = fhm_step wide hash_fn eqb (fresh_fhm 0 true) o.
Proof.
  intros (l & Hi & _ & _ & _ & l0 & Hok & Hp)%reachable_iter Hal.
  destruct (destroyed_map wide hash_fn eqb h l0 Hok) as (d & Hd & Hpd). exists l, d, (Buf [] (b_sz h) true).
  split; [done|]. unfold fhm_clear_and_free. cbn [negb]. rewrite Hd. destruct h as [T sz al]. cbn in Hal. subst al. split; [by destruct T|]. cbn [b_sz].
  split; [by rewrite Hpd|]. split; [done|].
  assert (forall k, entry wide hash_fn eqb (Buf [] sz true) k true =
     entry (V:=V) wide hash_fn eqb (Buf [] 0 true) k true) as He by done.
  intros o Ho Hok'. unfold fresh_fhm. change (zeroed 0) with (@nil (option (hcell K V))).
  destruct o; cbn [op_ok] in Hok'; try done; subst ok; cbn [fhm_step];
    unfold fhm_contains, fhm_insert, fhm_try_insert, fhm_insert_or_assign, fhm_try_insert_w, fhm_insert_or_assign_w, via_entry;
    by rewrite He.
Qed.

Lemma iterate_alloc (T : slots (hcell K V)) sz a a' : forall fuel cur,
  iterate fuel (Buf T sz a) cur = iterate fuel (Buf T sz a') cur.
Proof.
  induction fuel as [|f IH]; intros [i|]; cbn [iterate]; try done. cbn [b_slots].
  destruct (get_kv T i); try done. cbn [mbind outcome_bind obind].
  change (fhm_next (Buf T sz a) i) with (fhm_next (Buf T sz a') i).
  destruct (fhm_next (Buf T sz a') i); try done. cbn [mbind outcome_bind obind]. by rewrite IH.
Qed.

Lemma copying (dst src : buf (hcell K V)) fn ok : reachable wide hash_fn eqb src ->
  b_cap dst = b_cap src \/ (b_cap dst < b_cap src /\ fn = true /\ ok = true) ->
  exists dst', fhm_copy dst src fn ok = Ok (dst', OK) /\ fhm_iter dst' = fhm_iter src /\
    (forall k, fhm_get wide hash_fn eqb dst' k = fhm_get wide hash_fn eqb src k) /\
    fhm_size dst' = fhm_size src /\
    exists l, fhm_ok wide hash_fn eqb dst' l.
Proof.
  intros (l & Hi & _ & _ & _ & l0 & Hok & Hp)%reachable_iter Hc.
  destruct (copy_fhm_Ok wide hash_fn eqb dst src l0 fn ok Hok Hc) as (dst' & Hcp & Hok' & ->).
  eexists. split; [done|]. destruct src as [T sz al]. cbn [b_slots b_sz] in *.
  split. { unfold fhm_iter. change (fhm_begin (Buf T sz (b_alloc dst))) with (fhm_begin (Buf T sz al)).
           destruct (fhm_begin (Buf T sz al)); try done. apply iterate_alloc. }
  split. { intros k. by rewrite (get_Ok wide hash_fn eqb Hkey _ l0 k Hok'), (get_Ok wide hash_fn eqb Hkey _ l0 k Hok). }
  split; [done|]. eauto.
Qed.

Lemma first_above_ne n p (l : list N) : p ∈ l -> (n < p)%N -> Forall (fun q => (0 < q)%N) l -> first_above n l <> 0%N.
Proof.
  intros Hin Hlt. induction l as [|q l IH]; [by apply elem_of_nil in Hin|]. intros [Hq Hl]%Forall_cons. simpl.
  destruct (N.ltb_spec n q); [lia|]. apply elem_of_cons in Hin as [->|Hin]; [lia|]. by apply IH.
Qed.

Lemma next_prime_ne n : (N.of_nat n < 17617221824571301183)%N -> next_prime n <> 0.
Proof.
  intros Hn. unfold next_prime.
  assert (first_above (N.of_nat n) primes <> 0%N) as H; [|lia].
  eapply first_above_ne; [|exact Hn|].
  - unfold primes. do 57 right. left.
  - repeat (constructor; [done|]). constructor.
Qed.

Lemma grows (h : buf (hcell K V)) : reachable wide hash_fn eqb h -> b_alloc h = true ->
  (fhm_size h < 2 ^ 62)%N -> fhm_full h true = false.
Proof.
  intros (l & Hok)%reachable_ok Hal Hs. rewrite (fhm_size_Ok wide hash_fn eqb h l Hok) in Hs.
  unfold fhm_full. rewrite Hal. cbn [andb].
  destruct Hok as [Hm [(Hc & Hsz & ->)|(Hc & _ & Hr & Hsz)]]; [by rewrite Hc|].
  destruct (Nat.eqb_spec (b_cap h) 0); [lia|]. cbn [orb].
  destruct Hsz as [Hsz|[Hsz ->]]; rewrite Hsz.
  - destruct (Nat.ltb_spec (2 + length l) 2); [lia|].
    destruct (Nat.ltb_spec (4 * b_cap h) (5 * (2 + length l))) as [Hlt|]; [|done]. cbn [andb].
    assert (next_prime ((2 + length l) * 2) <> 0) as Hne.
    { apply next_prime_ne. assert (2 ^ 62 = 4611686018427387904)%N as E by done. rewrite E in Hs. lia. }
    destruct (next_prime_range ((2 + length l) * 2)) as [?|(Hnp & _)]; [done|].
    destruct (Nat.ltb_spec (b_cap h) (next_prime ((2 + length l) * 2))); [done|lia].
  - change (0 <? 2) with true. cbv iota. destruct (Nat.ltb_spec (4 * b_cap h) (5 * 2)); [lia|done].
Qed.

End lemmas.

Lemma key_ok_nat (hash_fn : nat -> N) : key_ok hash_fn Nat.eqb.
Proof.
  split_and!.
  - apply Nat.eqb_refl.
  - intros a b. by rewrite Nat.eqb_sym.
  - intros a b c ->%Nat.eqb_eq ->%Nat.eqb_eq. apply Nat.eqb_refl.
  - by intros a b ->%Nat.eqb_eq.
Qed.

(** C16: every history from an empty map agrees with an association list;
    [fhm_trace] says what each call returned and did. *)
Theorem C16_map_history :
  forall (K V : Type) (wide : bool) (hash_fn : K -> N) (eqb : K -> K -> bool), key_ok hash_fn eqb ->
  forall (cap : nat) (grow : bool) (os : list (fhm_op K V)),
  cap = 0 \/ 6 <= cap -> (N.of_nat cap < 2 ^ 64)%N ->
  exists h tr l, fhm_run wide hash_fn eqb (fresh_fhm cap grow) os = Ok (h, tr) /\
    fhm_trace eqb [] tr l /\ uniq eqb l /\
    (forall k, fhm_get wide hash_fn eqb h k = Ok (assoc eqb k l)) /\
    fhm_size h = N.of_nat (length l) /\ map (fun x => fst (fst x)) tr = os.
Proof. exact @history. Qed.

(** The association list behaves as a map: what a stored or deleted key does
    to later lookups. *)
Theorem C16_spec_put :
  forall (K V : Type) (hash_fn : K -> N) (eqb : K -> K -> bool), key_ok hash_fn eqb ->
  forall (kv old : K * V) l k', assoc eqb (fst kv) l = Some old ->
  assoc eqb k' (put eqb kv l) = if eqb (fst kv) k' then Some kv else assoc eqb k' l.
Proof. exact @assoc_put. Qed.

Theorem C16_spec_del :
  forall (K V : Type) (hash_fn : K -> N) (eqb : K -> K -> bool), key_ok hash_fn eqb ->
  forall k (l : list (K * V)) k', uniq eqb l ->
  assoc eqb k' (del eqb k l) = if eqb k k' then None else assoc eqb k' l.
Proof. exact @assoc_del. Qed.

(** A history with collisions, growth, overwriting and removal. *)
Example C16_case :
  exists h tr, fhm_run false (fun _ : nat => 5%N) Nat.eqb (fresh_fhm 0 true)
      (map (fun k => HInsert (k, k * k) true) (seq 1 12) ++
       [HInsert (3, 0) true; HRemove 4; HGet 3; HGet 4; HGet 12; HSize; HValidate]) = Ok (h, tr) /\
    b_cap h = 37 /\
    map snd (drop 12 tr) = [REnt (Res (Some (3, 9)) true false); REnt (Res (Some (4, 16)) true false);
      RVal (Some (3, 0)); RVal None; RVal (Some (12, 144)); RNum 11; RBool true].
Proof. eexists _, _. vm_compute. done. Qed.

(** C17: what the table growth does to the contents; [maybe_resize] is the only
    place where the table is replaced. *)
Theorem C17_growth_keeps_entries :
  forall (K V : Type) (wide : bool) (hash_fn : K -> N) (eqb : K -> K -> bool), key_ok hash_fn eqb ->
  forall (h : buf (hcell K V)) ok, reachable wide hash_fn eqb h ->
  exists h' r l l', maybe_resize wide eqb h ok = Ok (h', r) /\
    fhm_iter h = Ok l /\ fhm_iter h' = Ok l' /\ l' ≡ₚ l /\ fhm_size h' = fhm_size h /\
    (forall k, fhm_get wide hash_fn eqb h' k = fhm_get wide hash_fn eqb h k) /\
    (r = OK <-> fhm_full h ok = false) /\
    (r <> OK -> b_cap h' = b_cap h /\ (fhm_size h <> 0%N -> h' = h)).
Proof. exact @growth. Qed.

(** A growing map whose allocator answers always has room for a new key. *)
Theorem C17_growth_succeeds :
  forall (K V : Type) (wide : bool) (hash_fn : K -> N) (eqb : K -> K -> bool), key_ok hash_fn eqb ->
  forall (h : buf (hcell K V)), reachable wide hash_fn eqb h -> b_alloc h = true ->
  (fhm_size h < 2 ^ 62)%N -> fhm_full h true = false.
Proof. exact @grows. Qed.

(** A refused growth is reported by the inserting call and loses nothing. *)
Example C17_case :
  exists h tr, fhm_run true (fun k : nat => N.of_nat k) Nat.eqb (fresh_fhm 0 true)
      (map (fun k => HInsert (k, k) true) (seq 1 7) ++ [HInsert (8, 8) false; HInsert (9, 9) true; HSize]) = Ok (h, tr) /\
    map snd (drop 7 tr) = [REnt (Res None false true); REnt (Res None false false); RNum 8].
Proof. eexists _, _. vm_compute. done. Qed.

(** C18: an unoccupied slot remains, and every probe ends without an error. *)
Theorem C18_probe_terminates_partial :
  (* missing: capacities 1 to 5, for which it is false, see the refutations *)
  forall (K V : Type) (wide : bool) (hash_fn : K -> N) (eqb : K -> K -> bool), key_ok hash_fn eqb ->
  forall (h : buf (hcell K V)) k, reachable wide hash_fn eqb h ->
  (b_cap h = 0 \/ exists i kv, 2 <= i < b_cap h /\ b_slots h !! i = Some (Some (0%N, kv))) /\
  exists e, find wide eqb h k (filter hash_fn k) = Ok e /\ has (e_st e) ST_INPUT_ERROR = false /\
    (has (e_st e) ST_OCCUPIED = true <-> exists kv, fhm_get wide hash_fn eqb h k = Ok (Some kv)).
Proof. exact @probe. Qed.

(** A table of three, four or five slots fills completely, and a stored key is
    then reported absent; insertions of it fail. *)
Theorem C18_small_capacity_refuted :
  forall cap, cap ∈ [3; 4; 5] ->
  exists h tr, fhm_run false (fun k : nat => N.of_nat k) Nat.eqb (fresh_fhm cap false)
      (map (fun k => HInsert (k, k) true) (seq 1 (cap - 2)) ++
       [HSize; HGet 1; HContains 1 true; HRemove 1]) = Ok (h, tr) /\
    map snd (drop (cap - 2) tr) =
      [RNum (N.of_nat (cap - 2)); RVal None; RBool false; REnt (Res None false false)].
Proof.
  intros cap Hc. repeat (apply elem_of_cons in Hc as [->|Hc]; [eexists _, _; vm_compute; done|]).
  by apply elem_of_nil in Hc.
Qed.

(** Being allowed to grow does not help get_key_val and remove. *)
Theorem C18_small_growing_refuted :
  forall cap, cap ∈ [3; 4; 5] ->
  exists h tr, fhm_run false (fun k : nat => N.of_nat k) Nat.eqb (fresh_fhm cap true)
      (map (fun k => HInsert (k, k) true) (seq 1 (cap - 2)) ++ [HSize; HGet 1; HRemove 1]) = Ok (h, tr) /\
    map snd (drop (cap - 2) tr) = [RNum (N.of_nat (cap - 2)); RVal None; REnt (Res None false false)].
Proof.
  intros cap Hc. repeat (apply elem_of_cons in Hc as [->|Hc]; [eexists _, _; vm_compute; done|]).
  by apply elem_of_nil in Hc.
Qed.

(** With a single slot the size wraps around. *)
Theorem C18_one_slot_size_refuted :
  exists h tr, fhm_run false (fun k : nat => N.of_nat k) Nat.eqb (fresh_fhm (V := nat) 1 false)
      [HContains 1 true; HSize] = Ok (h, tr) /\
    map snd tr = [RBool false; RNum (2 ^ 64 - 1)].
Proof. eexists _, _. vm_compute. done. Qed.

(** A map over memory that was never written must not be read before the first
    call that asks for an entry. *)
Theorem C18_raw_memory_refuted :
  fhm_get false (fun k : nat => N.of_nat k) Nat.eqb (raw_fhm (V := nat) 11 false) 1 = UB /\
  fhm_remove false (fun k : nat => N.of_nat k) Nat.eqb (raw_fhm (V := nat) 11 false) 1 = UB.
Proof. vm_compute. done. Qed.

Example C18_case : exists h : buf (hcell nat nat),
  reachable false (fun k : nat => N.of_nat k) Nat.eqb h /\ b_cap h = 6 /\ fhm_size h = 3%N.
Proof.
  eexists. split; [|].
  { exists 6, false, (map (fun k => HInsert (k, k) true) (seq 1 9)). eexists.
    split; [lia|]. split; [done|]. vm_compute. reflexivity. }
  vm_compute. done.
Qed.

(** C19: with room left, and_modify and remove_entry act exactly on a present
    key. *)
Theorem C19_entry_operations_partial :
  (* missing: tables at their load limit, for which it is false *)
  forall (K V : Type) (wide : bool) (hash_fn : K -> N) (eqb : K -> K -> bool), key_ok hash_fn eqb ->
  forall (h : buf (hcell K V)) k f ok, reachable wide hash_fn eqb h -> fhm_full h ok = false ->
  exists l, fhm_iter h = Ok l /\
  (exists h', fhm_step wide hash_fn eqb h (HAndModify k f ok) =
        Ok (h', RVal ((fun x => (fst x, f (snd x))) <$> assoc eqb k l)) /\
      fhm_size h' = fhm_size h /\
      forall k', fhm_get wide hash_fn eqb h' k' =
        Ok ((if eqb k k' then fun x => (fst x, f (snd x)) else fun x => x) <$> assoc eqb k' l)) /\
  (exists h', fhm_step wide hash_fn eqb h (HRemoveEntry k ok) =
        Ok (h', REnt (Res None (match assoc eqb k l with Some _ => true | None => false end) false)) /\
      forall k', fhm_get wide hash_fn eqb h' k' = Ok (if eqb k k' then None else assoc eqb k' l)).
Proof. exact @entry_ops. Qed.

(** A fixed table at its load limit: the key is present, yet remove_entry
    reports it absent and keeps it, and_modify does nothing, and the macro forms
    of or_insert and insert_entry return NULL. *)
Theorem C19_full_table_refuted :
  exists h tr, fhm_run false (fun k : nat => N.of_nat k) Nat.eqb (fresh_fhm 6 false)
      (map (fun k => HInsert (k, k) true) (seq 1 3) ++
       [HContains 1 true; HRemoveEntry 1 true; HContains 1 true;
        HAndModify 1 S true; HGet 1; HOrInsertW (1, 0) true; HInsertEntryW (1, 0) true; HGet 1]) = Ok (h, tr) /\
    map snd (drop 3 tr) =
      [RBool true; REnt (Res None false false); RBool true;
       RVal (Some (1, 1)); RVal (Some (1, 1)); RVal None; RVal None; RVal (Some (1, 1))].
Proof. eexists _, _. vm_compute. done. Qed.

Example C19_case : exists h : buf (hcell nat nat),
  reachable false (fun k : nat => N.of_nat k) Nat.eqb h /\ fhm_full h true = false /\ fhm_size h = 2%N.
Proof.
  eexists. split; [|].
  { exists 6, false, (map (fun k => HInsert (k, k) true) (seq 1 2)). eexists.
    split; [lia|]. split; [done|]. vm_compute. reflexivity. }
  vm_compute. done.
Qed.

(** C20: clear without a destructor resets the size; calls that ask for an
    entry then behave as on a new map. *)
Theorem C20_clear_partial :
  (* missing: get_key_val, remove and validate straight after clear *)
  forall (K V : Type) (wide : bool) (hash_fn : K -> N) (eqb : K -> K -> bool),
  forall (h : buf (hcell K V)), exists h', fhm_clear h false = Ok (h', []) /\
  fhm_size h' = 0%N /\ fhm_is_empty h' = true /\ fhm_iter h' = Ok [] /\
  (forall o, asks_entry o ->
     fhm_step wide hash_fn eqb h' o = fhm_step wide hash_fn eqb (fresh_fhm (b_cap h) (b_alloc h)) o).
Proof. exact @clear_plain. Qed.

(** The destructor runs exactly once per entry. *)
Theorem C20_destructor_partial :
  (* missing: the map is not emptied *)
  forall (K V : Type) (wide : bool) (hash_fn : K -> N) (eqb : K -> K -> bool), key_ok hash_fn eqb ->
  forall (h : buf (hcell K V)), reachable wide hash_fn eqb h ->
  exists l d, fhm_iter h = Ok l /\ fhm_clear h true = Ok (h, d) /\ d ≡ₚ l.
Proof. exact @clear_destructor. Qed.

(** The cleared key is still found; with a destructor nothing is cleared. *)
Theorem C20_clear_refuted :
  exists (h h' : buf (hcell nat nat)),
    reachable false (fun k : nat => N.of_nat k) Nat.eqb h /\
    fhm_clear h false = Ok (h', []) /\ fhm_size h' = 0%N /\
    fhm_get false (fun k : nat => N.of_nat k) Nat.eqb h' 1 = Ok (Some (1, 1)).
Proof.
  eexists _, _. split; [|].
  { exists 11, false, [HInsert (1, 1) true]. eexists. split; [lia|]. split; [done|]. vm_compute. reflexivity. }
  vm_compute. done.
Qed.

Theorem C20_clear_destructor_refuted :
  exists (h : buf (hcell nat nat)),
    reachable false (fun k : nat => N.of_nat k) Nat.eqb h /\
    fhm_clear h true = Ok (h, [(1, 1)]) /\ fhm_size h = 1%N /\
    fhm_get false (fun k : nat => N.of_nat k) Nat.eqb h 1 = Ok (Some (1, 1)).
Proof.
  eexists. split; [|].
  { exists 11, false, [HInsert (1, 1) true]. eexists. split; [lia|]. split; [done|]. vm_compute. reflexivity. }
  vm_compute. done.
Qed.

Example C20_case : exists h : buf (hcell nat nat),
  reachable true (fun k : nat => (N.of_nat k * 2 ^ 60)%N) Nat.eqb h /\ fhm_size h = 9%N /\
  destroyed (b_slots h) = fhm_iter h.
Proof.
  eexists. split; [|].
  { exists 0, true, (map (fun k => HTryInsertW (k, k) true) (seq 1 9)). eexists.
    split; [lia|]. split; [done|]. vm_compute. reflexivity. }
  vm_compute. done.
Qed.

(** C21: iteration. *)
Theorem C21_iteration :
  forall (K V : Type) (wide : bool) (hash_fn : K -> N) (eqb : K -> K -> bool), key_ok hash_fn eqb ->
  forall (h : buf (hcell K V)), reachable wide hash_fn eqb h ->
  exists l, fhm_iter h = Ok l /\ uniq eqb l /\ fhm_size h = N.of_nat (length l) /\
    forall kv, kv ∈ l <-> fhm_get wide hash_fn eqb h (fst kv) = Ok (Some kv).
Proof. exact @iteration. Qed.

Example C21_case : exists h : buf (hcell nat nat),
  reachable false (fun k : nat => N.of_nat k) Nat.eqb h /\
  fhm_iter h = Ok [(12, 1); (2, 2); (24, 3); (7, 4)].
Proof.
  eexists. split; [|].
  { exists 11, false, (zip_with (fun k v => HInsert (k, v) true) [12; 2; 24; 7] [1; 2; 3; 4]). eexists.
    split; [lia|]. split; [done|]. vm_compute. reflexivity. }
  vm_compute. done.
Qed.

(** C39, hash map part. *)
Theorem C39_fhm_clear_and_free_plain :
  forall (K V : Type) (h : buf (hcell K V)), b_alloc h = true ->
  fhm_clear_and_free h false = Ok (fresh_fhm 0 true, OK, []).
Proof. exact @free_plain. Qed.

Theorem C39_fhm_clear_and_free_destructor_partial :
  (* missing: the size reported before the next call that asks for an entry *)
  forall (K V : Type) (wide : bool) (hash_fn : K -> N) (eqb : K -> K -> bool), key_ok hash_fn eqb ->
  forall (h : buf (hcell K V)), reachable wide hash_fn eqb h -> b_alloc h = true ->
  exists l d h', fhm_iter h = Ok l /\ fhm_clear_and_free h true = Ok (h', OK, d) /\ d ≡ₚ l /\ b_cap h' = 0 /\
    forall o, asks_entry o -> op_ok o = true ->
      fhm_step wide hash_fn eqb h' o = fhm_step wide hash_fn eqb (fresh_fhm 0 true) o.
Proof. exact @free_destructor. Qed.

Theorem C39_fhm_size_refuted :
  exists (h h' : buf (hcell nat nat)) d,
    reachable false (fun k : nat => N.of_nat k) Nat.eqb h /\
    fhm_clear_and_free h true = Ok (h', OK, d) /\ b_cap h' = 0 /\ fhm_size h' = 1%N.
Proof.
  eexists _, _, _. split; [|].
  { exists 0, true, [HInsert (1, 1) true]. eexists. split; [lia|]. split; [done|]. vm_compute. reflexivity. }
  vm_compute. done.
Qed.

(** C41, hash map part. *)
Theorem C41_fhm_copy_partial :
  (* missing: destinations larger than the source, for which it is false *)
  forall (K V : Type) (wide : bool) (hash_fn : K -> N) (eqb : K -> K -> bool), key_ok hash_fn eqb ->
  forall (dst src : buf (hcell K V)) fn ok, reachable wide hash_fn eqb src ->
  b_cap dst = b_cap src \/ (b_cap dst < b_cap src /\ fn = true /\ ok = true) ->
  exists dst', fhm_copy dst src fn ok = Ok (dst', OK) /\ fhm_iter dst' = fhm_iter src /\
    (forall k, fhm_get wide hash_fn eqb dst' k = fhm_get wide hash_fn eqb src k) /\
    fhm_size dst' = fhm_size src /\
    exists l, fhm_ok wide hash_fn eqb dst' l.
Proof. exact @copying. Qed.

(** Copied into a larger table the slots keep their positions, and the key is
    no longer found. *)
Theorem C41_fhm_larger_destination_refuted :
  exists (src dst dst' : buf (hcell nat nat)),
    reachable false (fun k : nat => N.of_nat k) Nat.eqb src /\
    reachable false (fun k : nat => N.of_nat k) Nat.eqb dst /\
    fhm_get false (fun k : nat => N.of_nat k) Nat.eqb src 12 = Ok (Some (12, 1)) /\
    fhm_copy dst src false false = Ok (dst', OK) /\ fhm_size dst' = 1%N /\
    fhm_get false (fun k : nat => N.of_nat k) Nat.eqb dst' 12 = Ok None.
Proof.
  eexists _, (fresh_fhm 13 false), _. split; [|split].
  { exists 11, false, [HInsert (12, 1) true]. eexists. split; [lia|]. split; [done|]. vm_compute. reflexivity. }
  { exists 13, false, []. eexists. split; [lia|]. split; [done|]. vm_compute. reflexivity. }
  vm_compute. done.
Qed.

(** A failed copy leaves the source's size in the destination. *)
Theorem C41_fhm_failure_refuted :
  exists (src dst dst' : buf (hcell nat nat)),
    reachable false (fun k : nat => N.of_nat k) Nat.eqb src /\
    reachable false (fun k : nat => N.of_nat k) Nat.eqb dst /\
    fhm_copy dst src true false = Ok (dst', MEM_ERR) /\ fhm_size dst' <> fhm_size dst.
Proof.
  eexists _, (fresh_fhm 0 true), _. split; [|split].
  { exists 11, false, [HInsert (12, 1) true]. eexists. split; [lia|]. split; [done|]. vm_compute. reflexivity. }
  { exists 0, true, []. eexists. split; [lia|]. split; [done|]. vm_compute. reflexivity. }
  vm_compute. done.
Qed.

Example C41_fhm_case : exists src dst' : buf (hcell nat nat),
  reachable false (fun k : nat => N.of_nat k) Nat.eqb src /\ fhm_size src = 2%N /\
  fhm_copy (fresh_fhm 0 true) src true true = Ok (dst', OK) /\ fhm_iter dst' = Ok [(12, 1); (3, 4)].
Proof.
  eexists _, _. split; [|].
  { exists 11, false, [HInsert (12, 1) true; HInsert (3, 4) true]. eexists. split; [lia|]. split; [done|].
    vm_compute. reflexivity. }
  vm_compute. done.
Qed.

Print Assumptions C16_map_history.
Print Assumptions C16_spec_put.
Print Assumptions C16_spec_del.
Print Assumptions C17_growth_keeps_entries.
Print Assumptions C17_growth_succeeds.
Print Assumptions C18_probe_terminates_partial.
Print Assumptions C18_small_capacity_refuted.
Print Assumptions C18_small_growing_refuted.
Print Assumptions C18_one_slot_size_refuted.
Print Assumptions C18_raw_memory_refuted.
Print Assumptions C19_entry_operations_partial.
Print Assumptions C19_full_table_refuted.
Print Assumptions C20_clear_partial.
Print Assumptions C20_destructor_partial.
Print Assumptions C20_clear_refuted.
Print Assumptions C20_clear_destructor_refuted.
Print Assumptions C21_iteration.
Print Assumptions C39_fhm_clear_and_free_plain.
Print Assumptions C39_fhm_clear_and_free_destructor_partial.
Print Assumptions C39_fhm_size_refuted.
Print Assumptions C41_fhm_copy_partial.
Print Assumptions C41_fhm_larger_destination_refuted.
Print Assumptions C41_fhm_failure_refuted.
