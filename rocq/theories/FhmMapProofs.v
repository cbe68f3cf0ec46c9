(** Proofs about the hash map model: calls and histories. *)
From stdpp Require Import base numbers option list list_numbers.
From Verif Require Import Common BufferModel ArrayLemmas FhmModel FhmSpec FhmProofs.

Section map_proofs.
Context {K V : Type} (wide : bool) (hash_fn : K -> N) (eqb : K -> K -> bool).
Context (Hkey : key_ok hash_fn eqb).
Notation cell := (hcell K V).
Notation fhm := (buf cell).
Notation to_i := (to_i wide).
Notation filter := (filter hash_fn).
Notation D cap i h := (distance cap i (to_i cap h)).
Notation tbl := (tbl wide hash_fn eqb).
Notation uniq := (uniq eqb).
Notation assoc := (assoc eqb).
Notation put := (put eqb).
Notation del := (del eqb).
Notation cont l := (omap (fun c => snd <$> occ c) l).

(** Between calls: no memory, or a table of at least six slots holding [l],
    not yet used or with its size field counting the two swap slots. *)
Definition fhm_ok (h : fhm) (l : list (K * V)) : Prop :=
  (N.of_nat (b_cap h) < 2 ^ 64)%N /\
  ((b_cap h = 0 /\ b_sz h = 0 /\ l = []) \/
   (6 <= b_cap h /\ tbl (b_slots h) l /\ 2 + length l < b_cap h /\
    (b_sz h = 2 + length l \/ b_sz h = 0 /\ l = []))).

Lemma zeroed_lookup cap i c : zeroed cap !! i = Some c -> c = Some (0%N, (None : option (K * V))).
Proof. unfold zeroed. intros [? _]%lookup_replicate. by simplify_eq. Qed.

Lemma zeroed_tbl cap : 3 <= cap -> tbl (zeroed cap : slots cell) [].
Proof.
  intros Hc. assert (length (zeroed (K:=K) (V:=V) cap) = cap) as Hl by apply replicate_length.
  assert (forall i, occ_at (zeroed (K:=K) (V:=V) cap) i = None) as Ho.
  { intros i. unfold occ_at. destruct (zeroed cap !! i) as [c|] eqn:E; [|done]. by apply zeroed_lookup in E as ->. }
  split_and!.
  - by rewrite Hl.
  - intros i c E. apply zeroed_lookup in E as ->. left. eauto.
  - intros p _ h kv. by rewrite Ho.
  - exists None. unfold zeroed. apply lookup_replicate. split; [done|lia].
  - exists None. unfold zeroed. apply lookup_replicate. split; [done|lia].
  - unfold contents. destruct (cont (drop 2 (zeroed cap))) as [|x xs] eqn:E; [done|].
    assert (x ∈ cont (drop 2 (zeroed (K:=K) (V:=V) cap))) as Hx by (rewrite E; by left).
    apply (elem_of_contents (zeroed cap)) in Hx as (i & h & _ & Hx). by rewrite Ho in Hx.
  - intros i j x y Hx. done.
Qed.

Lemma fresh_ok cap grow : (cap = 0 \/ 6 <= cap) -> (N.of_nat cap < 2 ^ 64)%N ->
  fhm_ok (fresh_fhm cap grow) [].
Proof.
  intros Hc Hm. unfold fhm_ok, b_cap. cbn [fresh_fhm b_slots b_sz].
  assert (length (zeroed (K:=K) (V:=V) cap) = cap) as -> by apply replicate_length.
  split; [done|]. destruct Hc as [->|Hc]; [by left|]. right. split_and!; [done| |simpl; lia|by right].
  apply zeroed_tbl. lia.
Qed.

Lemma first_above_range n l : (first_above n l = 0 \/ n < first_above n l /\ first_above n l ∈ l)%N.
Proof.
  induction l as [|p l IH]; simpl; [by left|]. destruct (N.ltb_spec n p).
  - right. split; [done|by left].
  - destruct IH as [?|[? ?]]; [by left|right]. split; [done|by right].
Qed.
Lemma primes_range : Forall (fun p => 11 <= p < 2 ^ 64)%N primes.
Proof. unfold primes. repeat constructor; done. Qed.
Lemma next_prime_range n : next_prime n = 0 \/ n < next_prime n /\ 11 <= next_prime n /\ (N.of_nat (next_prime n) < 2 ^ 64)%N.
Proof.
  unfold next_prime. destruct (first_above_range (N.of_nat n) primes) as [->|[Hlt Hin]]; [by left|right].
  pose proof primes_range as Hp. rewrite Forall_forall in Hp. specialize (Hp _ Hin).
  remember (first_above (N.of_nat n) primes) as p eqn:Ep. clear Ep. remember (2 ^ 64)%N as M eqn:EM. clear EM. lia.
Qed.
Lemma next_prime_0 : next_prime 0 = 11.
Proof. reflexivity. Qed.

Lemma rehash_Ok al (old : slots cell) : forall T l,
  Forall (fun c => cell_ok hash_fn c) old -> tbl T l -> uniq (cont old ++ l) ->
  3 + length (cont old) + length l < length T ->
  exists T' l', rehash wide eqb old (Buf T (2 + length l) al) = Ok (Buf T' (2 + length l') al) /\
    length T' = length T /\ tbl T' l' /\ l' ≡ₚ cont old ++ l.
Proof.
  induction old as [|c old IH]; intros T l Hok Htbl Hu Hroom.
  - exists T, l. done.
  - inversion Hok as [|? ? Hc Hold]; subst.
    assert (forall kv, c = Some (0%N, kv) -> occ c = None) as Hz by (intros [kv|] ->; done).
    destruct Hc as [[kv ->]|(k & v & ->)].
    + cbn [rehash]. rewrite N.eqb_refl. cbn [omap list_omap] in *. rewrite (Hz _ eq_refl) in *. cbn [fmap option_fmap option_map] in *.
      by apply IH.
    + pose proof (filter_range hash_fn k) as Hfr. cbn [rehash].
      destruct (N.eqb_spec (filter k) 0); [lia|].
      assert (occ (Some (filter k, Some (k, v))) = Some (filter k, (k, v))) as Eo by apply (occ_kv hash_fn (k, v)).
      cbn [omap list_omap] in *. rewrite Eo in *. cbn [fmap option_fmap option_map snd length app] in *.
      apply (uniq_cons hash_fn eqb Hkey) in Hu as [Hx Hu].
      assert (assoc k l = None) as Hn.
      { apply (assoc_None eqb). intros x Hin. apply Hx. apply elem_of_app. by right. }
      destruct (find_Ok wide hash_fn eqb Hkey T (2 + length l) al l k Htbl) as (i & st & Hf & Hi & Hres); [lia|lia|].
      cbn [fst]. rewrite Hf. cbn [mbind outcome_bind obind e_at].
      destruct Hres as [(-> & kv & _ & Ha)|(-> & _ & Hv)]; [congruence|].
      destruct (insert_Ok wide hash_fn eqb Hkey T (2 + length l) al l (k, v) i Htbl) as (T' & Hr & Hl & Ht' & _);
        [lia|lia|done|done|done|].
      cbn [fst] in Hr. rewrite Hr. cbn [mbind outcome_bind obind].
      replace (2 + length l + 1) with (2 + length ((k, v) :: l)) by (simpl; lia).
      destruct (IH T' ((k, v) :: l)) as (T2 & l2 & Hr2 & Hl2 & Ht2 & Hp2); try done.
      * eapply (uniq_perm hash_fn eqb Hkey ((k, v) :: (cont old ++ l))); [solve_Permutation|].
        apply (uniq_cons hash_fn eqb Hkey). done.
      * simpl. lia.
      * exists T2, l2. split; [exact Hr2|]. split; [congruence|]. split; [done|]. rewrite Hp2. solve_Permutation.
Qed.

(** Growth, first use and refusal. *)
Lemma maybe_resize_Ok h l ok : fhm_ok h l ->
  exists h' r, maybe_resize wide eqb h ok = Ok (h', r) /\ fhm_ok h' l /\ b_alloc h' = b_alloc h /\
    (r = OK <-> fhm_full h ok = false) /\ b_cap h <= b_cap h' /\
    (b_cap h' <> 0 -> b_sz h' = 2 + length l) /\
    (r = OK -> 6 <= b_cap h' /\ 3 + length l < b_cap h') /\
    (r <> OK -> b_cap h' = b_cap h /\ (b_sz h = 2 + length l -> h' = h)).
Proof.
  intros [Hm [(Hc0 & Hs0 & ->)|(Hc & Htbl & Hroom & Hsz)]].
  - unfold maybe_resize, fhm_full. rewrite Hc0. cbn [negb andb orb Nat.eqb].
    rewrite Hc0. cbn [negb andb orb Nat.eqb]. destruct (b_alloc h) eqn:Hal; cbn [negb andb].
    + rewrite next_prime_0. cbn [Nat.leb Nat.ltb]. destruct ok; cbn [negb andb].
      * assert (b_slots h = []) as -> by (by apply nil_length_inv). cbn [rehash mbind outcome_bind obind].
        exists (Buf (zeroed 11) 2 true), OK. split; [done|]. split.
        -- split; [done|]. right. split_and!; [vm_compute; lia|apply zeroed_tbl; lia|vm_compute; lia|by left].
        -- split_and!; try done; vm_compute; lia.
      * exists h, MEM_ERR. split_and!; try done; [|lia]. split; [done|]. left. done.
    + exists h, NO_ALLOC. split_and!; try done; [|lia]. split; [done|]. left. done.
  - assert (exists h1, (if negb (b_cap h =? 0) && (b_sz h <? 2)
            then Buf (zeroed (b_cap h)) (if b_cap h <? 2 then b_cap h else 2) (b_alloc h)
            else h) = h1 /\ b_cap h1 = b_cap h /\ b_alloc h1 = b_alloc h /\ b_sz h1 = 2 + length l /\
            tbl (b_slots h1) l /\ (b_sz h = 2 + length l -> h1 = h)) as (h1 & E1 & Hc1 & Hal1 & Hsz1 & Htbl1 & Hsame).
    { destruct (Nat.eqb_spec (b_cap h) 0); [lia|]. cbn [negb andb].
      destruct Hsz as [Hsz|[Hsz ->]].
      - destruct (Nat.ltb_spec (b_sz h) 2); [lia|]. exists h. done.
      - rewrite Hsz. change (0 <? 2) with true. destruct (Nat.ltb_spec (b_cap h) 2); [lia|].
        eexists. split; [done|]. cbn [b_slots b_alloc b_sz length]. split_and!; try done.
        + apply replicate_length.
        + apply zeroed_tbl. lia. }
    unfold maybe_resize. rewrite E1. rewrite Hc1, Hsz1, Hal1.
    assert (fhm_ok h1 l) as Hok1.
    { split; [by rewrite Hc1|]. right. rewrite Hc1. split_and!; try done. by left. }
    unfold fhm_full. destruct (Nat.eqb_spec (b_cap h) 0); [lia|]. cbn [negb andb orb].
    assert ((if b_sz h <? 2 then 2 else b_sz h) = 2 + length l) as ->.
    { destruct Hsz as [->|[-> ->]]; [|done]. destruct (Nat.ltb_spec (2 + length l) 2); [lia|done]. }
    destruct (Nat.leb_spec (5 * (2 + length l)) (4 * b_cap h)) as [Hle|Hgt].
    + destruct (Nat.ltb_spec (4 * b_cap h) (5 * (2 + length l))); [lia|]. cbn [andb].
      exists h1, OK. split_and!; try done; first [lia|intros _; split; [done|intros _; by apply Hsame]].
    + destruct (Nat.ltb_spec (4 * b_cap h) (5 * (2 + length l))); [|lia]. cbn [andb].
      assert (b_sz h = 2 + length l) as Hsz' by (destruct Hsz as [?|[? ->]]; [done|simpl in *; lia]).
      destruct (b_alloc h) eqn:Hal; cbn [negb andb].
      * rewrite Hsz'. pose proof (next_prime_range ((2 + length l) * 2)) as Hnp.
        remember (next_prime ((2 + length l) * 2)) as np eqn:Enp. clear Enp.
        destruct (Nat.leb_spec np (b_cap h)) as [Hle|Hlt].
        { destruct (Nat.ltb_spec (b_cap h) np); [lia|]. rewrite andb_false_r. cbn [negb].
          exists h1, MEM_ERR. split_and!; try done; first [lia|intros _; split; [done|intros _; by apply Hsame]]. }
        destruct (Nat.ltb_spec (b_cap h) np); [|lia]. rewrite andb_true_r.
        destruct ok; cbn [negb].
        -- destruct Hnp as [->|(Hnp1 & Hnp2 & Hnp3)]; [lia|].
           pose proof Htbl1 as (Hc3 & Hg & _ & (kv0 & E0) & (kv1 & E1') & Hct & Hu).
           assert (cont (b_slots h1) = contents (b_slots h1)) as Hcc.
           { unfold contents. destruct (b_slots h1) as [|c0 [|c1 T]]; [done|done|].
             simpl in E0, E1'. simplify_eq. cbn. by destruct kv0, kv1. }
           destruct (rehash_Ok true (b_slots h1) (zeroed np) []) as (T' & l' & Hr & Hl & Ht & Hp).
           ++ apply Forall_lookup. intros i c Hi. by eapply Hg.
           ++ apply zeroed_tbl. lia.
           ++ rewrite app_nil_r, Hcc. eapply (uniq_perm hash_fn eqb Hkey l); [by symmetry|done].
           ++ rewrite Hcc, Hct. simpl length. unfold zeroed. rewrite replicate_length. lia.
           ++ simpl length in Hr. change (2 + 0) with 2 in Hr. rewrite Hr. cbn [mbind outcome_bind obind].
              assert (length T' = np) as Hl2. { rewrite Hl. apply replicate_length. }
              rewrite app_nil_r, Hcc, Hct in Hp. assert (length l' = length l) as Hll by (by rewrite Hp).
              exists (Buf T' (2 + length l') true), OK. change (b_cap (Buf T' (2 + length l') true)) with (length T'). cbn [b_slots b_sz b_alloc].
              rewrite Hl2, Hll.
              split; [done|]. split.
              { split; [unfold b_cap; cbn [b_slots]; by rewrite Hl2|]. right. unfold b_cap. cbn [b_slots b_sz].
                rewrite Hl2. split_and!; [lia| |lia|by left].
                destruct Ht as (? & ? & ? & ? & ? & Hct' & Hu'). split_and!; try done; [by rewrite Hct', Hp]. }
              split_and!; try done; first [lia|intros _; split; [done|intros _; by apply Hsame]].
        -- exists h1, MEM_ERR. split_and!; try done; first [lia|intros _; split; [done|intros _; by apply Hsame]].
      * exists h1, NO_ALLOC. split_and!; try done; first [lia|intros _; split; [done|intros _; by apply Hsame]].
Qed.

Lemma mk_ok T sz al l : (N.of_nat (length T) < 2 ^ 64)%N -> 6 <= length T -> tbl T l -> 2 + length l < length T ->
  sz = 2 + length l -> fhm_ok (Buf T sz al) l.
Proof. intros Hm Hc Ht Hr ->. split; [done|]. right. split_and!; try done. by left. Qed.

Definition entry_spec (h : fhm) (l : list (K * V)) (k : K) (full : bool) (h1 : fhm) (e : ent) : Prop :=
  exists T sz, h1 = Buf T sz (b_alloc h) /\ (N.of_nat (length T) < 2 ^ 64)%N /\
  ((T = [] /\ sz = 0 /\ l = [] /\ e = Ent None ST_INSERT_ERROR /\ full = true) \/
   (6 <= length T /\ tbl T l /\ sz = 2 + length l /\ 2 + length l < length T /\
    (full = false -> 3 + length l < length T) /\
    exists i, inr (length T) i /\
     ((exists kv, e = Ent (Some i) (if full then 3%N else 1%N) /\ occ_at T i = Some (filter (fst kv), kv) /\
        assoc k l = Some kv) \/
      (e = Ent (Some i) (if full then 34%N else 32%N) /\ assoc k l = None /\ vacant_at wide hash_fn T i k)))).

Lemma entry_Ok h l k ok : fhm_ok h l ->
  exists h1 e, entry wide hash_fn eqb h k ok = Ok (h1, e) /\ entry_spec h l k (fhm_full h ok) h1 e.
Proof.
  intros Hok. destruct (maybe_resize_Ok h l ok Hok) as (h1 & r & Hr & Hok1 & Hal & Hfull & Hle & Hsz & Hroom & Hsame).
  unfold entry. rewrite Hr. cbn [mbind outcome_bind obind].
  destruct h1 as [T sz al]. cbn [b_alloc] in Hal. subst al.
  change (b_cap (Buf T sz (b_alloc h))) with (length T) in *. cbn [b_sz] in *.
  destruct Hok1 as [Hm [(Hc0 & Hs0 & ->)|(Hc & Htbl & Hrm & _)]].
  - change (length T = 0) in Hc0. apply nil_length_inv in Hc0 as ->. cbn [b_sz] in Hs0. subst sz.
    assert (r <> OK) as Hne. { intros ->. destruct (Hroom eq_refl) as [Hx _]. simpl in Hx. lia. }
    unfold find. cbn [b_cap b_slots length Nat.eqb mbind outcome_bind obind].
    exists (Buf [] 0 (b_alloc h)), (Ent None ST_INSERT_ERROR). split.
    { by destruct r. }
    exists [], 0. split; [done|]. split; [done|]. left. split_and!; try done.
    destruct (fhm_full h ok); [done|]. exfalso. apply Hne. by apply Hfull.
  - change (b_cap (Buf T sz (b_alloc h))) with (length T) in *. cbn [b_slots] in Htbl.
    assert (sz = 2 + length l) as -> by (apply Hsz; lia).
    destruct (find_Ok wide hash_fn eqb Hkey T (2 + length l) (b_alloc h) l k Htbl Hrm ltac:(lia))
      as (i & st & Hf & Hi & Hres). rewrite Hf. cbn [mbind outcome_bind obind e_at e_st].
    eexists (Buf T (2 + length l) (b_alloc h)), _. split; [reflexivity|].
    exists T, (2 + length l). split; [done|]. split; [done|]. right. split_and!; try done.
    { intros Hff. apply Hroom. by apply Hfull. }
    exists i. split; [done|].
    assert (fhm_full h ok = match r with OK => false | _ => true end) as ->.
    { destruct (fhm_full h ok).
      - destruct r; try done. destruct Hfull as [Hx _]. by specialize (Hx eq_refl).
      - destruct Hfull as [_ Hx]. by rewrite (Hx eq_refl). }
    destruct Hres as [(-> & kv & Ho & Ha)|(-> & Ha & Hv)].
    + left. exists kv. split; [by destruct r|done].
    + right. split; [by destruct r|done].
Qed.

Lemma get_kv_at (T : slots cell) i h kv : T !! i = Some (Some (h, Some kv)) -> get_kv T i = Ok kv.
Proof. intros E. unfold get_kv. by rewrite (sget_Ok _ _ _ E). Qed.

Lemma put_length (kv : K * V) (l : list (K * V)) : length (put kv l) = length l.
Proof. induction l as [|a l IH]; simpl; [done|]. destruct (eqb (fst kv) (fst a)); simpl; congruence. Qed.

(** Overwriting the slot of a present key. *)
Lemma overwrite_tbl (T : slots cell) (l : list (K * V)) kv old i : tbl T l -> inr (length T) i -> occ_at T i = Some (filter (fst old), old) ->
  assoc (fst kv) l = Some old -> tbl (<[i:=Some (filter (fst kv), Some kv)]> T) (put kv l).
Proof.
  intros Htbl Hi Ho Ha. pose proof (assoc_Some eqb _ _ _ Ha) as [_ He].
  pose proof (tbl_place wide hash_fn eqb Hkey T l kv old i Htbl Hi Ho He _ (del_perm eqb _ _ _ Ha)) as Ht.
  pose proof (put_perm eqb _ _ _ Ha) as Hp.
  destruct Ht as (? & ? & ? & ? & ? & Hct & Hu). split_and!; try done; [by rewrite Hp|].
  eapply (uniq_perm hash_fn eqb Hkey); [symmetry; exact Hp|done].
Qed.

Ltac mok := match goal with |- fhm_ok _ _ => apply mk_ok; rewrite ?insert_length; try done; simpl; try lia end.
Ltac mred := cbn [mbind outcome_bind obind e_at e_st the_slot b_slots fst snd with_slots b_sz b_alloc].

Lemma overwrite_Ok (T : slots cell) sz al i hash kv : i < length T ->
  overwrite (Buf T sz al) (Some i) hash kv = Ok (Buf (<[i:=Some (hash, Some kv)]> T) sz al).
Proof. intros Hi. unfold overwrite. mred. rewrite sset_Ok by done. done. Qed.

Lemma fin_call full (l : list (K * V)) o r l' : spec_refused eqb l o = None ->
  l' = fst (spec_step eqb full l o) -> res_eq r (snd (spec_step eqb full l o)) ->
  fhm_call eqb full l o r l'.
Proof. intros Hn -> Hr. unfold fhm_call. destruct full; [rewrite Hn|]; done. Qed.

Lemma has_occ (b : bool) : has (if b then 3%N else 1%N) ST_OCCUPIED = true.
Proof. by destruct b. Qed.
Lemma has_vac (b : bool) : has (if b then 34%N else 32%N) ST_OCCUPIED = false.
Proof. by destruct b. Qed.
Lemma has_err1 (b : bool) : has (if b then 3%N else 1%N) ST_INSERT_ERROR = b.
Proof. by destruct b. Qed.
Lemma has_err2 (b : bool) : has (if b then 34%N else 32%N) ST_INSERT_ERROR = b.
Proof. by destruct b. Qed.
Lemma has_nu1 (b : bool) : has (if b then 3%N else 1%N) ST_NO_UNWRAP = false.
Proof. by destruct b. Qed.
Lemma has_nu2 (b : bool) : has (if b then 34%N else 32%N) ST_NO_UNWRAP = true.
Proof. by destruct b. Qed.

Lemma deref_occ (T : slots cell) sz al i h kv : T !! i = Some (Some (h, Some kv)) ->
  deref (Buf T sz al) (Some i) = Ok (Some kv).
Proof. intros E. unfold deref. cbn [b_slots]. by rewrite (get_kv_at _ _ _ _ E). Qed.

Lemma occ_lookup (T : slots cell) (l : list (K * V)) i kv : tbl T l -> occ_at T i = Some (filter (fst kv), kv) ->
  T !! i = Some (Some (filter (fst kv), Some kv)).
Proof. intros (_ & HT & _) Ho. by apply (occ_at_Some hash_fn _ _ _ _ HT Ho). Qed.

(** One call on a valid map. *)
Definition step_spec (h : fhm) (l : list (K * V)) (o : fhm_op K V) : Prop :=
  exists h' r l', fhm_step wide hash_fn eqb h o = Ok (h', r) /\ b_alloc h' = b_alloc h /\
    fhm_call eqb (fhm_full h (op_ok o)) l o r l' /\ fhm_ok h' l'.

Lemma nil_ok al : fhm_ok (Buf [] 0 al) [].
Proof. split; [done|]. by left. Qed.

Ltac start k := 
  match goal with Hok : fhm_ok ?h ?l |- step_spec ?h ?l ?o =>
    let e := fresh "e" in
    destruct (entry_Ok h l k (op_ok o) Hok) as (h1 & e & He & T & sz & -> & Hm & Hcase);
    unfold step_spec; remember (fhm_full h (op_ok o)) as full eqn:Hfull;
    cbn [op_ok] in He; cbn [fhm_step];
    destruct Hcase as [(-> & -> & -> & -> & ->)|(Hc & Htbl & -> & Hr & Hroom & i & Hi & [(old & -> & Ho & Ha)|(-> & Ha & Hv)])]
  end.
Ltac fin l' := eexists _, _, l'; split; [reflexivity|]; split; [done|]; split.

Lemma step_contains h l k ok : fhm_ok h l -> step_spec h l (HContains k ok).
Proof.
  intros Hok. start k; unfold fhm_contains; rewrite He; mred.
  - fin ([] : list (K * V)); [done|apply nil_ok].
  - fin l; [|mok]. apply fin_call; [done|done|]. cbn. rewrite Ha. by rewrite has_occ.
  - fin l; [|mok]. apply fin_call; [done|done|]. cbn. rewrite Ha. by rewrite has_vac.
Qed.

Lemma put_ok (T : slots cell) al (l : list (K * V)) kv old i : (N.of_nat (length T) < 2 ^ 64)%N -> 6 <= length T -> tbl T l -> 2 + length l < length T ->
  inr (length T) i -> occ_at T i = Some (filter (fst old), old) -> assoc (fst kv) l = Some old ->
  fhm_ok (Buf (<[i:=Some (filter (fst kv), Some kv)]> T) (2 + length l) al) (put kv l).
Proof.
  intros Hm Hc Htbl Hr Hi Ho Ha. apply mk_ok; rewrite ?insert_length; rewrite ?put_length; try done.
  by eapply overwrite_tbl.
Qed.

Lemma insert_new (T : slots cell) al (l : list (K * V)) kv i full : (N.of_nat (length T) < 2 ^ 64)%N -> 6 <= length T -> tbl T l -> 2 + length l < length T ->
  (full = false -> 3 + length l < length T) -> full = false ->
  inr (length T) i -> assoc (fst kv) l = None -> vacant_at wide hash_fn T i (fst kv) ->
  exists T', insert wide (Buf T (2 + length l) al) kv (filter (fst kv)) (Some i) = Ok (Buf T' (2 + length l + 1) al) /\
    fhm_ok (Buf T' (2 + length l + 1) al) (kv :: l) /\ T' !! i = Some (Some (filter (fst kv), Some kv)).
Proof.
  intros Hm Hc Htbl Hr Hroom Hf Hi Ha Hv. specialize (Hroom Hf).
  destruct (insert_Ok wide hash_fn eqb Hkey T (2 + length l) al l kv i Htbl Hr ltac:(lia) Ha Hi Hv) as (T' & Hi' & Hl & Ht & Hat).
  exists T'. split; [done|]. split; [|done]. apply mk_ok; rewrite ?Hl; try done; simpl; lia.
Qed.

Lemma swaps_new (T : slots cell) al (l : list (K * V)) kv i st full : (N.of_nat (length T) < 2 ^ 64)%N -> 6 <= length T -> tbl T l -> 2 + length l < length T ->
  (full = false -> 3 + length l < length T) -> full = false ->
  inr (length T) i -> assoc (fst kv) l = None -> vacant_at wide hash_fn T i (fst kv) ->
  exists T', swaps wide (Buf T (2 + length l) al) (Ent (Some i) st) kv (filter (fst kv)) = Ok (Buf T' (2 + length l + 1) al) /\
    fhm_ok (Buf T' (2 + length l + 1) al) (kv :: l) /\ T' !! i = Some (Some (filter (fst kv), Some kv)).
Proof.
  intros Hm Hc Htbl Hr Hroom Hf Hi Ha Hv. specialize (Hroom Hf).
  destruct (swaps_Ok wide hash_fn eqb Hkey T (2 + length l) al l kv i st Htbl Hroom ltac:(lia) Ha Hi Hv) as (T' & Hi' & Hl & Ht & Hat).
  exists T'. split; [done|]. split; [|done]. apply mk_ok; rewrite ?Hl; try done; simpl; lia.
Qed.

Ltac callres Ha := apply fin_call; [try done; cbn [spec_refused]; try (rewrite Ha; done)| |]; cbn [spec_step]; rewrite Ha; done.
Ltac full_case := 
  match goal with Hroom : ?f = false -> _ |- _ => destruct f eqn:Hff; cbv iota end.

Lemma step_insert h l kv ok : fhm_ok h l -> step_spec h l (HInsert kv ok).
Proof.
  intros Hok. start (fst kv); unfold fhm_insert; rewrite He; mred.
  - fin ([] : list (K * V)); [done|apply nil_ok].
  - rewrite has_occ. mred. pose proof (occ_lookup _ _ _ _ Htbl Ho) as Ei.
    assert (2 <= i < length T) as Hi' by exact Hi.
    rewrite (sget_Ok _ _ _ Ei). mred. rewrite sset_Ok by lia. mred.
    rewrite sset_Ok by (rewrite insert_length; lia). mred.
    rewrite list_insert_commute by lia. 
    erewrite sget_Ok by (apply list_lookup_insert; rewrite insert_length; lia). mred.
    destruct (set_hash_0 (<[0:=Some (filter (fst old), Some old)]> (<[i:=Some (filter (fst kv), Some kv)]> T)) 0)
      as [kv0 Hs]; [rewrite !insert_length; lia|]. rewrite Hs. mred.
    rewrite list_insert_insert.
    fin (put kv l); [callres Ha|].
    pose proof (put_ok T (b_alloc h) l kv old i Hm Hc Htbl Hr Hi Ho Ha) as [Hm' [(Hbad & _)|(Hc' & Ht' & Hr' & Hs')]].
    { unfold b_cap in Hbad. cbn [b_slots] in Hbad. rewrite insert_length in Hbad. lia. }
    unfold b_cap in *. cbn [b_slots b_sz] in *. rewrite put_length in *.
    apply mk_ok; rewrite ?insert_length, ?put_length; try done.
    destruct Ht' as (Hc3 & Hg & Hrh & Hz0 & Hz1 & Hct & Hu). split_and!.
    + by rewrite insert_length.
    + apply good_insert; [done|apply zero_ok].
    + apply rh_low; [lia|done|done].
    + exists kv0. apply list_lookup_insert. rewrite insert_length. lia.
    + destruct Hz1 as [kv1 Hz1]. exists kv1. by rewrite list_lookup_insert_ne by lia.
    + rewrite contents_insert_low by lia. done.
    + done.
  - rewrite has_vac, has_err2. full_case.
    + fin l; [callres Ha|]. mok.
    + destruct (insert_new T (b_alloc h) l kv i false Hm Hc Htbl Hr Hroom eq_refl Hi Ha Hv) as (T' & -> & Hok' & Hat). mred.
      fin (kv :: l); [callres Ha|done].
Qed.

Lemma mk_res_occ (T : slots cell) sz al i h kv st : T !! i = Some (Some (h, Some kv)) -> has st ST_NO_UNWRAP = false ->
  mk_res (Buf T sz al : fhm) (Ent (Some i) st) = Ok (Res (Some kv) (has st ST_OCCUPIED) (has st ST_INSERT_ERROR)).
Proof. intros E Hs. unfold mk_res. cbn [e_st e_at]. rewrite Hs, (deref_occ _ _ _ _ _ _ E). done. Qed.

Lemma step_try_insert h l kv ok : fhm_ok h l -> step_spec h l (HTryInsert kv ok).
Proof.
  intros Hok. start (fst kv); unfold fhm_try_insert; rewrite He; mred.
  - fin ([] : list (K * V)); [done|apply nil_ok].
  - rewrite has_occ. mred. pose proof (occ_lookup _ _ _ _ Htbl Ho) as Ei.
    rewrite (mk_res_occ _ _ _ _ _ _ _ Ei) by done. mred. fin l; [callres Ha|mok].
  - rewrite has_vac, has_err2. full_case.
    + fin l; [callres Ha|]. mok.
    + destruct (insert_new T (b_alloc h) l kv i false Hm Hc Htbl Hr Hroom eq_refl Hi Ha Hv) as (T' & -> & Hok' & Hat). mred.
      rewrite (mk_res_occ _ _ _ _ _ _ _ Hat) by done. mred. fin (kv :: l); [callres Ha|done].
Qed.

Lemma step_assign h l kv ok : fhm_ok h l -> step_spec h l (HAssign kv ok).
Proof.
  intros Hok. start (fst kv); unfold fhm_insert_or_assign; rewrite He; mred.
  - fin ([] : list (K * V)); [done|apply nil_ok].
  - rewrite has_occ. mred. assert (2 <= i < length T) as Hi' by exact Hi.
    rewrite overwrite_Ok by lia. mred.
    erewrite mk_res_occ by (try done; apply list_lookup_insert; lia). mred. fin (put kv l); [callres Ha|].
    by eapply put_ok.
  - rewrite has_vac, has_err2. full_case.
    + fin l; [callres Ha|]. mok.
    + destruct (insert_new T (b_alloc h) l kv i false Hm Hc Htbl Hr Hroom eq_refl Hi Ha Hv) as (T' & -> & Hok' & Hat). mred.
      rewrite (mk_res_occ _ _ _ _ _ _ _ Hat) by done. mred. fin (kv :: l); [callres Ha|done].
Qed.

Lemma step_try_insert_w h l kv ok : fhm_ok h l -> step_spec h l (HTryInsertW kv ok).
Proof.
  intros Hok. start (fst kv); unfold fhm_try_insert_w; rewrite He; mred.
  - fin ([] : list (K * V)); [done|apply nil_ok].
  - rewrite has_occ. mred. pose proof (occ_lookup _ _ _ _ Htbl Ho) as Ei. cbn [orb].
    rewrite (mk_res_occ _ _ _ _ _ _ _ Ei) by apply has_nu1. mred. rewrite has_occ, has_err1.
    fin l; [destruct full; callres Ha|mok].
  - rewrite has_vac, has_err2. cbn [orb]. full_case.
    + fin l; [callres Ha|]. mok.
    + destruct (swaps_new T (b_alloc h) l kv i 32%N false Hm Hc Htbl Hr Hroom eq_refl Hi Ha Hv) as (T' & -> & Hok' & Hat). mred.
      rewrite (mk_res_occ _ _ _ _ _ _ _ Hat) by done. mred. fin (kv :: l); [callres Ha|done].
Qed.

Lemma step_assign_w h l kv ok : fhm_ok h l -> step_spec h l (HAssignW kv ok).
Proof.
  intros Hok. start (fst kv); unfold fhm_insert_or_assign_w; rewrite He; mred.
  - fin ([] : list (K * V)); [done|apply nil_ok].
  - rewrite has_occ. mred. assert (2 <= i < length T) as Hi' by exact Hi.
    rewrite overwrite_Ok by lia. mred.
    erewrite mk_res_occ; [|apply list_lookup_insert; lia|apply has_nu1]. mred. rewrite has_occ, has_err1.
    fin (put kv l); [destruct full; callres Ha|]. by eapply put_ok.
  - rewrite has_vac, has_err2. full_case.
    + fin l; [callres Ha|]. mok.
    + destruct (swaps_new T (b_alloc h) l kv i 32%N false Hm Hc Htbl Hr Hroom eq_refl Hi Ha Hv) as (T' & -> & Hok' & Hat). mred.
      rewrite (mk_res_occ _ _ _ _ _ _ _ Hat) by done. mred. fin (kv :: l); [callres Ha|done].
Qed.

Lemma step_or_insert h l kv ok : fhm_ok h l -> step_spec h l (HOrInsert kv ok).
Proof.
  intros Hok. start (fst kv); unfold via_entry, or_insert; rewrite He; mred.
  - fin ([] : list (K * V)); [done|apply nil_ok].
  - rewrite has_occ. mred. pose proof (occ_lookup _ _ _ _ Htbl Ho) as Ei.
    rewrite (deref_occ _ _ _ _ _ _ Ei). mred. fin l; [destruct full; callres Ha|mok].
  - rewrite has_vac, has_err2. full_case; mred.
    + fin l; [callres Ha|]. mok.
    + destruct (insert_new T (b_alloc h) l kv i false Hm Hc Htbl Hr Hroom eq_refl Hi Ha Hv) as (T' & -> & Hok' & Hat). mred.
      rewrite (deref_occ _ _ _ _ _ _ Hat). mred. fin (kv :: l); [callres Ha|done].
Qed.

Lemma step_insert_entry h l kv ok : fhm_ok h l -> step_spec h l (HInsertEntry kv ok).
Proof.
  intros Hok. start (fst kv); unfold via_entry, insert_entry; rewrite He; mred.
  - fin ([] : list (K * V)); [done|apply nil_ok].
  - rewrite has_occ. mred. assert (2 <= i < length T) as Hi' by exact Hi.
    rewrite overwrite_Ok by lia. mred.
    erewrite deref_occ by (apply list_lookup_insert; lia). mred. fin (put kv l); [destruct full; callres Ha|].
    by eapply put_ok.
  - rewrite has_vac, has_err2. full_case; mred.
    + fin l; [callres Ha|]. mok.
    + destruct (insert_new T (b_alloc h) l kv i false Hm Hc Htbl Hr Hroom eq_refl Hi Ha Hv) as (T' & -> & Hok' & Hat). mred.
      rewrite (deref_occ _ _ _ _ _ _ Hat). mred. fin (kv :: l); [callres Ha|done].
Qed.

Lemma refused_call (l : list (K * V)) o r l' r0 : spec_refused eqb l o = Some r0 -> r = r0 -> l' = l -> fhm_call eqb true l o r l'.
Proof. intros E -> ->. unfold fhm_call. by rewrite E. Qed.
Ltac refu Ha := eapply refused_call; [cbn [spec_refused]; rewrite Ha; reflexivity|done|done].

Lemma step_or_insert_w h l kv ok : fhm_ok h l -> step_spec h l (HOrInsertW kv ok).
Proof.
  intros Hok. start (fst kv); unfold via_entry, or_insert_w; rewrite He; mred.
  - fin ([] : list (K * V)); [done|apply nil_ok].
  - rewrite has_occ, has_err1. full_case; mred.
    + fin l; [refu Ha|mok].
    + pose proof (occ_lookup _ _ _ _ Htbl Ho) as Ei.
      rewrite (deref_occ _ _ _ _ _ _ Ei). mred. fin l; [|mok]. split; cbn; by rewrite Ha.
  - rewrite has_vac, has_err2. full_case; mred.
    + fin l; [callres Ha|]. mok.
    + destruct (swaps_new T (b_alloc h) l kv i 32%N false Hm Hc Htbl Hr Hroom eq_refl Hi Ha Hv) as (T' & -> & Hok' & Hat). mred.
      rewrite (deref_occ _ _ _ _ _ _ Hat). mred. fin (kv :: l); [callres Ha|done].
Qed.

Lemma step_insert_entry_w h l kv ok : fhm_ok h l -> step_spec h l (HInsertEntryW kv ok).
Proof.
  intros Hok. start (fst kv); unfold via_entry, insert_entry_w; rewrite He; mred.
  - fin ([] : list (K * V)); [done|apply nil_ok].
  - rewrite has_occ, has_err1. full_case; mred.
    + fin l; [refu Ha|mok].
    + assert (2 <= i < length T) as Hi' by exact Hi.
      rewrite overwrite_Ok by lia. mred.
      erewrite deref_occ by (apply list_lookup_insert; lia). mred. fin (put kv l); [split; cbn; by rewrite Ha|].
      by eapply put_ok.
  - rewrite has_vac, has_err2. full_case; mred.
    + fin l; [callres Ha|]. mok.
    + destruct (swaps_new T (b_alloc h) l kv i 32%N false Hm Hc Htbl Hr Hroom eq_refl Hi Ha Hv) as (T' & -> & Hok' & Hat). mred.
      rewrite (deref_occ _ _ _ _ _ _ Hat). mred. fin (kv :: l); [callres Ha|done].
Qed.

Lemma step_and_modify h l k f ok : fhm_ok h l -> step_spec h l (HAndModify k f ok).
Proof.
  intros Hok. start k; unfold and_modify, unwrap; rewrite He; mred.
  - fin ([] : list (K * V)); [done|apply nil_ok].
  - pose proof (occ_lookup _ _ _ _ Htbl Ho) as Ei. assert (2 <= i < length T) as Hi' by exact Hi.
    rewrite has_occ. full_case; cbn [N.eqb Pos.eqb ST_OCCUPIED]; mred.
    + rewrite (deref_occ _ _ _ _ _ _ Ei). mred. fin l; [refu Ha|mok].
    + rewrite (sget_Ok _ _ _ Ei). mred. destruct old as [k' v]. rewrite sset_Ok by lia. mred. unfold with_slots. mred.
      erewrite deref_occ by (apply list_lookup_insert; lia). mred. fin (put (k', f v) l); [split; cbn; by rewrite Ha|].
      apply (put_ok T (b_alloc h) l (k', f v) (k', v) i); try done.
      destruct Htbl as (_ & _ & _ & _ & _ & _ & Hu). cbn [fst].
      apply (assoc_uniq hash_fn eqb Hkey); [done|by eapply assoc_Some|by destruct Hkey].
  - rewrite has_vac. full_case; cbn [N.eqb Pos.eqb ST_OCCUPIED]; mred.
    all: fin l; [callres Ha|mok].
Qed.

Lemma del_ok (T : slots cell) al (l : list (K * V)) k kv i : (N.of_nat (length T) < 2 ^ 64)%N -> 6 <= length T -> tbl T l -> 2 + length l < length T ->
  inr (length T) i -> occ_at T i = Some (filter (fst kv), kv) -> assoc k l = Some kv ->
  exists T', erase wide (Buf T (2 + length l) al) (Some i) = Ok (Buf T' (2 + length l - 1) al) /\
    fhm_ok (Buf T' (2 + length l - 1) al) (del k l).
Proof.
  intros Hm Hc Htbl Hr Hi Ho Ha.
  destruct (erase_Ok wide hash_fn eqb Hkey T (2 + length l) al l i kv Htbl Hr Hi Ho) as (T' & He & Hl & Ht).
  pose proof (del_perm eqb _ _ _ Ha) as Hp. pose proof (Permutation_length Hp) as Hpl. simpl in Hpl.
  exists T'. split; [done|]. apply mk_ok; rewrite ?Hl; try done; try lia. by apply Ht.
Qed.

Lemma step_remove_entry h l k ok : fhm_ok h l -> step_spec h l (HRemoveEntry k ok).
Proof.
  intros Hok. start k; unfold remove_entry; rewrite He; mred.
  - fin ([] : list (K * V)); [done|apply nil_ok].
  - full_case; cbn [N.eqb Pos.eqb ST_OCCUPIED negb]; mred.
    + fin l; [refu Ha|mok].
    + destruct (del_ok T (b_alloc h) l k old i Hm Hc Htbl Hr Hi Ho Ha) as (T' & -> & Hok'). mred.
      fin (del k l); [split; cbn; by rewrite Ha|done].
  - full_case; cbn [N.eqb Pos.eqb ST_OCCUPIED negb]; mred.
    all: fin l; [callres Ha|mok].
Qed.

Lemma lookup_cases h l k : fhm_ok h l ->
  exists e, find wide eqb h k (filter k) = Ok e /\
  ((b_cap h = 0 /\ l = [] /\ has (e_st e) ST_OCCUPIED = false) \/
   (b_cap h <> 0 /\ exists i kv, e = Ent (Some i) ST_OCCUPIED /\ inr (length (b_slots h)) i /\ 
      occ_at (b_slots h) i = Some (filter (fst kv), kv) /\ assoc k l = Some kv /\ b_sz h = 2 + length l) \/
   (b_cap h <> 0 /\ has (e_st e) ST_OCCUPIED = false /\ assoc k l = None)).
Proof.
  destruct h as [T sz al]. intros [Hm [(Hc & Hs & ->)|(Hc & Htbl & Hr & Hs)]]; unfold b_cap in *; cbn [b_slots b_sz] in *.
  - unfold find, b_cap. cbn [b_slots]. rewrite Hc. cbn [Nat.eqb]. eexists. split; [reflexivity|]. left. done.
  - destruct (find_Ok wide hash_fn eqb Hkey T sz al l k Htbl Hr) as (i & st & Hf & Hi & Hres).
    { destruct Hs as [->|[-> _]]; lia. }
    eexists. split; [exact Hf|]. right. destruct Hres as [(-> & kv & Ho & Ha)|(-> & Ha & _)].
    + left. split; [lia|]. exists i, kv. split_and!; try done. destruct Hs as [->|[_ ->]]; done.
    + right. split; [lia|]. done.
Qed.

Lemma step_get h l k : fhm_ok h l -> step_spec h l (HGet k).
Proof.
  intros Hok. destruct (lookup_cases h l k Hok) as (e & He & Hcase). unfold step_spec. cbn [op_ok fhm_step].
  unfold fhm_get. destruct (Nat.eqb_spec (b_cap h) 0) as [Hc|Hc].
  - destruct Hcase as [(_ & -> & _)|[(? & _)|(? & _)]]; try done. mred. fin ([] : list (K * V)); [|done].
    by apply fin_call.
  - rewrite He. mred. destruct Hcase as [(? & _)|[(_ & i & kv & -> & Hi & Ho & Ha & Hs)|(_ & -> & Ha)]]; try done; mred.
    + change (has ST_OCCUPIED ST_OCCUPIED) with true. cbv iota.
      destruct h as [T sz al]. pose proof Hok as [Hm [(Hc' & _)|(_ & Htbl & _)]]; [done|]. cbn [b_slots] in *.
      rewrite (deref_occ _ _ _ _ _ _ (occ_lookup _ _ _ _ Htbl Ho)). mred. fin l.
      * apply fin_call; [done|done|]. cbn. by rewrite Ha.
      * done.
    + fin l; [|done]. apply fin_call; [done|done|]. cbn. by rewrite Ha.
Qed.

Lemma step_remove h l k : fhm_ok h l -> step_spec h l (HRemove k).
Proof.
  intros Hok. destruct (lookup_cases h l k Hok) as (e & He & Hcase). unfold step_spec. cbn [op_ok fhm_step].
  unfold fhm_remove. rewrite He. mred.
  destruct Hcase as [(Hc & -> & ->)|[(Hc & i & kv & -> & Hi & Ho & Ha & Hs)|(_ & -> & Ha)]]; mred.
  - fin ([] : list (K * V)); [|done]. by apply fin_call.
  - change (has ST_OCCUPIED ST_OCCUPIED) with true. cbv iota.
    destruct h as [T sz al]. pose proof Hok as [Hm [(Hc' & _)|(Hc6 & Htbl & Hr & _)]]; [done|].
    unfold b_cap in *. cbn [b_slots b_sz] in *. subst sz.
    rewrite (deref_occ _ _ _ _ _ _ (occ_lookup _ _ _ _ Htbl Ho)). mred.
    destruct (del_ok T al l k kv i Hm Hc6 Htbl Hr Hi Ho Ha) as (T' & -> & Hok'). mred.
    fin (del k l); [|done]. apply fin_call; [done| |]; cbn; by rewrite Ha.
  - fin l; [|done]. apply fin_call; [done| |]; cbn; by rewrite Ha.
Qed.

Lemma fhm_size_Ok h l : fhm_ok h l -> fhm_size h = N.of_nat (length l).
Proof.
  intros [Hm [(Hc & Hs & ->)|(Hc & Htbl & Hr & [Hs|[Hs ->]])]]; unfold fhm_size; rewrite Hs; try done.
  destruct (Nat.eqb_spec (2 + length l) 0); [lia|].
  assert (1 < 2 ^ 64)%N by done. remember (2 ^ 64)%N as M eqn:HM. clear HM.
  replace (N.of_nat (2 + length l) + M - 2)%N with (N.of_nat (length l) + 1 * M)%N by lia.
  rewrite N.mod_add by lia. apply N.mod_small. lia.
Qed.

Lemma step_size h l : fhm_ok h l -> step_spec h l HSize.
Proof.
  intros Hok. unfold step_spec. cbn [op_ok fhm_step]. fin l; [|done]. apply fin_call; [done|done|]. cbn.
  by rewrite (fhm_size_Ok _ _ Hok).
Qed.

Lemma step_is_empty h l : fhm_ok h l -> step_spec h l HIsEmpty.
Proof.
  intros Hok. unfold step_spec. cbn [op_ok fhm_step]. fin l; [|done]. apply fin_call; [done|done|]. cbn.
  unfold fhm_is_empty. rewrite (fhm_size_Ok _ _ Hok). by destruct l.
Qed.

(** Iteration. *)
Lemma cont_cons (c : option cell) T :
  cont (c :: T) = match occ c with Some x => snd x :: cont T | None => cont T end.
Proof. simpl. by destruct (occ c). Qed.

Lemma scan_Ok (T : slots cell) : good hash_fn T -> forall n i, i + n = length T ->
  (scan n T i = Ok None /\ cont (drop i T) = []) \/
  (exists j h kv, scan n T i = Ok (Some j) /\ i <= j < length T /\ occ_at T j = Some (h, kv) /\
     cont (drop i T) = kv :: cont (drop (j + 1) T)).
Proof.
  intros HT n. induction n as [|n IH]; intros i Hi.
  - left. split; [done|]. by rewrite drop_ge by lia.
  - cbn [scan]. destruct (lookup_lt_is_Some_2 T i) as [c Ec]; [lia|].
    rewrite (drop_S _ _ _ Ec).
    destruct (occ_at T i) as [[h kv]|] eqn:Ho.
    + right. destruct (get_hash_occ hash_fn _ _ _ _ HT Ho) as [-> Hne]. mred.
      destruct (N.eqb_spec h 0); [done|]. exists i, h, kv. split; [done|]. split; [lia|]. split; [done|].
      unfold occ_at in Ho. rewrite Ec in Ho. cbn [mbind option_bind] in Ho. rewrite cont_cons, Ho. cbn [snd length].
      by rewrite Nat.add_1_r.
    + rewrite (get_hash_empty hash_fn) by (try done; lia). mred. change (0 =? 0)%N with true. cbv iota.
      unfold occ_at in Ho. rewrite Ec in Ho. cbn [mbind option_bind] in Ho. rewrite cont_cons, Ho. cbn [snd length].
      replace (drop (S i) T) with (drop (i + 1) T) by (f_equal; lia). destruct (IH (i + 1)) as [[-> ->]|(j & h & kv & -> & Hj & Hoj & Hc)]; [lia| |].
      * by left.
      * right. exists j, h, kv. split; [done|]. split; [lia|]. done.
Qed.

Lemma iterate_Ok (T : slots cell) sz al : good hash_fn T -> forall fuel i cur, length T <= i + fuel -> i <= length T ->
  scan (length T - i) T i = Ok cur -> iterate fuel (Buf T sz al) cur = Ok (cont (drop i T)).
Proof.
  intros HT fuel. induction fuel as [|f IH]; intros i cur Hf Hi Hs;
    destruct (scan_Ok T HT (length T - i) i ltac:(lia)) as [[Hn Hc]|(j & h & kv & Hn & Hj & Ho & Hc)];
    rewrite Hs in Hn; simplify_eq.
  - cbn [iterate]. by rewrite Hc.
  - lia.
  - cbn [iterate]. by rewrite Hc.
  - cbn [iterate b_slots]. rewrite (get_kv_occ hash_fn _ _ _ _ HT Ho). mred.
    unfold fhm_next. change (b_cap (Buf T sz al)) with (length T). cbn [b_slots].
    destruct (scan_Ok T HT (length T - (j + 1)) (j + 1) ltac:(lia)) as [[Hn' Hc']|(j' & h' & kv' & Hn' & Hj' & Ho' & Hc')];
      rewrite Hn'; mred; erewrite (IH (j + 1)) by (try done; lia); mred; by rewrite Hc.
Qed.

Lemma cont_low (T : slots cell) : (exists kv, T !! 0 = Some (Some (0%N, kv))) -> (exists kv, T !! 1 = Some (Some (0%N, kv))) ->
  cont (drop 0 T) = contents T.
Proof.
  intros [kv0 E0] [kv1 E1]. unfold contents. rewrite (drop_S _ _ _ E0), (drop_S _ _ _ E1). simpl.
  by destruct kv0, kv1.
Qed.

Lemma fhm_iter_Ok h l : fhm_ok h l -> exists l', fhm_iter h = Ok l' /\ l' ≡ₚ l.
Proof.
  destruct h as [T sz al]. intros [Hm [(Hc & Hs & ->)|(Hc & Htbl & Hr & Hs)]]; unfold b_cap in *; cbn [b_slots b_sz] in *.
  - subst sz. exists []. split; [|done]. unfold fhm_iter, fhm_begin. cbn [b_sz Nat.eqb mbind outcome_bind obind].
    change (b_cap (Buf T 0 al)) with (length T). rewrite Hc. done.
  - destruct Htbl as (Hc3 & HT & Hrh & Hz0 & Hz1 & Hct & Hu).
    unfold fhm_iter, fhm_begin. cbn [b_sz b_slots]. destruct Hs as [->|[-> ->]].
    + destruct (Nat.eqb_spec (2 + length l) 0); [lia|]. change (b_cap (Buf T (2 + length l) al)) with (length T).
      exists (contents T). split; [|done]. rewrite <- (cont_low T Hz0 Hz1).
      destruct (scan_Ok T HT (length T) 0 ltac:(lia)) as [[Hn' Hc']|(j' & h' & kv' & Hn' & Hj' & Ho' & Hc')];
       rewrite Hn'; mred; apply (iterate_Ok T _ _ HT); rewrite ?Nat.sub_0_r; try done; lia.
    + exists []. cbn [Nat.eqb mbind outcome_bind obind]. split; [|done]. by destruct (b_cap _).
Qed.

Lemma step_iter h l : fhm_ok h l -> step_spec h l HIter.
Proof.
  intros Hok. destruct (fhm_iter_Ok h l Hok) as (l' & Hi & Hp). unfold step_spec. cbn [op_ok fhm_step].
  rewrite Hi. mred. fin l; [|done]. apply fin_call; [done|done|]. cbn. done.
Qed.

(** Validation. *)
Lemma distance_w_inr cap i j : (N.of_nat cap < 2 ^ 64)%N -> inr cap i -> inr cap j ->
  distance_w cap i j = N.of_nat (distance cap i j).
Proof.
  unfold distance_w, distance, inr. intros Hm Hi Hj. destruct (Nat.ltb_spec i j); [|done].
  replace (N.of_nat cap + 2 ^ 64 - N.of_nat j + N.of_nat i + 2 ^ 64 - 2)%N
    with (N.of_nat (cap - j + i - 2) + 2 * 2 ^ 64)%N by lia.
  rewrite N.mod_add by done. apply N.mod_small. lia.
Qed.

Lemma valid_walk_Ok (T : slots cell) s h kv : good hash_fn T -> 3 <= length T -> (N.of_nat (length T) < 2 ^ 64)%N -> rh wide T -> inr (length T) s -> occ_at T s = Some (h, kv) ->
  forall n i fuel, inr (length T) i -> n < fuel -> D (length T) i h = n -> n <= D (length T) s h ->
  valid_walk wide fuel T (length T) (decrement (length T) (to_i (length T) h)) i (N.of_nat n) = Ok true.
Proof.
  intros HT Hc Hm Hrh Hs Ho n. pose proof (occ_range wide hash_fn _ _ _ _ HT Hc Ho) as Hh.
  induction n as [|n IH]; intros i fuel Hi Hf Hd Hle.
  - assert (i = to_i (length T) h) as -> by (eapply distance_0; done).
    destruct fuel as [|f]; [lia|]. cbn [valid_walk].
    destruct (Nat.eqb_spec (to_i (length T) h) (decrement (length T) (to_i (length T) h))); [done|].
    destruct (chain wide hash_fn T s h kv HT Hc Hrh Hs Ho (D (length T) s h) (to_i (length T) h) Hh) as (h' & kv' & Ho' & Hle').
    { rewrite distance_same. lia. }
    destruct (get_hash_occ hash_fn _ _ _ _ HT Ho') as [-> Hne]. mred.
    destruct (N.eqb_spec h' 0); [done|]. destruct (N.ltb_spec (distance_w (length T) (to_i (length T) h) (to_i (length T) h')) (N.of_nat 0)); [lia|].
    destruct f; cbn [valid_walk]; by rewrite Nat.eqb_refl.
  - destruct fuel as [|f]; [lia|]. cbn [valid_walk].
    destruct (Nat.eqb_spec i (decrement (length T) (to_i (length T) h))); [done|].
    destruct (chain wide hash_fn T s h kv HT Hc Hrh Hs Ho (D (length T) s h - S n) i Hi) as (h' & kv' & Ho' & Hle'); [lia|].
    pose proof (occ_range wide hash_fn _ _ _ _ HT Hc Ho') as Hh'.
    destruct (get_hash_occ hash_fn _ _ _ _ HT Ho') as [-> Hne]. mred.
    rewrite distance_w_inr by done.
    destruct (N.eqb_spec h' 0); [done|]. destruct (N.ltb_spec (N.of_nat (D (length T) i h')) (N.of_nat (S n))); [lia|].
    pose proof (distance_lt _ _ _ Hi Hh).
    replace ((N.of_nat (S n) + 2 ^ 64 - 1) mod 2 ^ 64)%N with (N.of_nat n).
    2:{ replace (N.of_nat (S n) + 2 ^ 64 - 1)%N with (N.of_nat n + 1 * 2 ^ 64)%N by lia. rewrite N.mod_add by done.
        symmetry. apply N.mod_small. lia. }
    pose proof (decrement_inr (length T) i Hc Hi) as Hdi.
    assert (D (length T) (decrement (length T) i) h = n) as Hdn.
    { pose proof (inc_dec (length T) i Hc Hi) as Hid.
      pose proof (distance_inc_pos (length T) (decrement (length T) i) (to_i (length T) h) Hdi Hh) as Hp.
      rewrite Hid in Hp. lia. }
    apply IH; try done; lia.
Qed.

Lemma omap_length_le {A B} (f : A -> option B) l : length (omap f l) <= length l.
Proof. induction l as [|a l IH]; simpl; [lia|]. change (list_omap A B f l) with (omap f l). destruct (f a); simpl; change (list_omap A B f l) with (omap f l); lia. Qed.

Lemma validate_loop_Ok (T : slots cell) : good hash_fn T -> 3 <= length T -> (N.of_nat (length T) < 2 ^ 64)%N -> rh wide T -> forall n i o e, i + n = length T ->
  (i < 2 -> occ_at T i = None) -> (i = 0 -> occ_at T 1 = None) ->
  validate_loop wide n T (length T) i o e =
    Ok (Some (o + length (cont (drop i T)), e + (n - length (cont (drop i T))))).
Proof.
  intros HT Hc Hm Hrh n. induction n as [|n IH]; intros i o e Hi Hlow Hlow1; cbn [validate_loop].
  - rewrite drop_ge by lia. simpl. do 3 f_equal; lia.
  - destruct (lookup_lt_is_Some_2 T i) as [c Ec]; [lia|]. rewrite (drop_S _ _ _ Ec).
    assert (length (cont (drop (S i) T)) <= n) as Hlen.
    { pose proof (omap_length_le (fun c => snd <$> occ c) (drop (S i) T)) as Hx. rewrite drop_length in Hx.
      cbv beta in Hx. lia. }
    destruct (occ_at T i) as [[h kv]|] eqn:Ho.
    + destruct (get_hash_occ hash_fn _ _ _ _ HT Ho) as [-> Hne]. mred.
      destruct (N.eqb_spec h 0); [done|].
      assert (inr (length T) i) as Hin. { split; [|lia]. destruct (Nat.lt_ge_cases i 2) as [Hx|Hx]; [|done]. specialize (Hlow Hx). congruence. }
      pose proof (distance_lt (length T) i (to_i (length T) h) Hin (occ_range wide hash_fn _ _ _ _ HT Hc Ho)).
      rewrite distance_w_inr by (done || by eapply occ_range).
      rewrite (valid_walk_Ok T i h kv) by (try done; lia). mred.
      rewrite (IH (i + 1)); [|lia|intros Hx; destruct Hin; lia|intros; lia].
      rewrite (Nat.add_1_r i).
      unfold occ_at in Ho. rewrite Ec in Ho. cbn [mbind option_bind] in Ho. rewrite cont_cons, Ho. cbn [snd length].
      do 3 f_equal; cbn [length]; lia.
    + rewrite (get_hash_empty hash_fn) by (try done; lia). mred. change (0 =? 0)%N with true. cbv iota.
      rewrite (IH (i + 1)); [|lia| |intros; lia].
      2:{ intros Hx. assert (i = 0) as -> by lia. by apply Hlow1. }
      rewrite (Nat.add_1_r i).
      unfold occ_at in Ho. rewrite Ec in Ho. cbn [mbind option_bind] in Ho. rewrite cont_cons, Ho. cbn [snd length].
      do 3 f_equal; lia.
Qed.

Lemma fhm_validate_Ok h l : fhm_ok h l -> fhm_validate wide h = Ok true.
Proof.
  intros Hok. pose proof (fhm_size_Ok _ _ Hok) as Hsz. unfold fhm_validate. rewrite Hsz.
  destruct h as [T sz al]. destruct Hok as [Hm [(Hc & Hs & ->)|(Hc & Htbl & Hr & Hs)]]; unfold b_cap in *; cbn [b_slots b_sz] in *.
  - rewrite Hc. done.
  - destruct Htbl as (Hc3 & HT & Hrh & Hz0 & Hz1 & Hct & Hu).
    assert (forall j, (exists kv, T !! j = Some (Some (0%N, kv))) -> occ_at T j = None) as Hocc.
    { intros j [kv E]. unfold occ_at. rewrite E. by destruct kv. }
    rewrite (validate_loop_Ok T HT Hc3 Hm Hrh (length T) 0 0 0 eq_refl).
    + mred. rewrite (cont_low T Hz0 Hz1). rewrite (Permutation_length Hct). rewrite !Nat.add_0_l.
      by rewrite N.eqb_refl, Nat.eqb_refl.
    + intros _. by apply Hocc.
    + intros _. by apply Hocc.
Qed.

Lemma step_validate h l : fhm_ok h l -> step_spec h l HValidate.
Proof.
  intros Hok. unfold step_spec. cbn [op_ok fhm_step]. rewrite (fhm_validate_Ok h l Hok). mred.
  fin l; [|done]. apply fin_call; done.
Qed.

Theorem step_Ok h l o : fhm_ok h l -> step_spec h l o.
Proof.
  intros Hok. destruct o; [by apply step_contains|by apply step_get|by apply step_insert|by apply step_try_insert|
    by apply step_assign|by apply step_try_insert_w|by apply step_assign_w|by apply step_or_insert|
    by apply step_insert_entry|by apply step_or_insert_w|by apply step_insert_entry_w|by apply step_and_modify|
    by apply step_remove_entry|by apply step_remove|by apply step_iter|by apply step_size|by apply step_is_empty|
    by apply step_validate].
Qed.

Theorem run_Ok os : forall h l, fhm_ok h l ->
  exists h' tr l', fhm_run wide hash_fn eqb h os = Ok (h', tr) /\ fhm_ok h' l' /\ b_alloc h' = b_alloc h /\
    fhm_trace eqb l tr l' /\ map (fun x => fst (fst x)) tr = os.
Proof.
  induction os as [|o os IH]; intros h l Hok; cbn [fhm_run].
  - exists h, [], l. done.
  - destruct (step_Ok h l o Hok) as (h1 & r & l1 & -> & Hal & Hcall & Hok1). mred.
    destruct (IH h1 l1 Hok1) as (h2 & tr & l2 & -> & Hok2 & Hal2 & Htr & Hmap). mred.
    eexists h2, _, l2. split; [reflexivity|]. split; [done|]. split; [congruence|]. split; [|by simpl; rewrite Hmap].
    cbn [fhm_trace]. eauto.
Qed.

Lemma ok_uniq h l : fhm_ok h l -> uniq l.
Proof. intros [_ [(_ & _ & ->)|(_ & (_ & _ & _ & _ & _ & _ & Hu) & _)]]; [|done]. by intros ????. Qed.

Lemma get_Ok h l k : fhm_ok h l -> fhm_get wide hash_fn eqb h k = Ok (assoc k l).
Proof.
  intros Hok. destruct (step_get h l k Hok) as (h' & r & l' & Hs & _ & Hcall & _). cbn [fhm_step] in Hs.
  destruct (fhm_get wide hash_fn eqb h k) as [v| |]; try done. cbn [mbind outcome_bind obind] in Hs. simplify_eq.
  assert (res_eq (RVal v) (RVal (assoc k l))) as Hr.
  { unfold fhm_call in Hcall. cbn [spec_refused] in Hcall. destruct (fhm_full _ _); by destruct Hcall. }
  cbn in Hr. congruence.
Qed.

(** Calls that begin by asking for an entry. *)
Definition asks_entry (o : fhm_op K V) : Prop :=
  match o with HGet _ | HRemove _ | HIter | HSize | HIsEmpty | HValidate => False | _ => True end.

Lemma entry_zeroed (T : slots cell) al k ok : 
  entry wide hash_fn eqb (Buf T 0 al) k ok = entry wide hash_fn eqb (Buf (zeroed (length T)) 0 al) k ok.
Proof.
  assert (length (zeroed (K:=K) (V:=V) (length T)) = length T) as Hl by apply replicate_length.
  assert (maybe_resize wide eqb (Buf T 0 al) ok = maybe_resize wide eqb (Buf (zeroed (length T)) 0 al) ok) as E.
  2:{ unfold entry. by rewrite E. }
  unfold maybe_resize. change (b_cap (Buf T 0 al)) with (length T).
  assert (b_cap (Buf (zeroed (K:=K) (V:=V) (length T)) 0 al) = length T) as -> by exact Hl.
  destruct T as [|c T]; done.
Qed.

Lemma step_zeroed (T : slots cell) al o : asks_entry o ->
  fhm_step wide hash_fn eqb (Buf T 0 al) o = fhm_step wide hash_fn eqb (fresh_fhm (length T) al) o.
Proof.
  unfold fresh_fhm. destruct o; intros Ho; try done; cbn [fhm_step];
    unfold fhm_contains, fhm_insert, fhm_try_insert, fhm_insert_or_assign, fhm_try_insert_w, fhm_insert_or_assign_w, via_entry;
    by rewrite (entry_zeroed T).
Qed.

Lemma destroyed_Ok (T : slots cell) : good hash_fn T -> destroyed T = Ok (cont T).
Proof.
  induction T as [|c T IH]; intros HT; [done|].
  assert (good hash_fn T) as HT'. { intros i c' E. exact (HT (S i) c' E). }
  rewrite cont_cons. cbn [destroyed]. destruct (HT 0 c eq_refl) as [[kv ->]|[k [v ->]]].
  - cbn [N.eqb]. rewrite IH by done. by destruct kv.
  - pose proof (filter_range hash_fn k) as [Hf _]. pose proof (occ_kv hash_fn (k, v)) as Hx. cbn [fst] in Hx. rewrite Hx.
    destruct (N.eqb_spec (filter k) 0); [lia|]. rewrite IH by done. done.
Qed.

Lemma destroyed_map h l : fhm_ok h l -> exists d, destroyed (b_slots h) = Ok d /\ d ≡ₚ l.
Proof.
  destruct h as [T sz al]. intros [Hm [(Hc & Hs & ->)|(Hc & Htbl & Hr & Hs)]]; unfold b_cap in *; cbn [b_slots b_sz] in *.
  - apply nil_length_inv in Hc as ->. exists []. done.
  - destruct Htbl as (Hc3 & HT & Hrh & Hz0 & Hz1 & Hct & Hu). exists (contents T). split; [|done].
    rewrite destroyed_Ok by done. f_equal. by apply cont_low.
Qed.

Lemma copy_in_all (T vs : slots cell) : length T = length vs -> copy_in T 0 vs = Ok vs.
Proof.
  intros Hl. destruct (copy_in_Ok T 0 vs) as (l' & -> & Hl' & Hin & _); [lia|]. f_equal. apply list_eq. intros i.
  destruct (decide (i < length vs)); [rewrite Hin by lia; by rewrite Nat.sub_0_r|].
  rewrite !lookup_ge_None_2 by lia. done.
Qed.

Lemma copy_fhm_Ok (dst src : fhm) (l : list (K * V)) fn ok : fhm_ok src l ->
  b_cap dst = b_cap src \/ (b_cap dst < b_cap src /\ fn = true /\ ok = true) ->
  exists dst', fhm_copy dst src fn ok = Ok (dst', OK) /\ fhm_ok dst' l /\ dst' = Buf (b_slots src) (b_sz src) (b_alloc dst).
Proof.
  intros Hok Hc. exists (Buf (b_slots src) (b_sz src) (b_alloc dst)). split; [|done].
  unfold fhm_copy. change (b_cap (with_size dst (b_sz src))) with (b_cap dst).
  destruct Hc as [Hc|(Hc & -> & ->)].
  - rewrite Hc, Nat.ltb_irrefl. cbn [andb]. rewrite copy_in_all by done. done.
  - destruct (Nat.ltb_spec (b_cap dst) (b_cap src)); [|lia]. cbn [andb negb].
    unfold buf_alloc. cbn [negb]. rewrite andb_false_r. cbn [b_slots b_sz b_alloc with_size].
    rewrite copy_in_all; [done|]. unfold realloc, b_cap in *. rewrite app_length, take_length, replicate_length.
    lia.
Qed.

Lemma fhm_ok_perm h l l' : fhm_ok h l -> l ≡ₚ l' -> fhm_ok h l'.
Proof.
  intros [Hm Hok] Hp. split; [done|]. destruct Hok as [(Hc & Hs & ->)|(Hc & Htbl & Hr & Hs)].
  - left. by apply Permutation_nil in Hp as ->.
  - right. rewrite <- (Permutation_length Hp). split; [done|].
    split. { destruct Htbl as (? & ? & ? & ? & ? & Hct & Hu). split_and!; try done; [by rewrite Hct|].
             by eapply (uniq_perm hash_fn eqb Hkey). }
    split; [done|]. destruct Hs as [?|[? ->]]; [by left|right]. by apply Permutation_nil in Hp as ->.
Qed.

Lemma assoc_put (kv old : K * V) (l : list (K * V)) k' : assoc (fst kv) l = Some old ->
  assoc k' (put kv l) = if eqb (fst kv) k' then Some kv else assoc k' l.
Proof.
  induction l as [|x l IH]; simpl; [done|]. destruct (eqb (fst kv) (fst x)) eqn:E; intros Ha.
  - simpl. rewrite (eqb_sym' hash_fn eqb Hkey k'). destruct (eqb (fst kv) k') eqn:E'; [done|].
    rewrite (eqb_sym' hash_fn eqb Hkey k' (fst x)), <- (eqb_trans_l hash_fn eqb Hkey _ _ k' E). by rewrite E'.
  - simpl. rewrite (IH Ha). destruct (eqb k' (fst x)) eqn:Ex; [|done].
    destruct (eqb (fst kv) k') eqn:E'; [|done]. exfalso.
    rewrite (eqb_trans_l hash_fn eqb Hkey _ _ (fst x) E') in E. congruence.
Qed.

Lemma assoc_del k (l : list (K * V)) k' : uniq l ->
  assoc k' (del k l) = if eqb k k' then None else assoc k' l.
Proof.
  induction l as [|x l IH]; simpl; intros Hu; [by destruct (eqb k k')|].
  apply (uniq_cons hash_fn eqb Hkey) in Hu as [Hx Hu].
  destruct (eqb k (fst x)) eqn:E.
  - destruct (eqb k k') eqn:E'.
    + apply (assoc_None eqb). intros y Hy. specialize (Hx y Hy).
      rewrite <- (eqb_trans_l hash_fn eqb Hkey _ _ _ E'), (eqb_trans_l hash_fn eqb Hkey _ _ _ E). done.
    + rewrite (eqb_sym' hash_fn eqb Hkey k' (fst x)), <- (eqb_trans_l hash_fn eqb Hkey _ _ k' E). by rewrite E'.
  - simpl. rewrite (IH Hu). destruct (eqb k' (fst x)) eqn:Ex; [|done].
    destruct (eqb k k') eqn:E'; [|done]. exfalso.
    rewrite (eqb_trans_l hash_fn eqb Hkey _ _ (fst x) E') in E. congruence.
Qed.

Lemma entry_ops_Ok h (l : list (K * V)) k f ok : fhm_ok h l -> fhm_full h ok = false ->
  (exists h', fhm_step wide hash_fn eqb h (HAndModify k f ok) =
        Ok (h', RVal ((fun x => (fst x, f (snd x))) <$> assoc k l)) /\
      fhm_size h' = fhm_size h /\
      forall k', fhm_get wide hash_fn eqb h' k' =
        Ok ((if eqb k k' then fun x => (fst x, f (snd x)) else fun x => x) <$> assoc k' l)) /\
  (exists h', fhm_step wide hash_fn eqb h (HRemoveEntry k ok) =
        Ok (h', REnt (Res None (match assoc k l with Some _ => true | None => false end) false)) /\
      forall k', fhm_get wide hash_fn eqb h' k' = Ok (if eqb k k' then None else assoc k' l)).
Proof.
  intros Hok Hf. pose proof (ok_uniq h l Hok) as Hu. split.
  - destruct (step_Ok h l (HAndModify k f ok) Hok) as (h' & r & l' & Hs & _ & Hcall & Hok').
    cbn [op_ok] in Hcall. rewrite Hf in Hcall. destruct Hcall as [Hp Hres]. cbn [spec_step] in Hp, Hres.
    pose proof (ok_uniq h' l' Hok') as Hu'.
    exists h'. destruct (assoc k l) as [[k0 v]|] eqn:Ha; cbn [fst snd] in Hp, Hres; destruct r; cbn in Hres; simplify_eq.
    + split; [done|].
      destruct (assoc_Some eqb _ _ _ Ha) as [Hin He]. cbn [fst] in He.
      assert (assoc k0 l = Some (k0, v)) as Ha0.
      { apply (assoc_uniq hash_fn eqb Hkey); [done|done|]. by destruct Hkey. }
      split. { rewrite (fhm_size_Ok h' l' Hok'), (fhm_size_Ok h l Hok). rewrite (Permutation_length Hp). by rewrite put_length. }
      intros k'. rewrite (get_Ok h' l' k' Hok'). f_equal.
      rewrite (assoc_perm hash_fn eqb Hkey k' l' _ Hu' Hp).
      rewrite (assoc_put (k0, f v) (k0, v) l k' Ha0). cbn [fst].
      rewrite <- (eqb_trans_l hash_fn eqb Hkey _ _ k' He). destruct (eqb k k') eqn:E; [|by destruct (assoc k' l)].
      assert (assoc k' l = Some (k0, v)) as ->; [|done].
      apply (assoc_uniq hash_fn eqb Hkey); [done|done|]. cbn [fst].
      by rewrite <- (eqb_trans_l hash_fn eqb Hkey _ _ k0 E).
    + split; [done|].
      split. { rewrite (fhm_size_Ok h' l' Hok'), (fhm_size_Ok h l Hok). by rewrite (Permutation_length Hp). }
      intros k'. rewrite (get_Ok h' l' k' Hok'). f_equal.
      rewrite (assoc_perm hash_fn eqb Hkey k' l' _ Hu' Hp).
      destruct (eqb k k') eqn:E; [|by destruct (assoc k' l)].
      assert (assoc k' l = None) as ->; [|done].
      apply (assoc_None eqb). intros x Hx. rewrite <- (eqb_trans_l hash_fn eqb Hkey _ _ _ E).
      by eapply (assoc_None eqb).
  - destruct (step_Ok h l (HRemoveEntry k ok) Hok) as (h' & r & l' & Hs & _ & Hcall & Hok').
    cbn [op_ok] in Hcall. rewrite Hf in Hcall. destruct Hcall as [Hp Hres]. cbn [spec_step] in Hp, Hres.
    pose proof (ok_uniq h' l' Hok') as Hu'.
    exists h'. destruct (assoc k l) as [kv|] eqn:Ha; cbn [fst snd] in Hp, Hres; destruct r; cbn in Hres; simplify_eq.
    + split; [done|]. intros k'. rewrite (get_Ok h' l' k' Hok'). f_equal.
      rewrite (assoc_perm hash_fn eqb Hkey k' l' _ Hu' Hp). by apply assoc_del.
    + split; [done|]. intros k'. rewrite (get_Ok h' l' k' Hok'). f_equal.
      rewrite (assoc_perm hash_fn eqb Hkey k' l' _ Hu' Hp). destruct (eqb k k') eqn:E; [|done].
      apply (assoc_None eqb). intros x Hx. rewrite <- (eqb_trans_l hash_fn eqb Hkey _ _ _ E).
      by eapply (assoc_None eqb).
Qed.

End map_proofs.
