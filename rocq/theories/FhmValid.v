(** What the answer of the hash map's validate is worth. *)
From stdpp Require Import base numbers option list list_numbers.
From Verif Require Import Common BufferModel ArrayLemmas FhmModel FhmSpec FhmProofs FhmMapProofs.

Local Ltac bind := cbn [mbind outcome_bind obind].

Section valid.
Context {K V : Type} (wide : bool) (hash_fn : K -> N) (eqb : K -> K -> bool).
Notation cell := (hcell K V).
Notation fhm := (buf cell).
Notation to_i := (to_i wide).
Notation filter := (filter hash_fn).
Notation D cap i h := (distance cap i (to_i cap h)).

(** Memory in which validate may be asked: hash words that were written. *)
Definition written (T : slots cell) : Prop :=
  forall i c, T !! i = Some c -> exists h kv, c = Some (h, kv) /\ (h < 2 ^ 64)%N.

Lemma written_hash T i : written T -> i < length T ->
  exists h kv, T !! i = Some (Some (h, kv)) /\ get_hash T i = Ok h /\ (h < 2 ^ 64)%N.
Proof.
  intros HT [c Hi]%lookup_lt_is_Some_2. destruct (HT i c Hi) as (h & kv & -> & Hh). exists h, kv.
  unfold get_hash, slot_get. rewrite Hi. done.
Qed.

Lemma valid_walk_step fuel (T : slots cell) cap stop i d : 0 < fuel ->
  valid_walk wide fuel T cap stop i d =
  if i =? stop then Ok true
  else
    cur ← get_hash T i;
    if (cur =? 0)%N then Ok false
    else if (distance_w cap i (to_i cap cur) <? d)%N then Ok false
    else valid_walk wide (fuel - 1) T cap stop (decrement cap i) ((d + 2 ^ 64 - 1) mod 2 ^ 64).
Proof. destruct fuel as [|f]; [lia|]. intros _. cbn [Nat.sub]. by rewrite Nat.sub_0_r. Qed.

(** The walk back comes to an end. *)
Lemma valid_walk_inr T stop : written T -> 3 <= length T -> inr (length T) stop ->
  forall n i fuel d, inr (length T) i -> distance (length T) i stop = n -> n <= fuel ->
  exists b, valid_walk wide fuel T (length T) stop i d = Ok b.
Proof.
  intros HT Hc Hs n. induction n as [|n IH]; intros i fuel d Hi Hd Hf.
  - apply distance_0 in Hd; [|done..]. subst. exists true. destruct fuel; cbn [valid_walk]; by rewrite Nat.eqb_refl.
  - destruct fuel as [|f]; [lia|]. cbn [valid_walk].
    destruct (Nat.eqb_spec i stop) as [|Hne]; [eauto|].
    destruct (written_hash T i HT) as (h & kv & _ & -> & _); [unfold inr in Hi; lia|]. bind.
    destruct (h =? 0)%N; [eauto|]. destruct (_ <? _)%N; [eauto|].
    apply IH; [by apply decrement_inr| |lia].
    rewrite (distance_dec (length T) i stop) in Hd; [lia|done..|congruence].
Qed.

Lemma valid_walk_ends T i h d : written T -> i < length T -> (h < 2 ^ 64)%N ->
  exists b, valid_walk wide (length T) T (length T) (decrement (length T) (to_i (length T) h)) i d = Ok b.
Proof.
  intros HT Hi Hh. destruct (decide (3 <= length T)) as [Hc|Hc].
  - pose proof (to_i_inr wide (length T) h Hc Hh) as Hto. pose proof (decrement_inr _ _ Hc Hto) as Hs.
    set (stop := decrement _ _) in *. destruct (decide (2 <= i)) as [H2|H2].
    + assert (inr (length T) i) as Hin by done. pose proof (distance_lt _ _ _ Hin Hs). eapply valid_walk_inr; done || lia.
    + rewrite valid_walk_step by lia.
      destruct (Nat.eqb_spec i stop); [eauto|].
      destruct (written_hash T i HT) as (h' & kv & _ & -> & _); [lia|]. bind.
      destruct (h' =? 0)%N; [eauto|]. destruct (_ <? _)%N; [eauto|].
      assert (inr (length T) (decrement (length T) i)) as Hin.
      { unfold inr, decrement. destruct (i =? 0); destruct (_ <=? 1) eqn:E; rewrite ?Nat.leb_le, ?Nat.leb_gt in E; lia. }
      pose proof (distance_lt _ _ _ Hin Hs). eapply valid_walk_inr; done || lia.
  - assert (to_i (length T) h = 2) as Hto.
    { unfold FhmModel.to_i. destruct wide.
      - destruct (Nat.leb_spec (N.to_nat (h * N.of_nat (length T) / 2 ^ 64)) 1) as [|Hx]; [done|].
        assert (h * N.of_nat (length T) / 2 ^ 64 < 2)%N; [apply N.div_lt_upper_bound; [done|nia]|lia].
      - destruct (Nat.leb_spec (N.to_nat (h mod N.of_nat (length T))) 1) as [|Hx]; [done|].
        pose proof (N.mod_lt h (N.of_nat (length T))). lia. }
    rewrite Hto. destruct (written_hash T 0 HT) as (h0 & kv0 & _ & H0 & _); [lia|].
    destruct (length T) as [|[|[|?]]] eqn:El; try lia.
    + assert (i = 0) as -> by lia. by exists true.
    + destruct i as [|[|?]]; [|by exists true|lia].
      change (decrement 2 2) with 1. cbn [valid_walk]. rewrite H0. bind. change (decrement 2 0) with 1.
      cbn [valid_walk Nat.eqb].
      destruct (h0 =? 0)%N; [eauto|]. destruct (_ <? _)%N; eauto.
Qed.

(** Validate answers. *)
Lemma validate_loop_ends T : written T -> forall n i o e, i + n = length T ->
  exists r, validate_loop wide n T (length T) i o e = Ok r.
Proof.
  intros HT n. induction n as [|n IH]; intros i o e Hi; cbn [validate_loop]; [eauto|].
  destruct (written_hash T i HT) as (h & kv & _ & -> & Hh); [lia|]. bind.
  destruct (h =? 0)%N; [apply IH; lia|].
  destruct (valid_walk_ends T i h (distance_w (length T) i (to_i (length T) h)) HT) as [[] ->]; [lia|done|..]; bind;
    [apply IH; lia|eauto].
Qed.

Lemma validate_decides h : written (b_slots h) -> exists b, fhm_validate wide h = Ok b.
Proof.
  intros HT. unfold fhm_validate, b_cap.
  destruct (validate_loop_ends (b_slots h) HT (length (b_slots h)) 0 0 0 eq_refl) as [[[o e]|] ->]; bind; eauto.
Qed.

(** What it does not look at: the swap slots are empty, no element is a full turn
    away from home, stored hashes are those of the keys, keys are distinct. *)
Definition keyed (T : slots cell) : Prop :=
  forall i h kvo, T !! i = Some (Some (h, kvo)) -> h <> 0%N -> exists k v, kvo = Some (k, v) /\ h = filter k.
Definition distinct (T : slots cell) : Prop :=
  forall i j h h' kv kv', T !! i = Some (Some (h, Some kv)) -> T !! j = Some (Some (h', Some kv')) ->
  h <> 0%N -> h' <> 0%N -> eqb (fst kv) (fst kv') = true -> i = j.
Definition swap_empty (T : slots cell) : Prop :=
  forall i, i < 2 -> exists kv, T !! i = Some (Some (0%N, kv)).
Definition no_full_turn (T : slots cell) : Prop :=
  forall i h kv, T !! i = Some (Some (h, kv)) -> h <> 0%N -> increment (length T) i <> to_i (length T) h.

Lemma good_of T : written T -> keyed T -> good hash_fn T.
Proof.
  intros HT Hk i c Hi. destruct (HT i c Hi) as (h & kv & -> & _). destruct (decide (h = 0%N)) as [-> |Hne].
  - left. eauto.
  - right. destruct (Hk i h kv Hi Hne) as (k & v & -> & ->). eauto.
Qed.

(** One step of the walk: the element before is no nearer to its home. *)
Lemma valid_walk_prev (T : slots cell) i h kv : good hash_fn T -> 3 <= length T -> (N.of_nat (length T) < 2 ^ 64)%N ->
  inr (length T) i -> occ_at T i = Some (h, kv) -> increment (length T) i <> to_i (length T) h ->
  valid_walk wide (length T) T (length T) (decrement (length T) (to_i (length T) h)) i (distance_w (length T) i (to_i (length T) h)) = Ok true ->
  0 < D (length T) i h ->
  exists h' kv', occ_at T (decrement (length T) i) = Some (h', kv') /\ D (length T) i h <= D (length T) (decrement (length T) i) h' + 1.
Proof.
  intros HT Hc Hm Hi Ho Hturn Hw Hpos. pose proof (occ_range wide hash_fn _ _ _ _ HT Hc Ho) as Hh.
  rewrite valid_walk_step in Hw by lia.
  destruct (Nat.eqb_spec i (decrement (length T) (to_i (length T) h))) as [->|_].
  { by rewrite inc_dec in Hturn. }
  destruct (get_hash_occ hash_fn _ _ _ _ HT Ho) as [Hg Hne]. rewrite Hg in Hw. cbn [mbind outcome_bind obind] in Hw.
  destruct (N.eqb_spec h 0); [done|]. rewrite N.ltb_irrefl in Hw.
  pose proof (decrement_inr _ i Hc Hi) as Hp. rewrite valid_walk_step in Hw by lia.
  destruct (Nat.eqb_spec (decrement (length T) i) (decrement (length T) (to_i (length T) h))) as [He|_].
  { apply (f_equal (increment (length T))) in He. rewrite !inc_dec in He by done. rewrite <- He, distance_same in Hpos. lia. }
  destruct (occ_at T (decrement (length T) i)) as [[h' kv']|] eqn:Ho'.
  - destruct (get_hash_occ hash_fn _ _ _ _ HT Ho') as [Hg' Hne']. rewrite Hg' in Hw. cbn [mbind outcome_bind obind] in Hw.
    destruct (N.eqb_spec h' 0); [done|]. pose proof (occ_range wide hash_fn _ _ _ _ HT Hc Ho') as Hh'.
    rewrite !distance_w_inr in Hw by done. exists h', kv'. split; [done|].
    destruct (N.ltb_spec (N.of_nat (D (length T) (decrement (length T) i) h')) ((N.of_nat (D (length T) i h) + 2 ^ 64 - 1) mod 2 ^ 64)) as [|Hle]; [done|].
    replace ((N.of_nat (D (length T) i h) + 2 ^ 64 - 1) mod 2 ^ 64)%N with (N.of_nat (D (length T) i h - 1)) in Hle; [lia|].
    pose proof (distance_lt _ _ _ Hi Hh).
    replace (N.of_nat (D (length T) i h) + 2 ^ 64 - 1)%N with (N.of_nat (D (length T) i h - 1) + 1 * 2 ^ 64)%N by lia.
    rewrite N.mod_add by done. symmetry. apply N.mod_small. lia.
  - rewrite (get_hash_empty hash_fn) in Hw by (done || (unfold inr in Hp; lia)). done.
Qed.

Lemma validate_loop_true (T : slots cell) : good hash_fn T -> forall n i o e o' e', i + n = length T ->
  validate_loop wide n T (length T) i o e = Ok (Some (o', e')) ->
  o' = o + length (omap (fun c => snd <$> occ c) (drop i T)) /\
  forall j h kv, i <= j -> occ_at T j = Some (h, kv) ->
    valid_walk wide (length T) T (length T) (decrement (length T) (to_i (length T) h)) j (distance_w (length T) j (to_i (length T) h)) = Ok true.
Proof.
  intros HT n. induction n as [|n IH]; intros i o e o' e' Hi; cbn [validate_loop].
  - intros [= <- <-]. rewrite drop_ge by lia. cbn. split; [lia|]. intros j h kv Hj Ho.
    unfold occ_at in Ho. rewrite lookup_ge_None_2 in Ho by lia. done.
  - destruct (lookup_lt_is_Some_2 T i) as [c Ec]; [lia|]. rewrite (drop_S _ _ _ Ec), (cont_cons c (drop (S i) T)).
    assert (occ_at T i = occ c) as Hoc by (unfold occ_at; by rewrite Ec).
    destruct (occ c) as [[h kv]|] eqn:Eo.
    + destruct (get_hash_occ hash_fn _ _ _ _ HT Hoc) as [-> Hne]. bind. destruct (N.eqb_spec h 0); [done|].
      destruct (valid_walk _ _ _ _ _ _ _) as [[]| |] eqn:Hw; bind; try done.
      intros [-> Hall]%IH; [|lia]. rewrite (Nat.add_1_r i). cbn [length]. split; [lia|].
      intros j h' kv' Hj Hj'. destruct (decide (j = i)) as [-> |]; [congruence|]. apply (Hall j h' kv'); [lia|done].
    + rewrite (get_hash_empty hash_fn) by (done || lia). bind. change (0 =? 0)%N with true. cbv iota.
      intros [-> Hall]%IH; [|lia]. rewrite (Nat.add_1_r i). split; [lia|].
      intros j h' kv' Hj Hj'. destruct (decide (j = i)) as [-> |]; [congruence|]. apply (Hall j h' kv'); [lia|done].
Qed.

Context (Hkey : key_ok hash_fn eqb).

Lemma contents_uniq_aux (T : slots cell) : good hash_fn T -> forall i, 
  (forall a b h h' kv kv', i <= a -> i <= b -> occ_at T a = Some (h, kv) -> occ_at T b = Some (h', kv') -> eqb (fst kv) (fst kv') = true -> a = b) ->
  i <= length T -> uniq eqb (omap (fun c => snd <$> occ c) (drop i T)).
Proof.
  intros HT i. remember (length T - i) as n eqn:En. revert i En. induction n as [|n IH]; intros i En Hd Hi.
  - rewrite drop_ge by lia. by intros ????.
  - destruct (lookup_lt_is_Some_2 T i) as [c Ec]; [lia|]. rewrite (drop_S _ _ _ Ec), (cont_cons c (drop (S i) T)).
    assert (uniq eqb (omap (fun c => snd <$> occ c) (drop (S i) T))) as Hu.
    { apply IH; [lia| |lia]. intros. eapply Hd; [..|done|done|done]; lia. }
    assert (occ_at T i = occ c) as Hoc by (unfold occ_at; by rewrite Ec).
    destruct (occ c) as [[h kv]|] eqn:Eo; [|done]. cbn [snd]. apply (uniq_cons hash_fn eqb Hkey). split; [|done].
    intros y Hy. apply elem_of_list_omap in Hy as (c' & [j Hj]%elem_of_list_lookup & Hy).
    rewrite lookup_drop in Hj. destruct (occ c') as [[h' kv']|] eqn:Eo'; [|done]. cbn in Hy. injection Hy as <-.
    destruct (eqb (fst kv) (fst kv')) eqn:E; [|done]. exfalso.
    assert (i = S i + j); [|lia]. eapply (Hd i (S i + j) h h' kv kv'); [lia|lia|done| |done].
    unfold occ_at. by rewrite Hj.
Qed.

Theorem validate_ok (h : fhm) : written (b_slots h) -> 6 <= b_cap h -> (N.of_nat (b_cap h) < 2 ^ 64)%N -> b_sz h < b_cap h ->
  swap_empty (b_slots h) -> no_full_turn (b_slots h) -> keyed (b_slots h) -> distinct (b_slots h) ->
  fhm_validate wide h = Ok true -> exists l, fhm_ok wide hash_fn eqb h l.
Proof.
  destruct h as [T sz al]. unfold b_cap. cbn [b_slots b_sz]. intros HT Hc Hm Hsz Hsw Hturn Hk Hd Hv.
  pose proof (good_of T HT Hk) as Hg. unfold fhm_validate in Hv. cbn [b_cap b_slots] in Hv.
  change (b_cap (Buf T sz al)) with (length T) in Hv.
  destruct (validate_loop wide (length T) T (length T) 0 0 0) as [[[o e]|]| |] eqn:Hl; try done.
  cbn [mbind outcome_bind obind] in Hv. injection Hv as Hv. apply andb_true_iff in Hv as [Hn%N.eqb_eq _].
  apply (validate_loop_true T Hg) in Hl as [-> Hall]; [|done].
  assert (forall a h kv, occ_at T a = Some (h, kv) -> T !! a = Some (Some (h, Some kv)) /\ h <> 0%N) as Hocc.
  { intros a h kv Ha. pose proof (get_hash_occ hash_fn _ _ _ _ Hg Ha) as [_ Hne]. split; [|done].
    unfold occ_at in Ha. destruct (T !! a) as [[[h0 [kv0|]]|]|]; try done. cbn in Ha. destruct (h0 =? 0)%N; [done|]. congruence. }
  destruct (Hsw 0) as [kv0 Hz0]; [lia|]. destruct (Hsw 1) as [kv1 Hz1]; [lia|].
  assert (omap (fun c => snd <$> occ c) (drop 0 T) = contents T) as Hct.
  { unfold contents. rewrite drop_0. destruct T as [|c0 [|c1 T]]; cbn in *; try lia. simplify_eq. cbn.
    change (list_omap _ _ ?f ?l) with (omap f l). by destruct kv0, kv1. }
  rewrite Hct, Nat.add_0_l in Hn. exists (contents T).
  assert (tbl wide hash_fn eqb T (contents T)) as Htbl.
  { split; [lia|]. split; [done|]. split.
    { intros p Hp h kv Ho Hpos. pose proof (increment_inr (length T) p ltac:(lia) Hp) as Hin.
      destruct (Hocc _ _ _ Ho) as [Hlk Hne].
      pose proof (valid_walk_prev T _ h kv Hg ltac:(lia) Hm Hin Ho (Hturn _ _ _ Hlk Hne) (Hall _ _ _ ltac:(lia) Ho) Hpos) as Hx.
      rewrite dec_inc in Hx by (done || lia). exact Hx. }
    split; [by eexists|]. split; [by eexists|]. split; [done|].
    apply contents_uniq_aux; [done| |lia].
    intros a b h h' kv kv' _ _ [Ha Hne]%Hocc [Hb Hne']%Hocc He. by eapply Hd. }
  unfold fhm_size in Hn. cbn [b_sz] in Hn. split; [done|]. right. unfold b_cap. cbn [b_slots b_sz].
  split; [done|]. split; [done|]. destruct (Nat.eqb_spec sz 0) as [-> |Hne].
  - assert (contents T = []) as -> by (apply nil_length_inv; lia). split; [cbn; lia|by right].
  - destruct (decide (sz = 1)) as [-> |].
    { exfalso. change ((N.of_nat 1 + 2 ^ 64 - 2) mod 2 ^ 64)%N with (2 ^ 64 - 1)%N in Hn.
      pose proof (omap_length_le (fun c => snd <$> occ c) (drop 2 T)) as Hle. rewrite drop_length in Hle.
      unfold contents in Hn. cbv beta in Hle. lia. }
    replace (N.of_nat sz + 2 ^ 64 - 2)%N with (N.of_nat (sz - 2) + 1 * 2 ^ 64)%N in Hn by lia.
    rewrite N.mod_add, N.mod_small in Hn by (done || lia). split; [lia|]. left. lia.
Qed.

(** The map is then as if built by calls. *)
Theorem validate_usable (h : fhm) : written (b_slots h) -> 6 <= b_cap h -> (N.of_nat (b_cap h) < 2 ^ 64)%N -> b_sz h < b_cap h ->
  swap_empty (b_slots h) -> no_full_turn (b_slots h) -> keyed (b_slots h) -> distinct (b_slots h) ->
  fhm_validate wide h = Ok true ->
  exists l, fhm_iter h = Ok l /\ fhm_size h = N.of_nat (length l) /\
    (forall k, fhm_get wide hash_fn eqb h k = Ok (assoc eqb k l)) /\
    forall os, exists h' tr l', fhm_run wide hash_fn eqb h os = Ok (h', tr) /\ fhm_trace eqb l tr l' /\
      map (fun x => fst (fst x)) tr = os /\ fhm_size h' = N.of_nat (length l') /\
      forall k, fhm_get wide hash_fn eqb h' k = Ok (assoc eqb k l').
Proof.
  intros HT Hc Hm Hsz Hsw Ht Hk Hd Hv. destruct (validate_ok h) as [l0 H0]; [done..|].
  destruct (fhm_iter_Ok wide hash_fn eqb h l0 H0) as (l & Hi & Hp).
  pose proof (fhm_ok_perm wide hash_fn eqb Hkey h l0 l H0 (Permutation_sym Hp)) as Hok.
  exists l. split; [done|]. split; [by eapply fhm_size_Ok|]. split; [intros k; by apply get_Ok|].
  intros os. destruct (run_Ok wide hash_fn eqb Hkey os h l Hok) as (h' & tr & l' & Hr & Hok' & _ & Htr & Hmap).
  exists h', tr, l'. split; [done|]. split; [done|]. split; [done|]. split; [by eapply fhm_size_Ok|]. intros k. by apply get_Ok.
Qed.
End valid.
