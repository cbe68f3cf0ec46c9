(** Proofs about the hash map model: the Robin Hood invariant. *)
From stdpp Require Import base numbers option list list_numbers.
From Verif Require Import Common BufferModel ArrayLemmas FhmModel FhmSpec.

Definition inr (cap i : nat) : Prop := 2 <= i < cap.

Ltac dlia := unfold distance, increment, decrement, inr in *;
  repeat match goal with
  | |- context [Nat.ltb ?a ?b] => destruct (Nat.ltb_spec a b)
  | |- context [Nat.leb ?a ?b] => destruct (Nat.leb_spec a b)
  | |- context [Nat.eqb ?a ?b] => destruct (Nat.eqb_spec a b)
  | H : context [Nat.ltb ?a ?b] |- _ => destruct (Nat.ltb_spec a b)
  | H : context [Nat.leb ?a ?b] |- _ => destruct (Nat.leb_spec a b)
  | H : context [Nat.eqb ?a ?b] |- _ => destruct (Nat.eqb_spec a b)
  end; lia.

Lemma increment_inr cap i : 3 <= cap -> inr cap i -> inr cap (increment cap i).
Proof. intros. dlia. Qed.
Lemma increment_inj cap i j : inr cap i -> inr cap j -> increment cap i = increment cap j -> i = j.
Proof. intros. dlia. Qed.
Lemma distance_lt cap i j : inr cap i -> inr cap j -> distance cap i j < cap - 2.
Proof. intros. dlia. Qed.
Lemma distance_inj cap i i' j : inr cap i -> inr cap i' -> inr cap j ->
  distance cap i j = distance cap i' j -> i = i'.
Proof. intros. dlia. Qed.
Lemma distance_inj_r cap i j j' : inr cap i -> inr cap j -> inr cap j' ->
  distance cap i j = distance cap i j' -> j = j'.
Proof. intros. dlia. Qed.
Lemma distance_same cap i : distance cap i i = 0.
Proof. dlia. Qed.
Lemma distance_0 cap i j : inr cap i -> inr cap j -> distance cap i j = 0 -> i = j.
Proof. intros. dlia. Qed.
Lemma distance_inc cap i j : inr cap i -> inr cap j -> distance cap i j < cap - 3 ->
  distance cap (increment cap i) j = distance cap i j + 1.
Proof. intros. dlia. Qed.
Lemma distance_inc_pos cap i j : inr cap i -> inr cap j -> 0 < distance cap (increment cap i) j ->
  distance cap (increment cap i) j = distance cap i j + 1.
Proof. intros. dlia. Qed.
Lemma distance_from_inc cap i z : inr cap i -> inr cap z -> z <> i ->
  distance cap z i = distance cap z (increment cap i) + 1.
Proof. intros. dlia. Qed.
Lemma decrement_inr cap i : 3 <= cap -> inr cap i -> inr cap (decrement cap i).
Proof. intros. dlia. Qed.
Lemma inc_dec cap i : 3 <= cap -> inr cap i -> increment cap (decrement cap i) = i.
Proof. intros. dlia. Qed.
Lemma dec_inc cap i : 3 <= cap -> inr cap i -> decrement cap (increment cap i) = i.
Proof. intros. dlia. Qed.
Lemma distance_dec cap i z : 3 <= cap -> inr cap i -> inr cap z -> z <> i ->
  distance cap i z = distance cap (decrement cap i) z + 1.
Proof. intros. dlia. Qed.

Section proofs.
Context {K V : Type} (wide : bool) (hash_fn : K -> N) (eqb : K -> K -> bool).
Notation cell := (hcell K V).
Notation fhm := (buf cell).
Notation to_i := (to_i wide).
Notation filter := (filter hash_fn).
Notation D cap i h := (distance cap i (to_i cap h)).

Lemma filter_range k : (0 < filter k < 2 ^ 64)%N.
Proof.
  unfold FhmModel.filter.
  assert (1 < 2 ^ 64)%N as Hone by done. remember (2 ^ 64)%N as M eqn:HM in *. clear HM.
  pose proof (N.mod_lt (hash_fn k) M ltac:(lia)).
  generalize dependent (hash_fn k mod M)%N. intros x Hx. destruct (N.eqb_spec x 0); lia.
Qed.

Lemma to_i_inr cap h : 3 <= cap -> (h < 2 ^ 64)%N -> inr cap (to_i cap h).
Proof.
  intros Hc Hh. unfold FhmModel.to_i, inr.
  assert (1 < 2 ^ 64)%N as Hone by done. remember (2 ^ 64)%N as M eqn:HM in *. clear HM.
  assert ((if wide then N.to_nat (h * N.of_nat cap / M)
           else N.to_nat (h mod N.of_nat cap))%N < cap).
  { destruct wide.
    - assert (h * N.of_nat cap / M < N.of_nat cap)%N; [|lia].
      apply N.div_lt_upper_bound; [lia|]. nia.
    - pose proof (N.mod_lt h (N.of_nat cap) ltac:(lia)). lia. }
  destruct (Nat.leb_spec (if wide then N.to_nat (h * N.of_nat cap / M)
           else N.to_nat (h mod N.of_nat cap))%N 1); lia.
Qed.

(** Occupied slots. *)
Definition occ (c : option cell) : option (N * (K * V)) :=
  match c with
  | Some (h, Some kv) => if (h =? 0)%N then None else Some (h, kv)
  | _ => None
  end.
Definition occ_at (T : slots cell) (i : nat) : option (N * (K * V)) := T !! i ≫= occ.
Definition contents (T : slots cell) : list (K * V) := omap (fun c => snd <$> occ c) (drop 2 T).

Definition cell_ok (c : option cell) : Prop :=
  (exists kv, c = Some (0%N, kv)) \/ (exists k v, c = Some (filter k, Some (k, v))).
Definition good (T : slots cell) : Prop := forall i c, T !! i = Some c -> cell_ok c.

(** The Robin Hood order: an element away from home follows an element at most
    one step closer to its own home. *)
Definition rh_at (T : slots cell) (p : nat) : Prop :=
  forall h kv, occ_at T (increment (length T) p) = Some (h, kv) ->
  0 < D (length T) (increment (length T) p) h ->
  exists h' kv', occ_at T p = Some (h', kv') /\
    D (length T) (increment (length T) p) h <= D (length T) p h' + 1.
Definition rh (T : slots cell) : Prop := forall p, inr (length T) p -> rh_at T p.

Definition prev_ok (T : slots cell) (i dist : nat) : Prop :=
  dist = 0 \/ exists p h kv, inr (length T) p /\ increment (length T) p = i /\
    occ_at T p = Some (h, kv) /\ dist <= D (length T) p h + 1.

Lemma occ_Some c h kv : cell_ok c -> occ c = Some (h, kv) -> c = Some (h, Some kv) /\ h = filter (fst kv).
Proof.
  intros [[kv' ->]|(k & v & ->)]; cbn.
  - by destruct kv'.
  - destruct (N.eqb_spec (filter k) 0); [done|]. intros; by simplify_eq.
Qed.

Lemma occ_None c : cell_ok c -> occ c = None -> exists kv, c = Some (0%N, kv).
Proof.
  intros [[kv' ->]|(k & v & ->)]; cbn; [by eauto|].
  pose proof (filter_range k). destruct (N.eqb_spec (filter k) 0); [lia|done].
Qed.

Lemma occ_at_Some T i h kv : good T -> occ_at T i = Some (h, kv) ->
  T !! i = Some (Some (h, Some kv)) /\ h = filter (fst kv).
Proof.
  unfold occ_at. intros HT. destruct (T !! i) as [c|] eqn:E; [|done]. cbn. intros Ho.
  destruct (occ_Some c h kv (HT _ _ E) Ho) as [-> ->]. done.
Qed.

Lemma occ_at_None T i : good T -> i < length T -> occ_at T i = None -> exists kv, T !! i = Some (Some (0%N, kv)).
Proof.
  unfold occ_at. intros HT Hi. destruct (lookup_lt_is_Some_2 _ _ Hi) as [c E]. rewrite E. cbn. intros Ho.
  destruct (occ_None c (HT _ _ E) Ho) as [kv ->]. eauto.
Qed.

Lemma occ_range T i h kv : good T -> 3 <= length T -> occ_at T i = Some (h, kv) -> inr (length T) (to_i (length T) h).
Proof.
  intros HT Hc Ho. destruct (occ_at_Some _ _ _ _ HT Ho) as [_ ->]. apply to_i_inr; [done|].
  pose proof (filter_range (fst kv)). lia.
Qed.

Lemma get_hash_occ T i h kv : good T -> occ_at T i = Some (h, kv) -> get_hash T i = Ok h /\ h <> 0%N.
Proof.
  intros HT Ho. destruct (occ_at_Some _ _ _ _ HT Ho) as [E ->]. unfold get_hash.
  rewrite (sget_Ok _ _ _ E). split; [done|]. pose proof (filter_range (fst kv)). lia.
Qed.
Lemma get_kv_occ T i h kv : good T -> occ_at T i = Some (h, kv) -> get_kv T i = Ok kv.
Proof.
  intros HT Ho. destruct (occ_at_Some _ _ _ _ HT Ho) as [E ->]. unfold get_kv. by rewrite (sget_Ok _ _ _ E).
Qed.
Lemma get_hash_empty T i : good T -> i < length T -> occ_at T i = None -> get_hash T i = Ok 0%N.
Proof.
  intros HT Hi Ho. destruct (occ_at_None _ _ HT Hi Ho) as [kv E]. unfold get_hash. by rewrite (sget_Ok _ _ _ E).
Qed.

(** No probe sequence of a stored element crosses an empty slot. *)
Lemma no_cross T z : good T -> 3 <= length T -> rh T -> inr (length T) z -> occ_at T z = None ->
  forall n i h kv, inr (length T) i -> distance (length T) i z = n -> occ_at T i = Some (h, kv) ->
  D (length T) i h < n.
Proof.
  intros HT Hc Hrh Hz Ez n. induction n as [|n IH]; intros i h kv Hi Hd Ho.
  - apply distance_0 in Hd; [|done|done]. congruence.
  - assert (i <> z) by (intros ->; congruence).
    rewrite (distance_dec _ i z) in Hd by done.
    pose proof (decrement_inr _ i Hc Hi) as Hp. pose proof (inc_dec _ i Hc Hi) as Hid.
    destruct (decide (0 < D (length T) i h)) as [Hpos|]; [|lia].
    destruct (Hrh _ Hp h kv) as (h' & kv' & Ho' & Hle); [by rewrite Hid|by rewrite Hid|].
    rewrite Hid in Hle. pose proof (IH _ _ _ Hp ltac:(lia) Ho'). lia.
Qed.

Lemma D_small T z i h kv : good T -> 3 <= length T -> rh T -> inr (length T) z -> occ_at T z = None ->
  inr (length T) i -> occ_at T i = Some (h, kv) -> D (length T) i h < length T - 3.
Proof.
  intros HT Hc Hrh Hz Ez Hi Ho.
  pose proof (no_cross T z HT Hc Hrh Hz Ez _ i h kv Hi eq_refl Ho).
  pose proof (distance_lt _ _ _ Hi Hz). lia.
Qed.

(** The elements before a stored element, back to its home, are at least as far
    from theirs. *)
Lemma chain T s h kv : good T -> 3 <= length T -> rh T -> inr (length T) s -> occ_at T s = Some (h, kv) ->
  forall n i, inr (length T) i -> D (length T) i h + n = D (length T) s h ->
  exists h' kv', occ_at T i = Some (h', kv') /\ D (length T) i h <= D (length T) i h'.
Proof.
  intros HT Hc Hrh Hs Ho n. pose proof (occ_range _ _ _ _ HT Hc Ho) as Hh.
  induction n as [|n IH]; intros i Hi Hd.
  - assert (i = s) as -> by (eapply distance_inj; [done|done|exact Hh|lia]). eauto.
  - assert (D (length T) i h < length T - 3) as Hlt by (pose proof (distance_lt _ _ _ Hs Hh); lia).
    pose proof (distance_inc _ _ _ Hi Hh Hlt) as Hinc.
    destruct (IH (increment (length T) i)) as (h' & kv' & Ho' & Hle);
      [by apply increment_inr|lia|].
    destruct (Hrh i Hi h' kv' Ho') as (h2 & kv2 & Ho2 & Hle2); [lia|].
    exists h2, kv2. split; [done|lia].
Qed.

(** Result of a probe. *)
Lemma find_loop_Ok T z key : good T -> 3 <= length T -> rh T -> inr (length T) z -> occ_at T z = None ->
  forall fuel i dist, inr (length T) i -> dist = D (length T) i (filter key) ->
  prev_ok T i dist -> distance (length T) z i < fuel ->
  (forall j h kv, inr (length T) j -> D (length T) j (filter key) < dist ->
     occ_at T j = Some (h, kv) -> h = filter key -> eqb key (fst kv) = false) ->
  exists i' st, find_loop wide eqb fuel T (length T) key (filter key) i dist = Ok (Ent (Some i') st) /\
    inr (length T) i' /\
    ((st = ST_OCCUPIED /\ exists kv, occ_at T i' = Some (filter key, kv) /\ eqb key (fst kv) = true) \/
     (st = ST_NO_UNWRAP /\ prev_ok T i' (D (length T) i' (filter key)) /\
      (forall h kv, occ_at T i' = Some (h, kv) -> D (length T) i' h < D (length T) i' (filter key)) /\
      (forall j h kv, inr (length T) j -> D (length T) j (filter key) < D (length T) i' (filter key) ->
         occ_at T j = Some (h, kv) -> h = filter key -> eqb key (fst kv) = false))).
Proof.
  intros HT Hc Hrh Hz Ez fuel.
  assert (inr (length T) (to_i (length T) (filter key))) as Hk.
  { apply to_i_inr; [done|]. pose proof (filter_range key). lia. }
  induction fuel as [|fuel IH]; intros i dist Hi Hdist Hprev Hfuel Hpass; [lia|].
  cbn [find_loop]. destruct (occ_at T i) as [[h kv]|] eqn:Ho.
  - destruct (get_hash_occ _ _ _ _ HT Ho) as [-> Hne]. cbn [mbind outcome_bind obind].
    destruct (N.eqb_spec h 0); [done|]. cbn [orb].
    destruct (Nat.ltb_spec (D (length T) i h) dist) as [Hlt|Hge].
    + exists i, ST_NO_UNWRAP. split; [done|]. split; [done|]. right.
      rewrite <- Hdist. split_and!; [done|done| |done].
      intros h2 kv2 Ho2. rewrite Ho in Ho2. by simplify_eq.
    + assert (forall eq, eq = (if (filter key =? h)%N then eqb key (fst kv) else false) ->
        (if (filter key =? h)%N then kv0 ← get_kv T i; Ok (eqb key (fst kv0)) else Ok false) = Ok eq) as Heq.
      { intros eq ->. destruct (N.eqb_spec (filter key) h); [|done]. by rewrite (get_kv_occ _ _ _ _ HT Ho). }
      rewrite (Heq _ eq_refl). cbn [mbind outcome_bind obind]. clear Heq.
      assert (forall j h kv, inr (length T) j -> D (length T) j (filter key) < dist + 1 ->
        (j = i -> (if (filter key =? h)%N then eqb key (fst kv) else false) = false) ->
        occ_at T j = Some (h, kv) -> h = filter key -> eqb key (fst kv) = false) as Hpass'.
      { intros j h2 kv2 Hj Hd He Ho2 ->. destruct (decide (j = i)) as [Hji|Hji].
        - specialize (He Hji). by rewrite N.eqb_refl in He.
        - eapply Hpass; [done| |done|done]. subst dist.
          assert (D (length T) j (filter key) <> D (length T) i (filter key)); [|lia].
          intros Hdd. apply Hji. eapply distance_inj; [done|done|exact Hk|done]. }
      destruct (if (filter key =? h)%N then eqb key (fst kv) else false) eqn:Eq.
      * exists i, ST_OCCUPIED. split; [done|]. split; [done|]. left. split; [done|].
        destruct (N.eqb_spec (filter key) h) as [<-|]; [|done]. eauto.
      * pose proof (D_small T z i h kv HT Hc Hrh Hz Ez Hi Ho).
        assert (z <> i) by (intros ->; congruence).
        apply IH.
        -- by apply increment_inr.
        -- rewrite distance_inc by (first [done|lia]). lia.
        -- right. exists i, h, kv. split_and!; [done|done|done|lia].
        -- pose proof (distance_from_inc _ _ _ Hi Hz ltac:(done)). lia.
        -- intros j h2 kv2 Hj Hd Ho2 Hh2. eapply Hpass'; [done|exact Hd| |done|done].
           intros ->. rewrite Ho in Ho2. by simplify_eq.
  - rewrite (get_hash_empty _ _ HT) by (first [done|unfold inr in Hi; lia]).
    cbn [mbind outcome_bind obind]. rewrite N.eqb_refl. cbn [orb].
    exists i, ST_NO_UNWRAP. split; [done|]. split; [done|]. right.
    rewrite <- Hdist. split_and!; [done|done| |done]. intros h kv. congruence.
Qed.

(** Updating one slot. *)
Lemma occ_at_insert T i c : i < length T -> occ_at (<[i:=c]> T) i = occ c.
Proof. intros. unfold occ_at. by rewrite list_lookup_insert. Qed.
Lemma occ_at_insert_ne T i j c : i <> j -> occ_at (<[i:=c]> T) j = occ_at T j.
Proof. intros. unfold occ_at. by rewrite list_lookup_insert_ne. Qed.
Lemma good_insert T i c : good T -> cell_ok c -> good (<[i:=c]> T).
Proof. intros HT Hc j c'. rewrite list_lookup_insert_Some. intros [(_ & <- & _)|[_ E]]; [done|by eapply HT]. Qed.

Lemma omap_insert_perm {A B} (f : A -> option B) (l : list A) i x y : l !! i = Some y ->
  option_list (f y) ++ omap f (<[i:=x]> l) ≡ₚ option_list (f x) ++ omap f l.
Proof.
  revert i. induction l as [|a l IH]; intros [|i] E; simpl in *; simplify_eq.
  - destruct (f x), (f y); simpl; solve_Permutation.
  - specialize (IH i E). destruct (f a) as [b|]; simpl; [|done].
    rewrite <- !Permutation_middle. by rewrite IH.
Qed.

Definition ckv (c : option cell) : list (K * V) := option_list (snd <$> occ c).

Lemma contents_insert T i x y : 2 <= i -> T !! i = Some y ->
  ckv y ++ contents (<[i:=x]> T) ≡ₚ ckv x ++ contents T.
Proof.
  intros Hi E. unfold contents, ckv. rewrite drop_insert_le by lia.
  apply (omap_insert_perm (fun c => snd <$> occ c)). rewrite lookup_drop. rewrite <- E. f_equal. lia.
Qed.
Lemma contents_insert_low T i x : i < 2 -> contents (<[i:=x]> T) = contents T.
Proof. intros Hi. unfold contents. by rewrite drop_insert_gt. Qed.

Lemma elem_of_contents T kv : kv ∈ contents T <-> exists i h, 2 <= i /\ occ_at T i = Some (h, kv).
Proof.
  unfold contents. rewrite elem_of_list_omap. setoid_rewrite elem_of_list_lookup.
  setoid_rewrite lookup_drop. unfold occ_at. split.
  - intros (c & (i & E) & Ho). destruct (occ c) as [[h kv']|] eqn:Eo; simplify_eq/=.
    exists (2 + i), h. split; [lia|]. change (S (S i)) with (2 + i) in *. by rewrite E.
  - intros (i & h & Hi & Ho). destruct (T !! i) as [c|] eqn:E; [|done]. simpl in Ho.
    exists c. split; [|by rewrite Ho]. exists (i - 2). rewrite <- E. f_equal. lia.
Qed.

Lemma set_hash_Ok (T : slots cell) i h c : T !! i = Some c ->
  exists kv, (c = Some (match c with Some (h0, _) => h0 | None => 0%N end, kv) \/ (c = None /\ kv = None)) /\
    set_hash T i h = Ok (<[i := Some (h, kv)]> T).
Proof.
  intros E. pose proof (lookup_lt_Some _ _ _ E). unfold set_hash. rewrite (sget_Ok _ _ _ E).
  cbn [mbind outcome_bind obind]. destruct c as [[h0 kv]|].
  - exists kv. split; [by left|]. by rewrite sset_Ok.
  - exists None. split; [by right|]. by rewrite sset_Ok.
Qed.

Lemma set_hash_0 (T : slots cell) i : i < length T -> exists kv, set_hash T i 0%N = Ok (<[i := Some (0%N, kv)]> T).
Proof.
  intros Hi. destruct (lookup_lt_is_Some_2 _ _ Hi) as [c E].
  destruct (set_hash_Ok T i 0%N c E) as (kv & _ & Es). eauto.
Qed.

Lemma swap3_Ok (T : slots cell) tmp a b xa xb : a <> b -> tmp <> b -> T !! a = Some xa -> T !! b = Some xb -> tmp < length T ->
  swap3 T tmp a b =
    Ok (<[b := (if decide (tmp = a) then xb else xa)]> (<[a := xb]> (<[tmp := xa]> T))).
Proof.
  intros Hab Htb Ea Eb Ht. unfold swap3. destruct (Nat.eqb_spec a b); [done|].
  pose proof (lookup_lt_Some _ _ _ Ea). pose proof (lookup_lt_Some _ _ _ Eb).
  rewrite (sget_Ok _ _ _ Ea). cbn [mbind outcome_bind obind].
  rewrite sset_Ok by done. cbn [mbind outcome_bind obind].
  rewrite (sget_Ok _ b xb) by (by rewrite list_lookup_insert_ne).
  cbn [mbind outcome_bind obind]. rewrite sset_Ok by (by rewrite insert_length).
  cbn [mbind outcome_bind obind]. destruct (decide (tmp = a)) as [->|].
  - rewrite (sget_Ok _ a xb) by (rewrite list_lookup_insert; [done|by rewrite insert_length]).
    cbn [mbind outcome_bind obind]. rewrite sset_Ok; [done|by rewrite !insert_length].
  - rewrite (sget_Ok _ tmp xa).
    + cbn [mbind outcome_bind obind]. rewrite sset_Ok; [done|by rewrite !insert_length].
    + rewrite list_lookup_insert_ne by done. by rewrite list_lookup_insert.
Qed.

Lemma rh_at_ext T T' p : length T' = length T -> inr (length T) p -> 3 <= length T ->
  occ_at T' (increment (length T) p) = occ_at T (increment (length T) p) -> occ_at T' p = occ_at T p ->
  rh_at T p -> rh_at T' p.
Proof. unfold rh_at. intros -> Hp Hc -> ->. done. Qed.

(** Placing an element where the loop stands keeps the order when the slot is
    empty or held by an element closer to its home. *)
Lemma place_rh T i c hf kvf : good T -> 3 <= length T -> rh T -> inr (length T) i ->
  c = Some (hf, Some kvf) -> hf = filter (fst kvf) ->
  prev_ok T i (D (length T) i hf) ->
  (forall h kv, occ_at T i = Some (h, kv) -> D (length T) i h < D (length T) i hf) ->
  rh (<[i:=c]> T).
Proof.
  intros HT Hc Hrh Hi Hcc Hf Hprev Hslot p. rewrite insert_length. intros Hp h kv.
  rewrite insert_length. pose proof (increment_inr _ p Hc Hp) as Hn.
  assert (i < length T) as Hil by (unfold inr in Hi; lia).
  assert (occ c = Some (hf, kvf)) as Hoc.
  { subst c hf. cbn. pose proof (filter_range (fst kvf)). destruct (N.eqb_spec (filter (fst kvf)) 0); [lia|done]. }
  destruct (decide (increment (length T) p = i)) as [Hpi|Hpi].
  - rewrite Hpi, occ_at_insert by done. rewrite Hoc. intros [= <- <-] Hpos.
    destruct Hprev as [H0|(p' & h' & kv' & Hp' & Hinc & Ho' & Hle)]; [lia|].
    assert (p' = p) as -> by (eapply increment_inj; [done|done|congruence]).
    destruct (decide (i = p)) as [->|Hne].
    + exists hf, kvf. rewrite occ_at_insert by done. split; [done|]. lia.
    + exists h', kv'. rewrite occ_at_insert_ne by done. done.
  - rewrite occ_at_insert_ne by done. intros Ho Hpos.
    destruct (Hrh p Hp h kv Ho Hpos) as (h' & kv' & Ho' & Hle).
    destruct (decide (i = p)) as [->|Hne].
    + exists hf, kvf. rewrite occ_at_insert by done. split; [done|].
      pose proof (Hslot _ _ Ho'). lia.
    + exists h', kv'. rewrite occ_at_insert_ne by done. done.
Qed.

Lemma rh_low T i c : i < 2 -> 3 <= length T -> rh T -> rh (<[i:=c]> T).
Proof.
  intros Hi Hc Hrh p. rewrite insert_length. intros Hp. pose proof (increment_inr _ p Hc Hp) as Hn.
  apply (rh_at_ext T); [apply insert_length|done|done| | |by apply Hrh];
    apply occ_at_insert_ne; unfold inr in *; lia.
Qed.

Lemma zero_ok kv : cell_ok (Some (0%N, kv)).
Proof. left. eauto. Qed.
Lemma kv_ok kv : cell_ok (Some (filter (fst kv), Some kv)).
Proof. right. exists (fst kv), (snd kv). by destruct kv. Qed.
Lemma occ_kv kv : occ (Some (filter (fst kv), Some kv)) = Some (filter (fst kv), kv).
Proof. cbn. pose proof (filter_range (fst kv)). destruct (N.eqb_spec (filter (fst kv)) 0); [lia|done]. Qed.

(** The insertion loop. *)
Lemma insert_loop_Ok : forall fuel (T : slots cell) sz al z i dist kvf,
  good T -> 3 <= length T -> rh T -> inr (length T) z -> occ_at T z = None ->
  T !! 0 = Some (Some (filter (fst kvf), Some kvf)) ->
  inr (length T) i -> dist = D (length T) i (filter (fst kvf)) -> prev_ok T i dist ->
  distance (length T) z i < fuel -> sz < length T ->
  exists T', insert_loop wide fuel (Buf T sz al) i dist = Ok (Buf T' (sz + 1) al) /\
    length T' = length T /\ good T' /\ rh T' /\
    (exists kv, T' !! 0 = Some (Some (0%N, kv))) /\ (exists kv, T' !! 1 = Some (Some (0%N, kv))) /\
    contents T' ≡ₚ kvf :: contents T /\
    (forall j, inr (length T) j -> distance (length T) z i < distance (length T) j i -> T' !! j = T !! j) /\
    ((forall h kv, occ_at T i = Some (h, kv) -> D (length T) i h < dist) ->
       T' !! i = Some (Some (filter (fst kvf), Some kvf))).
Proof.
  induction fuel as [|fuel IH]; intros T sz al z i dist kvf HT Hc Hrh Hz Ez E0 Hi Hdist Hprev Hfuel Hsz; [lia|].
  assert (inr (length T) (to_i (length T) (filter (fst kvf)))) as Hk.
  { apply to_i_inr; [done|]. pose proof (filter_range (fst kvf)). lia. }
  assert (2 <= i < length T) as Hi' by exact Hi.
  cbn [insert_loop b_slots]. change (b_cap (Buf T sz al)) with (length T).
  destruct (occ_at T i) as [[h kv]|] eqn:Ho.
  - destruct (get_hash_occ _ _ _ _ HT Ho) as [-> Hne]. cbn [mbind outcome_bind obind].
    destruct (N.eqb_spec h 0); [done|].
    destruct (occ_at_Some _ _ _ _ HT Ho) as [Ei Hh].
    pose proof (D_small T z i h kv HT Hc Hrh Hz Ez Hi Ho) as Hsm.
    assert (z <> i) as Hzi by (intros ->; congruence).
    pose proof (distance_from_inc _ _ _ Hi Hz Hzi) as Hdz.
    pose proof (increment_inr _ _ Hc Hi) as Hni.
    pose proof (occ_range _ _ _ _ HT Hc Ho) as Hhr.
    destruct (Nat.ltb_spec (D (length T) i h) dist) as [Hlt|Hge].
    + rewrite (swap3_Ok T 1 0 i (Some (filter (fst kvf), Some kvf)) (Some (h, Some kv))) by (first [done|lia]).
      cbn [mbind outcome_bind obind]. unfold with_slots. cbn [b_sz b_alloc].
      rewrite decide_False by done.
      remember (<[i:=Some (filter (fst kvf), Some kvf)]> (<[0:=Some (h, Some kv)]> (<[1:=Some (filter (fst kvf), Some kvf)]> T))) as T1 eqn:HT1.
      assert (length T1 = length T) as Hlen by (subst T1; by rewrite !insert_length).
      assert (T1 !! 0 = Some (Some (h, Some kv))) as E10.
      { subst T1. rewrite list_lookup_insert_ne by lia. rewrite list_lookup_insert; [done|]. rewrite insert_length. lia. }
      assert (forall j, 2 <= j -> j <> i -> T1 !! j = T !! j) as E1j.
      { intros j Hj Hji. subst T1. rewrite !list_lookup_insert_ne by lia. done. }
      assert (T1 !! i = Some (Some (filter (fst kvf), Some kvf))) as E1i.
      { subst T1. rewrite list_lookup_insert; [done|]. rewrite !insert_length. lia. }
      assert (good T1) as Hg1.
      { subst T1. subst h. repeat apply good_insert; try done; apply kv_ok. }
      assert (rh T1) as Hrh1.
      { subst T1. rewrite list_insert_commute by lia. rewrite (list_insert_commute _ i) by lia.
        apply rh_low; [lia|by rewrite !insert_length|]. apply rh_low; [lia|by rewrite !insert_length|].
        eapply place_rh; try done; [by rewrite <- Hdist|].
        intros h2 kv2 Ho2. rewrite Ho in Ho2. simplify_eq. lia. }
      destruct (IH T1 sz al z (increment (length T) i) (D (length T) i h + 1) kv)
        as (T' & Hr & Hl' & Hg' & Hrh' & H0' & H1' & Hct & Hfr & _); rewrite ?Hlen; try done.
      * unfold occ_at. rewrite E1j; [exact Ez|unfold inr in *; lia|done].
      * rewrite <- Hh. done.
      * rewrite <- Hh. rewrite distance_inc; [done|done|done|lia].
      * right. exists i, (filter (fst kvf)), kvf. rewrite Hlen. split_and!; [done|done| |lia].
        unfold occ_at. rewrite E1i. apply occ_kv.
      * lia.
      * exists T'. split; [exact Hr|]. rewrite Hlen in *. split_and!; try done.
        -- rewrite Hct. subst T1. subst h.
           pose proof (contents_insert (<[0:=Some (filter (fst kv), Some kv)]> (<[1:=Some (filter (fst kvf), Some kvf)]> T)) i
             (Some (filter (fst kvf), Some kvf)) (Some (filter (fst kv), Some kv)) ltac:(lia)) as Hci.
           rewrite (contents_insert_low _ 0), (contents_insert_low _ 1) in Hci by lia.
           unfold ckv in Hci. rewrite !occ_kv in Hci. cbn in Hci. apply Hci.
           rewrite !list_lookup_insert_ne by lia. done.
        -- intros j Hj Hdj. destruct (decide (j = i)) as [->|Hji].
           ++ rewrite distance_same in Hdj. lia.
           ++ rewrite Hfr; [apply E1j; [unfold inr in *; lia|done]|done|].
              pose proof (distance_from_inc _ _ _ Hi Hj Hji). lia.
        -- intros _. rewrite Hfr; [done|done|]. 
           assert (distance (length T) z (increment (length T) i) < length T - 3).
           { pose proof (distance_lt _ _ _ Hz Hi). lia. }
           assert (distance (length T) i (increment (length T) i) = length T - 3); [|lia].
           clear -Hi Hc. dlia.
    + destruct (IH T sz al z (increment (length T) i) (dist + 1) kvf)
        as (T' & Hr & Hl' & Hg' & Hrh' & H0' & H1' & Hct & Hfr & _); try done.
      * rewrite distance_inc; [lia|done|done|lia].
      * right. exists i, h, kv. split_and!; [done|done|done|lia].
      * lia.
      * exists T'. split; [exact Hr|]. split_and!; try done.
        -- intros j Hj Hdj. apply Hfr; [done|]. destruct (decide (j = i)) as [->|Hji].
           ++ rewrite distance_same in Hdj. lia.
           ++ pose proof (distance_from_inc _ _ _ Hi Hj Hji). lia.
        -- intros Hf. specialize (Hf _ _ eq_refl). lia.
  - rewrite (get_hash_empty _ _ HT) by (first [done|lia]).
    cbn [mbind outcome_bind obind]. rewrite N.eqb_refl.
    rewrite (sget_Ok _ _ _ E0). cbn [mbind outcome_bind obind].
    rewrite sset_Ok by lia. cbn [mbind outcome_bind obind].
    destruct (set_hash_0 (<[i:=Some (filter (fst kvf), Some kvf)]> T) 0) as [kv0 Hs0]; [rewrite insert_length; lia|].
    rewrite Hs0. cbn [mbind outcome_bind obind].
    destruct (set_hash_0 (<[0:=Some (0%N, kv0)]> (<[i:=Some (filter (fst kvf), Some kvf)]> T)) 1) as [kv1 Hs1];
      [rewrite !insert_length; lia|].
    rewrite Hs1. cbn [mbind outcome_bind obind].
    remember (<[1:=Some (0%N, kv1)]> (<[0:=Some (0%N, kv0)]> (<[i:=Some (filter (fst kvf), Some kvf)]> T))) as T1 eqn:HT1.
    assert (length T1 = length T) as Hlen by (subst T1; by rewrite !insert_length).
    exists T1. split.
    { unfold size_inc, with_slots, with_size, b_cap. cbn [b_slots b_sz b_alloc]. rewrite Hlen.
      destruct (Nat.ltb_spec (length T) (sz + 1)); [lia|done]. }
    split_and!; [done| | | | | | |].
    + subst T1. repeat apply good_insert; try done; (apply zero_ok || apply kv_ok).
    + subst T1. apply rh_low; [lia|by rewrite !insert_length|]. apply rh_low; [lia|by rewrite !insert_length|].
      eapply place_rh; try done; [by rewrite <- Hdist|]. congruence.
    + exists kv0. subst T1. rewrite list_lookup_insert_ne by lia. rewrite list_lookup_insert; [done|]. rewrite !insert_length; lia.
    + exists kv1. subst T1. rewrite list_lookup_insert; [done|]. rewrite !insert_length; lia.
    + subst T1. rewrite !contents_insert_low by lia.
      destruct (occ_at_None _ i HT ltac:(lia) Ho) as [kvi Ei].
      pose proof (contents_insert T i (Some (filter (fst kvf), Some kvf)) _ ltac:(lia) Ei) as Hci.
      unfold ckv in Hci. rewrite occ_kv in Hci. cbn in Hci. destruct kvi; exact Hci.
    + intros j Hj Hdj. subst T1. rewrite !list_lookup_insert_ne; [done| | |]; unfold inr in *; try lia.
      intros ->. rewrite distance_same in Hdj. lia.
    + intros _. subst T1. rewrite !list_lookup_insert_ne by lia. rewrite list_lookup_insert; [done|lia].
Qed.

(** The backward shift loop: slot [i] is a hole. *)
Lemma erase_loop_Ok : forall fuel (T : slots cell) sz al z i,
  good T -> 3 <= length T -> inr (length T) i -> inr (length T) z -> z <> i ->
  occ_at T z = None -> occ_at T i = None ->
  (forall p, inr (length T) p -> p <> i -> rh_at T p) ->
  (forall h kv, occ_at T (increment (length T) i) = Some (h, kv) ->
     D (length T) (increment (length T) i) h <= 1 \/
     exists p h' kv', inr (length T) p /\ increment (length T) p = i /\ occ_at T p = Some (h', kv') /\
       D (length T) (increment (length T) i) h <= D (length T) p h' + 2) ->
  distance (length T) z (increment (length T) i) < fuel ->
  exists T', erase_loop wide fuel (Buf T sz al) i (increment (length T) i) = Ok (Buf T' (sz - 1) al) /\
    length T' = length T /\ good T' /\ rh T' /\
    (exists kv, T' !! 0 = Some (Some (0%N, kv))) /\ T' !! 1 = T !! 1 /\
    contents T' ≡ₚ contents T.
Proof.
  induction fuel as [|fuel IH]; intros T sz al z i HT Hc Hi Hz Hzi Ez Ei Hrh Hrel Hfuel; [lia|].
  assert (2 <= i < length T) as Hi' by exact Hi.
  cbn [erase_loop b_slots]. change (b_cap (Buf T sz al)) with (length T).
  pose proof (increment_inr _ _ Hc Hi) as Hn.
  assert (2 <= increment (length T) i < length T) as Hn' by exact Hn.
  assert (forall T', T' = T -> rh T -> 
    exists T1, (T2 ← set_hash T' 0 0%N; Ok (size_dec (with_slots (Buf T sz al) T2))) = Ok (Buf T1 (sz - 1) al) /\
    length T1 = length T /\ good T1 /\ rh T1 /\
    (exists kv, T1 !! 0 = Some (Some (0%N, kv))) /\ T1 !! 1 = T !! 1 /\ contents T1 ≡ₚ contents T) as Hstop.
  { intros T' -> Hrh'. destruct (set_hash_0 T 0) as [kv0 Hs]; [lia|]. rewrite Hs.
    cbn [mbind outcome_bind obind]. exists (<[0:=Some (0%N, kv0)]> T). split; [done|].
    split_and!.
    - by rewrite insert_length.
    - apply good_insert; [done|apply zero_ok].
    - apply rh_low; [lia|done|done].
    - exists kv0. rewrite list_lookup_insert; [done|lia].
    - by rewrite list_lookup_insert_ne.
    - rewrite contents_insert_low by lia; done. }
  destruct (occ_at T (increment (length T) i)) as [[h kv]|] eqn:Ho.
  - destruct (get_hash_occ _ _ _ _ HT Ho) as [-> Hne]. cbn [mbind outcome_bind obind].
    destruct (N.eqb_spec h 0); [done|]. cbn [orb].
    pose proof (occ_range _ _ _ _ HT Hc Ho) as Hhr.
    destruct (occ_at_Some _ _ _ _ HT Ho) as [En Hh].
    destruct (Nat.eqb_spec (D (length T) (increment (length T) i) h) 0) as [Hz0|Hpos].
    + apply Hstop; [done|]. intros p Hp. destruct (decide (p = i)) as [->|]; [|by apply Hrh].
      intros h2 kv2 Ho2. rewrite Ho in Ho2. simplify_eq. lia.
    + assert (increment (length T) i <> i) as Hni by (intros Heq; rewrite Heq in Ho; congruence).
      assert (z <> increment (length T) i) as Hzn by (intros ->; congruence).
      destruct (occ_at_None _ i HT ltac:(lia) Ei) as [kvi Eii].
      rewrite (swap3_Ok T 0 (increment (length T) i) i (Some (h, Some kv)) (Some (0%N, kvi))) by (first [done|lia]).
      cbn [mbind outcome_bind obind]. unfold with_slots. cbn [b_sz b_alloc].
      rewrite decide_False by lia.
      remember (<[i:=Some (h, Some kv)]> (<[increment (length T) i:=Some (0%N, kvi)]> (<[0:=Some (h, Some kv)]> T))) as T1 eqn:HT1.
      assert (length T1 = length T) as Hlen by (subst T1; by rewrite !insert_length).
      assert (occ_at T1 i = Some (h, kv)) as O1i.
      { subst T1. rewrite occ_at_insert by (rewrite !insert_length; lia). subst h. apply occ_kv. }
      assert (occ_at T1 (increment (length T) i) = None) as O1n.
      { subst T1. rewrite occ_at_insert_ne by done. rewrite occ_at_insert by (rewrite !insert_length; lia). by destruct kvi. }
      assert (forall j, 2 <= j -> j <> i -> j <> increment (length T) i -> occ_at T1 j = occ_at T j) as O1j.
      { intros j Hj Hji Hjn. subst T1. rewrite !occ_at_insert_ne by lia. done. }
      assert (good T1) as Hg1.
      { subst T1 h. repeat apply good_insert; try done; (apply zero_ok || apply kv_ok). }
      pose proof (distance_inc_pos _ i _ Hi Hhr ltac:(lia)) as Hdi.
      pose proof (increment_inr _ _ Hc Hn) as Hnn.
      assert (increment (length T) (increment (length T) i) <> i) as Hnni.
      { intros Heq. clear -Heq Hzi Hzn Hz Hi Hc Hni. dlia. }
      assert (increment (length T) (increment (length T) i) <> increment (length T) i) as Hnnn.
      { intros Heq. apply Hni. eapply increment_inj; [exact Hn|exact Hi|exact Heq]. }
      destruct (IH T1 sz al z (increment (length T) i)) as (T' & Hr & Hl' & Hg' & Hrh' & H0' & H1' & Hct);
        rewrite ?Hlen; try done.
      * rewrite O1j; [done|unfold inr in Hz; lia|done|done].
      * intros p Hp Hpn. intros h2 kv2. rewrite Hlen. intros Ho2 Hpos2.
        destruct (decide (increment (length T) p = increment (length T) i)) as [Heq|Hpi].
        { rewrite Heq in Ho2. congruence. }
        assert (p <> i) as Hpi' by (intros ->; done).
        destruct (decide (increment (length T) p = i)) as [Heq|Hpi2].
        -- rewrite Heq in *. rewrite O1i in Ho2. simplify_eq.
           destruct (Hrel _ _ eq_refl) as [Hle|(p' & h' & kv' & Hp' & Hinc & Ho' & Hle)]; [lia|].
           assert (p' = p) as -> by (eapply increment_inj; [done|done|congruence]).
           exists h', kv'. rewrite O1j by (unfold inr in *; first [done|lia]). split; [done|lia].
        -- rewrite O1j in Ho2; [|pose proof (increment_inr _ _ Hc Hp); unfold inr in *; lia|done|done].
           destruct (Hrh p Hp Hpi' h2 kv2 Ho2 Hpos2) as (h' & kv' & Ho' & Hle).
           exists h', kv'. rewrite O1j by (unfold inr in *; first [done|lia]). done.
      * intros h2 kv2 Ho2. rewrite O1j in Ho2; [|unfold inr in *; lia|done|done].
        destruct (decide (D (length T) (increment (length T) (increment (length T) i)) h2 <= 1)); [by left|right].
        destruct (Hrh _ Hn Hni h2 kv2 Ho2 ltac:(lia)) as (h' & kv' & Ho' & Hle).
        rewrite Ho in Ho'. simplify_eq. exists i, (filter (fst kv')), kv'. split_and!; try done. lia.
      * pose proof (distance_from_inc _ _ _ Hn Hz ltac:(done)). lia.
      * exists T'. rewrite Hlen in Hr. split; [exact Hr|]. rewrite Hl', Hlen. split_and!; try done.
        -- rewrite H1'. subst T1. rewrite !list_lookup_insert_ne by lia. done.
        -- rewrite Hct. subst T1. subst h.
           pose proof (contents_insert (<[increment (length T) i:=Some (0%N, kvi)]> (<[0:=Some (filter (fst kv), Some kv)]> T)) i
             (Some (filter (fst kv), Some kv)) (Some (0%N, kvi)) ltac:(lia)) as Hci.
           pose proof (contents_insert (<[0:=Some (filter (fst kv), Some kv)]> T) (increment (length T) i)
             (Some (0%N, kvi)) (Some (filter (fst kv), Some kv)) ltac:(lia)) as Hcn.
           rewrite (contents_insert_low _ 0) in Hcn by lia.
           assert (ckv (Some (0%N, kvi)) = []) as Ez0 by (unfold ckv; by destruct kvi).
           assert (ckv (Some (filter (fst kv), Some kv)) = [kv]) as Ekv by (unfold ckv; by rewrite occ_kv).
           rewrite Ez0, Ekv in Hci, Hcn. cbn [app] in Hci, Hcn. rewrite Hci.
           ++ apply Hcn. rewrite list_lookup_insert_ne by lia. done.
           ++ rewrite !list_lookup_insert_ne by lia. done.
  - rewrite (get_hash_empty _ _ HT) by (first [done|lia]).
    cbn [mbind outcome_bind obind]. rewrite N.eqb_refl. cbn [orb].
    apply Hstop; [done|]. intros p Hp. destruct (decide (p = i)) as [->|]; [|by apply Hrh].
    intros h2 kv2 Ho2. congruence.
Qed.

Context (Hkey : key_ok hash_fn eqb).

Lemma eqb_refl' a : eqb a a = true. Proof. by destruct Hkey. Qed.
Lemma eqb_sym' a b : eqb a b = eqb b a.
Proof.
  destruct Hkey as (_ & Hs & _). destruct (eqb a b) eqn:E1, (eqb b a) eqn:E2; try done.
  - apply Hs in E1. congruence.
  - apply Hs in E2. congruence.
Qed.
Lemma eqb_trans_l a b c : eqb a b = true -> eqb a c = eqb b c.
Proof.
  intros Hab. destruct Hkey as (_ & Hs & Ht & _).
  destruct (eqb a c) eqn:E1, (eqb b c) eqn:E2; try done.
  - rewrite (Ht b a c) in E2; [done|by apply Hs|done].
  - rewrite (Ht a b c) in E1; done.
Qed.
Lemma eqb_filter a b : eqb a b = true -> filter a = filter b.
Proof. intros Hab. destruct Hkey as (_ & _ & _ & Hh). unfold FhmModel.filter. by rewrite (Hh _ _ Hab). Qed.

(** Lists with distinct keys. *)
Notation uniq := (uniq eqb).
Notation assoc := (assoc eqb).
Notation put := (put eqb).
Notation del := (del eqb).

Lemma uniq_cons (x : K * V) l : uniq (x :: l) <-> (forall y, y ∈ l -> eqb (fst x) (fst y) = false) /\ uniq l.
Proof.
  split.
  - intros Hu. split.
    + intros y [i Hy]%elem_of_list_lookup. destruct (eqb (fst x) (fst y)) eqn:E; [|done].
      pose proof (Hu 0 (S i) x y eq_refl Hy E). done.
    + intros i j a b Ha Hb E. pose proof (Hu (S i) (S j) a b Ha Hb E). lia.
  - intros [Hx Hu] [|i] [|j] a b Ha Hb E; simpl in *; simplify_eq; [done| | |].
    + rewrite Hx in E; [done|by eapply elem_of_list_lookup_2].
    + rewrite eqb_sym', Hx in E; [done|by eapply elem_of_list_lookup_2].
    + f_equal. by eapply Hu.
Qed.

Lemma uniq_perm (l l' : list (K * V)) : l ≡ₚ l' -> uniq l -> uniq l'.
Proof.
  induction 1 as [|x l l' Hp IH|x y l|l1 l2 l3 _ IH1 _ IH2]; try done.
  - rewrite !uniq_cons. intros [Hx Hu]. split; [|by auto]. intros y. rewrite <- Hp. auto.
  - rewrite !uniq_cons. intros [Hy [Hx Hu]]. split_and!; [|intros z Hz|done].
    + intros z [->|Hz]%elem_of_cons; [|by apply Hx]. rewrite eqb_sym'. apply Hy. by left.
    + apply Hy. by right.
  - auto.
Qed.

Lemma assoc_None k (l : list (K * V)) : assoc k l = None <-> forall x, x ∈ l -> eqb k (fst x) = false.
Proof.
  induction l as [|a l IH]; simpl.
  - split; [|done]. intros _ x Hx. by apply elem_of_nil in Hx.
  - destruct (eqb k (fst a)) eqn:E.
    + split; [done|]. intros Hx. rewrite (Hx a) in E; [done|by left].
    + rewrite IH. split.
      * intros Hx x [->|Hin]%elem_of_cons; auto.
      * intros Hx x Hin. apply Hx. by right.
Qed.

Lemma assoc_Some k (l : list (K * V)) x : assoc k l = Some x -> x ∈ l /\ eqb k (fst x) = true.
Proof.
  induction l as [|a l IH]; simpl; [done|]. destruct (eqb k (fst a)) eqn:E.
  - intros [= ->]. split; [by left|done].
  - intros Hx. destruct (IH Hx). split; [by right|done].
Qed.

Lemma assoc_uniq k (l : list (K * V)) x : uniq l -> x ∈ l -> eqb k (fst x) = true -> assoc k l = Some x.
Proof.
  intros Hu Hx Hk. destruct (assoc k l) as [y|] eqn:E.
  - apply assoc_Some in E as [Hy Ey]. f_equal.
    apply elem_of_list_lookup in Hx as [i Hi]. apply elem_of_list_lookup in Hy as [j Hj].
    assert (i = j) as ->; [|congruence]. eapply Hu; [done|done|].
    rewrite eqb_sym' in Hk. by rewrite (eqb_trans_l _ _ _ Hk).
  - rewrite assoc_None in E. rewrite (E x Hx) in Hk. done.
Qed.

Lemma assoc_perm k (l l' : list (K * V)) : uniq l -> l ≡ₚ l' -> assoc k l = assoc k l'.
Proof.
  intros Hu Hp. destruct (assoc k l) as [x|] eqn:E; symmetry.
  - apply assoc_Some in E as [Hx Ex]. apply assoc_uniq; [by eapply uniq_perm|by rewrite <- Hp|done].
  - rewrite assoc_None in *. intros x. rewrite <- Hp. auto.
Qed.

Lemma del_perm k (l : list (K * V)) x : assoc k l = Some x -> l ≡ₚ x :: del k l.
Proof.
  induction l as [|a l IH]; simpl; [done|]. destruct (eqb k (fst a)).
  - by intros [= ->].
  - intros Hx. rewrite (IH Hx) at 1. solve_Permutation.
Qed.

Lemma put_perm kv (l : list (K * V)) x : assoc (fst kv) l = Some x -> put kv l ≡ₚ kv :: del (fst kv) l.
Proof.
  induction l as [|a l IH]; simpl; [done|]. destruct (eqb (fst kv) (fst a)).
  - done.
  - intros Hx. rewrite (IH Hx). solve_Permutation.
Qed.

(** A table holding the pairs [l]. *)
Definition tbl (T : slots cell) (l : list (K * V)) : Prop :=
  3 <= length T /\ good T /\ rh T /\
  (exists kv, T !! 0 = Some (Some (0%N, kv))) /\ (exists kv, T !! 1 = Some (Some (0%N, kv))) /\
  contents T ≡ₚ l /\ uniq l.

Lemma omap_full {A B} (f : A -> option B) l : (forall x, x ∈ l -> is_Some (f x)) -> length (omap f l) = length l.
Proof.
  induction l as [|a l IH]; intros Hf; simpl; [done|].
  destruct (Hf a) as [b ->]; [by left|]. simpl. f_equal. apply IH. intros. apply Hf. by right.
Qed.

Lemma empty_slot T l : tbl T l -> 2 + length l < length T ->
  exists z, inr (length T) z /\ occ_at T z = None.
Proof.
  intros (Hc & HT & _ & _ & _ & Hct & _) Hr.
  destruct (decide (Exists (fun z => occ_at T z = None) (seq 2 (length T - 2)))) as [He|He].
  - apply Exists_exists in He as (z & Hz & Ez). apply elem_of_seq in Hz. exists z. split; [unfold inr; lia|done].
  - exfalso. assert (length (contents T) = length T - 2); [|rewrite Hct in *; lia].
    unfold contents. rewrite omap_full, drop_length; [done|].
    intros c [i Hi]%elem_of_list_lookup. rewrite lookup_drop in Hi.
    destruct (occ c) as [hk|] eqn:Eo; [simpl; by eauto|]. exfalso. apply He. apply Exists_exists.
    exists (2 + i). split.
    + apply lookup_lt_Some in Hi. apply elem_of_seq. lia.
    + unfold occ_at. rewrite Hi. done.
Qed.

Definition vacant_at (T : slots cell) (i : nat) (k : K) : Prop :=
  prev_ok T i (D (length T) i (filter k)) /\
  (forall h kv, occ_at T i = Some (h, kv) -> D (length T) i h < D (length T) i (filter k)).

Lemma find_Ok T sz al l key : tbl T l -> 2 + length l < length T -> sz < length T ->
  exists i st, find wide eqb (Buf T sz al) key (filter key) = Ok (Ent (Some i) st) /\ inr (length T) i /\
  ((st = ST_OCCUPIED /\ exists kv, occ_at T i = Some (filter (fst kv), kv) /\ assoc key l = Some kv) \/
   (st = ST_NO_UNWRAP /\ assoc key l = None /\ vacant_at T i key)).
Proof.
  intros Htbl Hroom Hsz. destruct (empty_slot T l Htbl Hroom) as (z & Hz & Ez).
  destruct Htbl as (Hc & HT & Hrh & _ & _ & Hct & Hu).
  assert (inr (length T) (to_i (length T) (filter key))) as Hk.
  { apply to_i_inr; [done|]. pose proof (filter_range key). lia. }
  unfold find. change (b_cap (Buf T sz al)) with (length T). cbn [b_sz b_slots].
  destruct (Nat.eqb_spec (length T) 0); [lia|]. destruct (Nat.leb_spec (length T) sz); [lia|].
  destruct (find_loop_Ok T z key HT Hc Hrh Hz Ez (length T) (to_i (length T) (filter key)) 0)
    as (i & st & Hf & Hi & Hres).
  - done.
  - by rewrite distance_same.
  - by left.
  - pose proof (distance_lt _ _ _ Hz Hk). lia.
  - intros. lia.
  - exists i, st. split; [exact Hf|]. split; [done|]. destruct Hres as [(-> & kv & Ho & He)|(-> & Hp & Hs & Hpass)].
    + left. split; [done|]. exists kv. split.
      * rewrite Ho. f_equal. f_equal. by apply eqb_filter.
      * apply assoc_uniq; [done| |done]. rewrite <- Hct. apply elem_of_contents.
        exists i, (filter key). split; [unfold inr in Hi; lia|done].
    + right. split; [done|]. split; [|split; done]. apply assoc_None. intros kv Hkv.
      rewrite <- Hct in Hkv. apply elem_of_contents in Hkv as (s & h & Hs2 & Ho).
      destruct (eqb key (fst kv)) eqn:E; [|done].
      destruct (occ_at_Some _ _ _ _ HT Ho) as [Es ->]. rewrite <- (eqb_filter _ _ E) in *.
      assert (inr (length T) s) as Hsr. { split; [done|]. by apply lookup_lt_Some in Es. }
      destruct (decide (D (length T) s (filter key) < D (length T) i (filter key))) as [Hlt|Hge].
      * by rewrite (Hpass s _ _ Hsr Hlt Ho eq_refl) in E.
      * destruct (chain T s _ kv HT Hc Hrh Hsr Ho (D (length T) s (filter key) - D (length T) i (filter key)) i Hi)
          as (h' & kv' & Ho' & Hle); [lia|]. specialize (Hs _ _ Ho'). lia.
Qed.

Lemma prev_ok_low T i c j d : j < 2 -> 3 <= length T -> prev_ok T i d -> prev_ok (<[j:=c]> T) i d.
Proof.
  intros Hj Hc [->|(p & h & kv & Hp & Hinc & Ho & Hle)]; [by left|]. right. exists p, h, kv.
  rewrite insert_length. rewrite occ_at_insert_ne by (unfold inr in Hp; lia). done.
Qed.

Lemma insert_Ok T sz al l kv i : tbl T l -> 2 + length l < length T -> sz < length T ->
  assoc (fst kv) l = None -> inr (length T) i -> vacant_at T i (fst kv) ->
  exists T', insert wide (Buf T sz al) kv (filter (fst kv)) (Some i) = Ok (Buf T' (sz + 1) al) /\
    length T' = length T /\ tbl T' (kv :: l) /\ T' !! i = Some (Some (filter (fst kv), Some kv)).
Proof.
  intros Htbl Hroom Hsz Hn Hi [Hprev Hslot]. destruct (empty_slot T l Htbl Hroom) as (z & Hz & Ez).
  destruct Htbl as (Hc & HT & Hrh & Hz0 & Hz1 & Hct & Hu).
  unfold insert. cbn [b_slots]. rewrite sset_Ok by lia. cbn [mbind outcome_bind obind].
  change (b_cap (Buf T sz al)) with (length T). unfold with_slots. cbn [b_sz b_alloc].
  destruct (insert_loop_Ok (length T) (<[0:=Some (filter (fst kv), Some kv)]> T) sz al z i
     (D (length T) i (filter (fst kv))) kv) as (T' & Hr & Hl & Hg & Hrh' & H0' & H1' & Hct' & _ & Hat);
     rewrite ?insert_length; try done.
  - apply good_insert; [done|apply kv_ok].
  - apply rh_low; [lia|done|done].
  - rewrite occ_at_insert_ne; [done|unfold inr in Hz; lia].
  - rewrite list_lookup_insert; [done|lia].
  - by apply prev_ok_low; [lia| |].
  - pose proof (distance_lt _ _ _ Hz Hi). lia.
  - exists T'. rewrite Hl, insert_length. split_and!; [exact Hr|done| |].
    + split_and!; try done; [by rewrite Hl, insert_length| |].
      * rewrite Hct'. rewrite contents_insert_low by lia. by rewrite Hct.
      * apply uniq_cons. split; [|done]. by apply assoc_None.
    + apply Hat. intros h2 kv2. rewrite insert_length. rewrite occ_at_insert_ne by (unfold inr in Hi; lia). apply Hslot.
Qed.

Lemma tbl_place T l kv old i : tbl T l -> inr (length T) i ->
  occ_at T i = Some (filter (fst old), old) -> eqb (fst kv) (fst old) = true ->
  forall l0, l ≡ₚ old :: l0 -> tbl (<[i:=Some (filter (fst kv), Some kv)]> T) (kv :: l0).
Proof.
  intros (Hc & HT & Hrh & Hz0 & Hz1 & Hct & Hu) Hi Ho He l0 Hp.
  destruct (occ_at_Some _ _ _ _ HT Ho) as [Ei _].
  assert (2 <= i < length T) as Hi' by exact Hi.
  assert (forall j, occ_at (<[i:=Some (filter (fst kv), Some kv)]> T) j =
    if decide (j = i) then Some (filter (fst old), kv) else occ_at T j) as Hoj.
  { intros j. destruct (decide (j = i)) as [->|].
    - rewrite occ_at_insert by lia. rewrite occ_kv. by rewrite (eqb_filter _ _ He).
    - by rewrite occ_at_insert_ne. }
  split_and!.
  - by rewrite insert_length.
  - apply good_insert; [done|apply kv_ok].
  - intros p. rewrite insert_length. intros Hpr h kv2. rewrite insert_length, !Hoj.
    intros Ho2 Hpos.
    assert (exists kv3, occ_at T (increment (length T) p) = Some (h, kv3)) as [kv3 Ho3].
    { destruct (decide (increment (length T) p = i)) as [->|]; [|by eauto]. simplify_eq. by eauto. }
    destruct (Hrh p Hpr h kv3 Ho3 Hpos) as (h' & kv' & Ho' & Hle).
    destruct (decide (p = i)) as [->|]; [|by eauto]. rewrite Ho in Ho'. simplify_eq. by eauto.
  - rewrite list_lookup_insert_ne by lia. done.
  - rewrite list_lookup_insert_ne by lia. done.
  - pose proof (contents_insert T i (Some (filter (fst kv), Some kv)) _ ltac:(lia) Ei) as Hci.
    unfold ckv in Hci. rewrite !occ_kv in Hci. cbn in Hci.
    rewrite Hct, Hp in Hci. 
    apply (Permutation_cons_inv (a := old)). rewrite Hci. solve_Permutation.
  - pose proof (uniq_perm _ _ Hp Hu) as Hu'. rewrite uniq_cons in Hu'. destruct Hu' as [Hx Hu'].
    apply uniq_cons. split; [|done]. intros y Hy. rewrite (eqb_trans_l _ _ _ He). by apply Hx.
Qed.

Lemma erase_Ok T sz al l i kv : tbl T l -> 2 + length l < length T -> inr (length T) i ->
  occ_at T i = Some (filter (fst kv), kv) ->
  exists T', erase wide (Buf T sz al) (Some i) = Ok (Buf T' (sz - 1) al) /\ length T' = length T /\
    forall l0, l ≡ₚ kv :: l0 -> tbl T' l0.
Proof.
  intros Htbl Hroom Hi Ho. destruct (empty_slot T l Htbl Hroom) as (z & Hz & Ez).
  destruct Htbl as (Hc & HT & Hrh & Hz0 & Hz1 & Hct & Hu).
  assert (2 <= i < length T) as Hi' by exact Hi.
  unfold erase. cbn [b_slots]. destruct (set_hash_0 T i) as [kv0 Hs]; [lia|]. rewrite Hs.
  cbn [mbind outcome_bind obind]. change (b_cap (Buf T sz al)) with (length T). unfold with_slots. cbn [b_sz b_alloc].
  assert (z <> i) as Hzi by (intros ->; congruence).
  pose proof (increment_inr _ _ Hc Hi) as Hn.
  remember (<[i:=Some (0%N, kv0)]> T) as T1 eqn:HT1.
  assert (length T1 = length T) as Hlen by (subst T1; by rewrite insert_length).
  assert (occ_at T1 i = None) as O1i. { subst T1. rewrite occ_at_insert by lia. by destruct kv0. }
  assert (forall j, j <> i -> occ_at T1 j = occ_at T j) as O1j.
  { intros j Hj. subst T1. by rewrite occ_at_insert_ne. }
  destruct (erase_loop_Ok (length T) T1 sz al z i) as (T' & Hr & Hl & Hg & Hrh' & H0' & H1' & Hct');
    rewrite ?Hlen; try done.
  - subst T1. apply good_insert; [done|apply zero_ok].
  - by rewrite O1j.
  - intros p Hp Hpi h2 kv2. rewrite Hlen. intros Ho2 Hpos.
    destruct (decide (increment (length T) p = i)) as [Heq|Hpi2]; [rewrite Heq in Ho2; congruence|].
    rewrite O1j in Ho2 by done. destruct (Hrh p Hp _ _ Ho2 Hpos) as (h' & kv' & Ho' & Hle).
    exists h', kv'. by rewrite O1j.
  - intros h2 kv2 Ho2. destruct (decide (increment (length T) i = i)) as [Heq|Hni].
    { rewrite Heq in Ho2. congruence. }
    rewrite O1j in Ho2 by done.
    destruct (decide (D (length T) (increment (length T) i) h2 <= 1)); [by left|right].
    destruct (Hrh i Hi _ _ Ho2 ltac:(lia)) as (h' & kv' & Ho' & Hle). rewrite Ho in Ho'. simplify_eq.
    pose proof (decrement_inr _ i Hc Hi) as Hd. pose proof (inc_dec _ i Hc Hi) as Hid.
    destruct (Hrh _ Hd (filter (fst kv')) kv') as (h3 & kv3 & Ho3 & Hle3); [by rewrite Hid|rewrite Hid; lia|].
    rewrite Hid in Hle3. exists (decrement (length T) i), h3, kv3. split_and!; [done|done| |lia].
    rewrite O1j; [done|]. intros Heq. rewrite Heq in Hid. done.
  - pose proof (distance_lt _ _ _ Hz Hn). lia.
  - exists T'. rewrite Hlen in Hr. rewrite Hl, Hlen. split; [exact Hr|]. split; [done|]. intros l0 Hp.
    split_and!; try done; [by rewrite Hl, Hlen| | |].
    + rewrite H1'. subst T1. rewrite list_lookup_insert_ne by lia. done.
    + rewrite Hct'. subst T1. destruct (occ_at_Some _ _ _ _ HT Ho) as [Ei _].
      pose proof (contents_insert T i (Some (0%N, kv0)) _ ltac:(lia) Ei) as Hci.
      assert (ckv (Some (0%N, kv0)) = []) as Ez0 by (unfold ckv; by destruct kv0).
      assert (ckv (Some (filter (fst kv), Some kv)) = [kv]) as Ekv by (unfold ckv; by rewrite occ_kv).
      rewrite Ez0, Ekv in Hci. cbn [app] in Hci. rewrite Hct, Hp in Hci. by apply Permutation_cons_inv in Hci.
    + pose proof (uniq_perm _ _ Hp Hu) as Hu'. by apply uniq_cons in Hu' as [_ ?].
Qed.

Lemma swaps_Ok T sz al l kv i st : tbl T l -> 3 + length l < length T -> sz < length T ->
  assoc (fst kv) l = None -> inr (length T) i -> vacant_at T i (fst kv) ->
  exists T', swaps wide (Buf T sz al) (Ent (Some i) st) kv (filter (fst kv)) = Ok (Buf T' (sz + 1) al) /\
    length T' = length T /\ tbl T' (kv :: l) /\ T' !! i = Some (Some (filter (fst kv), Some kv)).
Proof.
  intros Htbl Hroom Hsz Hn Hi [Hprev Hslot].
  pose proof Htbl as (Hc & HT & Hrh & Hz0 & Hz1 & Hct & Hu).
  assert (2 <= i < length T) as Hi' by exact Hi.
  unfold swaps. cbn [e_at the_slot b_slots mbind outcome_bind obind].
  change (b_cap (Buf T sz al)) with (length T).
  assert (rh (<[i:=Some (filter (fst kv), Some kv)]> T)) as Hrh1 by (eapply place_rh; try done).
  assert (good (<[i:=Some (filter (fst kv), Some kv)]> T)) as Hg1 by (apply good_insert; [done|apply kv_ok]).
  destruct (occ_at T i) as [[h cur]|] eqn:Ho.
  - destruct (get_hash_occ _ _ _ _ HT Ho) as [-> Hne]. cbn [mbind outcome_bind obind].
    destruct (N.eqb_spec h 0); [done|]. rewrite (get_kv_occ _ _ _ _ HT Ho). cbn [mbind outcome_bind obind].
    rewrite sset_Ok by lia. cbn [mbind outcome_bind obind]. unfold with_slots. cbn [b_sz b_alloc].
    destruct (occ_at_Some _ _ _ _ HT Ho) as [Ei ->]. specialize (Hslot _ _ eq_refl).
    assert (cur ∈ l) as Hcl.
    { rewrite <- Hct. apply elem_of_contents. exists i, (filter (fst cur)). split; [lia|done]. }
    apply elem_of_Permutation in Hcl as Hl0. destruct Hl0 as [l0 Hl0].
    pose proof (uniq_perm _ _ Hl0 Hu) as Hu'. apply uniq_cons in Hu' as [Hcur Hu0].
    assert (assoc (fst kv) l0 = None) as Hn0.
    { apply assoc_None. intros x Hx. rewrite assoc_None in Hn. apply Hn. rewrite Hl0. by right. }
    assert (eqb (fst kv) (fst cur) = false) as Hkc by (rewrite assoc_None in Hn; by apply Hn).
    assert (length l = S (length l0)) as Hll by (rewrite Hl0; done).
    assert (tbl (<[i:=Some (filter (fst kv), Some kv)]> T) (kv :: l0)) as Htbl1.
    { split_and!; try done.
      - by rewrite insert_length.
      - rewrite list_lookup_insert_ne by lia. done.
      - rewrite list_lookup_insert_ne by lia. done.
      - pose proof (contents_insert T i (Some (filter (fst kv), Some kv)) _ ltac:(lia) Ei) as Hci.
        unfold ckv in Hci. rewrite !occ_kv in Hci. cbn in Hci. rewrite Hct, Hl0 in Hci.
        apply (Permutation_cons_inv (a := cur)). rewrite Hci. solve_Permutation.
      - apply uniq_cons. split; [|done]. by apply assoc_None. }
    destruct (empty_slot T l Htbl ltac:(lia)) as (z & Hz & Ez).
    pose proof (D_small T z i _ cur HT Hc Hrh Hz Ez Hi Ho) as Hsm.
    pose proof (occ_range _ _ _ _ HT Hc Ho) as Hhr.
    (* the displaced element starts one slot further *)
    {
      remember (<[i:=Some (filter (fst kv), Some kv)]> T) as T1 eqn:HT1.
      assert (length T1 = length T) as Hlen by (subst T1; by rewrite insert_length).
      unfold insert. cbn [b_slots]. rewrite sset_Ok by lia. cbn [mbind outcome_bind obind].
      change (b_cap (Buf T1 sz al)) with (length T1). unfold with_slots. cbn [b_sz b_alloc].
      assert (z <> i) as Hzi by (intros ->; congruence).
      assert (occ_at T1 z = None) as Ez1. { subst T1. by rewrite occ_at_insert_ne. }
      pose proof (increment_inr _ _ Hc Hi) as Hn2.
      destruct (insert_loop_Ok (length T1) (<[0:=Some (filter (fst cur), Some cur)]> T1) sz al z (increment (length T1) i)
        (D (length T1) (increment (length T1) i) (filter (fst cur))) cur)
        as (T' & Hr & Hl & Hg & Hrh' & H0' & H1' & Hct' & Hfr & _); rewrite ?insert_length, ?Hlen; try done.
      * apply good_insert; [done|apply kv_ok].
      * apply rh_low; [lia|lia|done].
      * rewrite occ_at_insert_ne; [done|unfold inr in Hz; lia].
      * rewrite list_lookup_insert; [done|lia].
      * apply prev_ok_low; [lia|lia|]. right. exists i, (filter (fst kv)), kv. rewrite Hlen.
        split_and!; [done|done| |].
        -- subst T1. rewrite occ_at_insert by lia. apply occ_kv.
        -- rewrite distance_inc; [lia|done|done|lia].
      * pose proof (distance_lt _ _ _ Hz Hn2). lia.
      * rewrite Hlen in Hr. exists T'. rewrite Hl, insert_length, Hlen. split_and!; [exact Hr|done| |].
        -- destruct Htbl1 as (_ & _ & _ & _ & _ & Hct1 & Hu1).
           split_and!; try done; [by rewrite Hl, insert_length, Hlen| |].
           ++ rewrite Hct'. rewrite contents_insert_low by lia. rewrite Hct1, Hl0. solve_Permutation.
           ++ apply uniq_cons. split; [by apply assoc_None|done].
        -- rewrite Hfr.
           ++ rewrite list_lookup_insert_ne by lia. subst T1. rewrite list_lookup_insert; [done|lia].
           ++ by rewrite insert_length, Hlen.
           ++ rewrite insert_length, Hlen. pose proof (distance_from_inc _ _ _ Hi Hz Hzi) as Hdz.
              pose proof (distance_lt _ _ _ Hz Hi).
              assert (distance (length T) i (increment (length T) i) = length T - 3); [|lia].
              clear -Hi Hc. dlia. }
  - rewrite (get_hash_empty _ _ HT) by (first [done|lia]).
    cbn [mbind outcome_bind obind]. rewrite N.eqb_refl.
    rewrite sset_Ok by lia. cbn [mbind outcome_bind obind].
    exists (<[i:=Some (filter (fst kv), Some kv)]> T). split_and!.
    + unfold size_inc, with_slots, with_size, b_cap. cbn [b_slots b_sz b_alloc]. rewrite insert_length.
      destruct (Nat.ltb_spec (length T) (sz + 1)); [lia|done].
    + by rewrite insert_length.
    + split_and!; try done.
      * by rewrite insert_length.
      * rewrite list_lookup_insert_ne by lia. done.
      * rewrite list_lookup_insert_ne by lia. done.
      * destruct (occ_at_None _ i HT ltac:(lia) Ho) as [kvi Ei].
        pose proof (contents_insert T i (Some (filter (fst kv), Some kv)) _ ltac:(lia) Ei) as Hci.
        assert (ckv (Some (0%N, kvi)) = []) as Ez0 by (unfold ckv; by destruct kvi).
        rewrite Ez0 in Hci. unfold ckv in Hci. rewrite occ_kv in Hci. cbn in Hci. rewrite Hci. by rewrite Hct.
      * apply uniq_cons. split; [|done]. by apply assoc_None.
    + rewrite list_lookup_insert; [done|lia].
Qed.

End proofs.
