(** What the two array backed ordered maps have in common. *)
From Coq Require Import Sorted.
From stdpp Require Import base numbers option gmap fin_maps list.
From Verif Require Import Common LinkHeap PathLemmas OrderSpec Counting TreeModel TreeProofs WavlModel WavlProofs WavlRank
  WavlRemove WavlNode WavlFrame OmProofs MapSpec MapProofs FlatOps FlatSpec FlatModel.

Local Ltac bind := cbn [mbind outcome_bind obind].
Local Ltac lookc :=
  repeat first
    [ rewrite br_set_pa | rewrite pa_set_br | rewrite br_set_br_eq | rewrite pa_set_pa_eq
    | rewrite br_set_br_ne by (first [left; apply negb_ne | left; apply not_eq_sym, negb_ne | right; dj | right; apply not_eq_sym; dj])
    | rewrite pa_set_pa_ne by (first [dj | apply not_eq_sym; dj]) ].
Local Ltac carry :=
  repeat first [apply rep_set_pa; [dj|] | apply rep_set_br; [dj|] | apply zrep_set_pa; [dj|] | apply zrep_set_br; [dj|]].

(** ** Slots *)
Section slots.
Context {K V : Type}.
Implicit Types (s : flat K V).

Definition fnode_is (w : wavl) (i : nat) (n : fnode) : Prop := node_is w i (nl n) (nr n) (np n) (nb n).

Lemma alive_fnode w i : alive w i -> exists n, fnode_is w i n.
Proof. intros (l & r & p & b & H)%alive_node. by exists (Node l r p b). Qed.
Lemma fnode_put w i n : fnode_is (put_fnode w i n) i n.
Proof. apply node_put. Qed.
Lemma fnode_put_ne w i n j m : j <> i -> fnode_is w j m -> fnode_is (put_fnode w i n) j m.
Proof. apply node_put_ne. Qed.
Lemma put_fnode_same w i n : fnode_is w i n -> put_fnode w i n = w.
Proof. apply put_node_same. Qed.

Lemma read_Ok s i n : fnode_is (tr s) i n -> read s i = Ok (n, dat s !! i).
Proof.
  intros (Hl & Hr & Hp & Hb). unfold read.
  rewrite (child_Ok _ false _ _ Hl). bind. rewrite (child_Ok _ true _ _ Hr). bind.
  rewrite (up_Ok _ _ _ Hp). bind. rewrite (parity_Ok _ _ _ Hb). bind. by destruct n.
Qed.

(** The data of slot [i] becomes [o]. *)
Definition put_data (D : gmap nat (K * V)) (i : nat) (o : option (K * V)) : gmap nat (K * V) :=
  match o with Some kv => <[i := kv]> D | None => delete i D end.
Lemma put_data_eq D i o : put_data D i o !! i = o.
Proof. destruct o; [apply lookup_insert|apply lookup_delete]. Qed.
Lemma put_data_ne D i j o : i <> j -> put_data D i o !! j = D !! j.
Proof. intros. destruct o; [by apply lookup_insert_ne|by apply lookup_delete_ne]. Qed.

Lemma write_Ok s i c : alive (tr s) i ->
  write s i c = Ok (Flat (put_fnode (tr s) i (fst c)) (put_data (dat s) i (snd c)) (sz s) (cap s)).
Proof. intros [_ [b Hb]]. unfold write. by rewrite (parity_Ok _ _ _ Hb). Qed.

Lemma swap_Ok s i j ni nj :
  i < cap s -> j < cap s -> i <> j -> i <> 0 -> j <> 0 -> alive (tr s) 0 ->
  fnode_is (tr s) i ni -> fnode_is (tr s) j nj -> alive (tr s) i -> alive (tr s) j ->
  buf_swap s i j = Ok (Flat (put_fnode (put_fnode (put_fnode (tr s) 0 ni) i nj) j ni)
    (put_data (put_data (put_data (dat s) 0 (dat s !! i)) i (dat s !! j)) j (dat s !! i)) (sz s) (cap s)).
Proof.
  intros Hi Hj Hij Hi0 Hj0 H0 Hni Hnj Hai Haj. unfold buf_swap.
  rewrite (proj2 (Nat.leb_gt _ _) Hi), (proj2 (Nat.leb_gt _ _) Hj), (proj2 (Nat.eqb_neq j i)) by done. cbn [orb].
  rewrite (read_Ok s i ni) by done. bind. rewrite write_Ok by done. bind. cbn [fst snd].
  erewrite read_Ok; [|cbn [tr]; by apply fnode_put_ne]. bind. cbn [dat]. rewrite put_data_ne by done.
  rewrite write_Ok by (apply alive_put; by left). bind. cbn [fst snd tr dat sz cap].
  erewrite read_Ok; [|cbn [tr]; apply fnode_put_ne; [done|apply fnode_put]]. bind. cbn [dat].
  rewrite put_data_ne, put_data_eq by done.
  rewrite write_Ok by (apply alive_put; left; apply alive_put; by left). done.
Qed.

(** ** Moving an element *)

Lemma replace_root w Q a x b v :
  zin 0 (wl w) (wroot w) Q (T a x b) ->
  (if x =? wroot w then Ok (with_root w v) else p ← up w x; r ← child w true p; wchild w (r =? x) p v)
  = replace_child 0 w (zptr 0 Q) x v.
Proof.
  intros Hz. pose proof (zin_cnt _ _ _ _ _ Hz) as Hc. destruct Hz as (Hzr & (_ & _ & Hp & Hx & _) & _).
  unfold replace_child. destruct Q as [|[[d y] u] Q]; cbn [zptr] in *.
  - cbn [zrep ptr] in Hzr. rewrite Hzr, Nat.eqb_refl. done.
  - rewrite (up_Ok _ _ _ Hp). bind.
    assert (forall Q q, zrep 0 (wl w) (wroot w) Q q -> wroot w = q \/ wroot w ∈ znodes Q) as Hroot.
    { clear. induction Q as [|[[d y] u] Q IH]; intros q; cbn [zrep znodes]; [by left|].
      intros (_ & _ & _ & _ & _ & Hz). right. destruct (IH y Hz) as [-> |Hin]; [left|].
      right. apply elem_of_app. by right. }
    destruct Hzr as (_ & _ & _ & Hy & _ & Hzr). apply Hroot in Hzr.
    rewrite (proj2 (Nat.eqb_neq y 0)) by done.
    assert (x <> wroot w) as Hne.
    { cbn [znodes nodes] in Hc. intros Heq. rewrite <- Heq in Hzr. specialize (Hc x). cnt_norm.
      destruct Hzr as [<- |Hin]; [rewrite eqn_refl in Hc; lia|]. apply cnt_in in Hin. lia. }
    by rewrite (proj2 (Nat.eqb_neq x (wroot w))).
Qed.

(** The element in the slot after the last one in use, [sz s], moves to slot [v]. *)
Lemma relocate_Ok s v Q a b :
  zin 0 (wl (tr s)) (wroot (tr s)) Q (T a (sz s) b) -> (forall i, i < cap s -> alive (tr s) i) ->
  v <> 0 -> v < cap s -> sz s < cap s -> v ∉ znodes Q -> v ∉ nodes (T a (sz s) b) ->
  exists s', relocate s v = Ok s' /\ sz s' = sz s /\ cap s' = cap s /\
    zin 0 (wl (tr s')) (wroot (tr s')) Q (T a v b) /\ (forall i, alive (tr s) i -> alive (tr s') i) /\
    wp (tr s') !! v = wp (tr s) !! sz s /\ dat s' !! v = dat s !! sz s /\ dat s' !! sz s = dat s !! v /\
    forall z, z ∉ [0; v; sz s] -> wp (tr s') !! z = wp (tr s) !! z /\ dat s' !! z = dat s !! z.
Proof.
  intros Hz Hal Hv0 Hvc Hxc HvQ HvT. set (x := sz s) in *.
  pose proof (replace_root _ _ _ _ _ v Hz) as Hrep.
  pose proof (zin_cnt _ _ _ _ _ Hz) as Hc. cbn [nodes] in Hc, HvT. rewrite cnt_in in HvQ. rewrite cnt_in in HvT.
  assert (forall w, eqn w 0 + eqn w v + cnt w (znodes Q) + (eqn w x + cnt w (nodes a) + cnt w (nodes b)) <= 1) as Hcc.
  { intros w. specialize (Hc w). cnt_norm. destruct (decide (w = v)) as [-> |Hne].
    - rewrite eqn_refl, (eqn_ne v 0) by done. lia.
    - rewrite (eqn_ne w v) by done. lia. }
  clear Hc HvQ HvT.
  destruct Hz as (Hzr & (Hxl & Hxr & Hxp & Hx0 & Ha & Hb) & _ & Hl0). cbn [ptr] in Hzr.
  assert (forall t p, rep 0 (wl (tr s)) p t -> live (wl (tr s)) (ptr 0 t)) as Hlp.
  { intros t p Ht. destruct (ptr_cases 0 t) as [-> |Hi]; [done|]. by eapply rep_live. }
  apply Hlp in Ha as Hla. apply Hlp in Hb as Hlb. clear Hlp.
  unfold relocate. fold x. rewrite (proj2 (Nat.eqb_neq v 0)), (proj2 (Nat.eqb_neq x 0)) by done. cbn [negb oassert]. bind.
  rewrite Hrep. clear Hrep.
  destruct (replace_child_Ok 0 (tr s) Q x v) as (h1 & r & -> & Hz1 & [Hf1 Hl1]); [done|dj|done|dj|]. bind.
  assert (br h1 true !! x = Some (ptr 0 b)) as Hxr1 by (rewrite (frame_br _ _ _ _ _ Hf1) by dj; done).
  assert (br h1 false !! x = Some (ptr 0 a)) as Hxl1 by (rewrite (frame_br _ _ _ _ _ Hf1) by dj; done).
  assert (pa h1 !! x = Some (zptr 0 Q)) as Hxp1 by (rewrite (frame_pa _ _ _ _ Hf1) by dj; done).
  pose proof (cnt_ptr 0 a) as Hca. pose proof (cnt_ptr 0 b) as Hcb.
  set (pl := ptr 0 a) in *. set (pr := ptr 0 b) in *.
  rewrite (child_Ok _ true x pr) by done. bind. rewrite wup_Ok by (by apply Hl1). bind. cbn [wl with_links].
  rewrite (child_Ok _ false x pl) by (cbn [wl with_links]; by lookc). bind.
  rewrite wup_Ok by (cbn [wl with_links]; by apply live_set_pa, Hl1). bind. cbn [wl with_links].
  set (h3 := set_pa (set_pa h1 pr v) pl v). unfold with_links. cbn [wl wp wroot].
  set (w3 := Wavl h3 (wp (tr s)) r).
  assert (forall i, alive (tr s) i -> alive w3 i) as Hal3.
  { intros i [Hl Hp]. split; [|done]. cbn. by apply live_set_pa, live_set_pa, Hl1. }
  destruct (Hal x Hxc) as [_ [bx Hbx]].
  assert (fnode_is w3 x (Node pl pr (zptr 0 Q) bx)) as Hnx.
  { assert (br h3 false !! x = Some pl) as E1 by (unfold h3; by lookc).
    assert (br h3 true !! x = Some pr) as E2 by (unfold h3; by lookc).
    assert (pa h3 !! x = Some (zptr 0 Q)) as E3 by (unfold h3; by lookc). by split_and!. }
  destruct (alive_fnode w3 v) as [nv Hnv]; [auto|].
  assert (v <> x) as Hvx by dj.
  assert (alive (tr s) 0) as H0 by (apply Hal; lia).
  rewrite (swap_Ok _ v x nv (Node pl pr (zptr 0 Q) bx)); cbn [tr cap set_tr]; auto.
  cbn [dat sz set_tr]. eexists. split; [done|]. cbn [tr dat sz cap].
  set (w4 := put_fnode (put_fnode (put_fnode w3 0 nv) v (Node pl pr (zptr 0 Q) bx)) x nv).
  assert (outside [0; v; x] w3 w4) as Hout.
  { assert (forall w0 w i n, i ∈ [0; v; x] -> outside [0; v; x] w0 w -> outside [0; v; x] w0 (put_fnode w i n)) as Hput.
    { intros w0 w i n Hi (Hf & Hp & Hr). destruct (outside_put w i (nl n) (nr n) (np n) (nb n)) as (Hf' & Hp' & Hr').
      split_and!.
      - apply (frame_trans _ _ (wl w)); [done|]. apply (frame_mono [i]); [done|]. by intros z ->%elem_of_list_singleton.
      - intros z Hz. rewrite <- (Hp z Hz). apply Hp'. by intros ->%elem_of_list_singleton.
      - by rewrite <- Hr. }
    unfold w4. repeat (apply Hput; [set_solver|]). split_and!; [apply frame_refl|apply same_parity_refl|done]. }
  pose proof Hout as (Hf4 & Hp4 & Hr4).
  assert (fnode_is w4 v (Node pl pr (zptr 0 Q) bx)) as (Hvl & Hvr & Hvp & Hvb).
  { apply fnode_put_ne; [done|]. apply fnode_put. }
  cbn [nl nr np nb] in Hvl, Hvr, Hvp, Hvb.
  assert (forall p t, rep 0 (wl (tr s)) p t -> (forall w, cnt w (nodes t) <= cnt w (nodes a) + cnt w (nodes b)) -> rep 0 h1 p t) as Hrr.
  { intros p u Hu Hsub. apply (rep_frame _ (znodes Q) (wl (tr s))); [done| |done].
    intros z Hzu. specialize (Hsub z). dj. }
  split_and!; try done.
  - apply zin_intro.
    + cbn [ptr]. rewrite Hr4. cbn [wroot w3]. apply (zrep_frame _ [0; v; x] h3); [done| |].
      * intros z Hzq. dj.
      * unfold h3. carry. done.
    + cbn [rep]. split_and!; try done.
      * apply (rep_frame _ [0; v; x] h3); [done|intros z Hzu; dj|].
        unfold h3. apply (rep_reparent _ _ x); [dj|]. carry. apply Hrr; [done|]. intros w; lia.
      * apply (rep_frame _ [0; v; x] h3); [done|intros z Hzu; dj|].
        unfold h3. apply rep_set_pa; [dj|]. apply (rep_reparent _ _ x); [dj|]. apply Hrr; [done|]. intros w; lia.
    + intros w. cbn [nodes]. specialize (Hcc w). cnt_norm. lia.
    + destruct (alive_put (put_fnode (put_fnode w3 0 nv) v (Node pl pr (zptr 0 Q) bx)) x (nl nv) (nr nv) (np nv) (nb nv) 0)
        as [Hl _]; [|done]. left. apply alive_put. left. apply alive_put. by right.
  - intros i Hi. apply alive_put. left. apply alive_put. left. apply alive_put. left. auto.
  - by rewrite Hbx.
  - rewrite put_data_ne, put_data_eq by done. done.
  - apply put_data_eq.
  - intros z Hzn. split; [by rewrite (Hp4 z Hzn)|].
    rewrite !put_data_ne; [done|set_solver..].
Qed.
End slots.

(** ** Memory *)
Lemma outside_refl X w : outside X w w.
Proof. split_and!; [apply frame_refl|apply same_parity_refl|done]. Qed.
Lemma outside_step X w w1 i n : i ∈ X -> outside X w w1 -> outside X w (put_fnode w1 i n).
Proof.
  intros Hi (Hf & Hp & Hr). destruct (outside_put w1 i (nl n) (nr n) (np n) (nb n)) as (Hf' & Hp' & Hr').
  split_and!.
  - apply (frame_trans _ _ (wl w1)); [done|]. apply (frame_mono [i]); [done|]. by intros z ->%elem_of_list_singleton.
  - intros z Hz. rewrite <- (Hp z Hz). apply Hp'. by intros ->%elem_of_list_singleton.
  - by rewrite <- Hr.
Qed.

Lemma fresh_outside w junk l : outside l w (fresh w junk l).
Proof.
  induction l as [|i l IH]; [apply outside_refl|]. cbn [fresh foldr]. apply outside_step; [left|].
  destruct IH as (Hf & Hp & Hr). split_and!; [|intros z Hz; apply Hp; intros ?; apply Hz; by right|done].
  apply (frame_mono l); [done|]. intros z Hz. by right.
Qed.
Lemma fresh_alive w junk l i : alive w i \/ i ∈ l -> alive (fresh w junk l) i.
Proof.
  induction l as [|j l IH]; intros Hi; cbn [fresh foldr].
  - destruct Hi as [Hi|Hi]; [done|by apply elem_of_nil in Hi].
  - apply alive_put. destruct (decide (i = j)) as [-> |Hne]; [by right|]. left. apply IH.
    destruct Hi as [Hi|[?|?]%elem_of_cons]; auto. done.
Qed.

(** ** The invariant *)
Section repr.
Context {K V : Type} (cmp : K -> K -> comparison) (Hcmp : total_preorder cmp).
(** What the map demands of its tree. *)
Context (good : wavl -> tree -> Prop).
Implicit Types (s : flat K V) (A : fview K V).

Definition slots s A : Prop :=
  cap s = room A /\ (forall i, i < cap s -> alive (tr s) i).
Definition facts A : Prop :=
  sorted cmp (vals (fv A)) (elems (fv A)) /\ elems (fv A) ≡ₚ seq 1 (count A) /\
  (forall x, is_Some (vals (fv A) !! x) -> x ∈ elems (fv A)).
Definition core s A (t : tree) : Prop :=
  slots s A /\ facts A /\ (forall x, x ∈ elems (fv A) -> dat s !! x = vals (fv A) !! x) /\
  good (tr s) t /\ nodes t = elems (fv A).
(** Before the first insertion there is not even a sentinel. *)
Definition unborn s A (t : tree) : Prop :=
  slots s A /\ facts A /\ sz s = 0 /\ t = E /\ elems (fv A) = [] /\ wroot (tr s) = 0.
Definition reprT s A (t : tree) : Prop :=
  (used A = true -> 1 <= sz s /\ 2 <= cap s) /\
  (unborn s A t \/ core s A t /\ sz s = S (count A) /\ sz s <= cap s).
Definition repr s A : Prop := exists t, reprT s A t.

Lemma facts_empty n u : facts (FView (View [] ∅) n u).
Proof. split_and!; [split; constructor|done|]. intros x [? Hx]. cbn in Hx. by rewrite lookup_empty in Hx. Qed.

Lemma repr_init n junk : repr (flat_init n junk) (fstart n).
Proof.
  exists E. split; [done|]. left. split_and!; try done.
  - split; [done|]. intros i Hi. cbn in *. apply fresh_alive. right. apply elem_of_seq. lia.
  - apply facts_empty.
  - cbn. by destruct (fresh_outside blank junk (seq 0 n)) as (_ & _ & ->).
Qed.

Lemma reprT_facts s A t : reprT s A t -> facts A.
Proof. intros [_ [(_ & H & _)|((_ & H & _) & _)]]; done. Qed.
Lemma reprT_slots s A t : reprT s A t -> slots s A.
Proof. intros [_ [(H & _)|((H & _) & _)]]; done. Qed.
Lemma facts_NoDup A : facts A -> NoDup (elems (fv A)).
Proof. intros (H & _). by apply (sorted_NoDup cmp Hcmp (vals (fv A))). Qed.
Lemma facts_range A x : facts A -> x ∈ elems (fv A) <-> 1 <= x <= count A.
Proof. intros (_ & -> & _). rewrite elem_of_seq. lia. Qed.
Lemma facts_dat A x : facts A -> x ∈ elems (fv A) -> exists kv, vals (fv A) !! x = Some kv.
Proof. intros (H & _). by apply (sorted_dat cmp). Qed.

Lemma reprT_count s A t : reprT s A t -> sz s - 1 = count A.
Proof. intros [_ [(_ & _ & -> & _ & He & _)|(_ & -> & _)]]; [unfold count; by rewrite He|lia]. Qed.
Lemma reprT_nodes s A t : reprT s A t -> nodes t = elems (fv A).
Proof. intros [_ [(_ & _ & _ & -> & -> & _)|((_ & _ & _ & _ & ->) & _)]]; done. Qed.
Lemma reprT_born s A t x : reprT s A t -> x ∈ elems (fv A) -> core s A t /\ sz s = S (count A) /\ sz s <= cap s.
Proof. intros [_ [(_ & _ & _ & _ & He & _)|H]] Hx; [|done]. rewrite He in Hx. by apply elem_of_nil in Hx. Qed.
Lemma reprT_value s A t x kv : reprT s A t -> vals (fv A) !! x = Some kv -> value (dat s) x = Ok kv.
Proof.
  intros Hr Hx. pose proof (reprT_facts s A t Hr) as (_ & _ & Hd).
  assert (x ∈ elems (fv A)) as Hin by eauto.
  destruct (reprT_born s A t x Hr Hin) as ((_ & _ & Hv & _) & _). unfold value. by rewrite Hv, Hx.
Qed.

(** The value of an element changes. *)
Lemma facts_put A x old kv :
  facts A -> vals (fv A) !! x = Some old -> cmp (fst old) (fst kv) = Eq -> facts (put A x kv).
Proof.
  intros (Hs & Hp & Hd) Hx He. split_and!; cbn.
  - apply (sorted_key cmp Hcmp (vals (fv A))); [done|]. intros z Hz.
    destruct (decide (z = x)) as [-> |Hne].
    + exists old, kv. by rewrite lookup_insert.
    + destruct (sorted_dat _ _ _ _ Hs Hz) as [w Hw]. exists w, w. rewrite lookup_insert_ne by done.
      split_and!; [done..|by apply cmp_refl].
  - done.
  - intros z Hz. destruct (decide (z = x)) as [-> |Hne]; [by eauto|]. rewrite lookup_insert_ne in Hz by done. by apply Hd.
Qed.

Lemma reprT_put s A t x old kv w D :
  reprT s A t -> vals (fv A) !! x = Some old -> cmp (fst old) (fst kv) = Eq ->
  good w t -> (forall i, alive (tr s) i -> alive w i) ->
  D !! x = Some kv -> (forall z, z <> 0 -> z <> x -> D !! z = dat s !! z) ->
  reprT (Flat w D (sz s) (cap s)) (put A x kv) t.
Proof.
  intros Hr Hx He Hw Hal HDx HD. pose proof (reprT_facts s A t Hr) as Hf.
  assert (x ∈ elems (fv A)) as Hin by (destruct Hf as (_ & _ & Hd); eauto).
  destruct (reprT_born s A t x Hr Hin) as (((Hc & Ha) & _ & Hv & _ & Hn) & Hsz & Hle).
  split; [by destruct Hr|]. right. split; [|done]. split_and!; try done; cbn.
  - split; [done|]. cbn. intros i Hi. auto.
  - by apply (facts_put A x old).
  - intros z Hz. destruct (decide (z = x)) as [-> |Hne]; [by rewrite lookup_insert|].
    rewrite lookup_insert_ne by done. rewrite HD; [by apply Hv| |done].
    apply (facts_range A z Hf) in Hz. lia.
Qed.
End repr.
