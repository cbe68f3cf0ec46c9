(** Proofs about the doubly linked list model. *)
From stdpp Require Import base numbers option gmap fin_maps list.
From Verif Require Import Common LinkHeap PathLemmas DllModel DllSpec.

Section proofs.
Context {V : Type} (ndebug : bool) (al : gmap nat bool).
Implicit Types (s : dmem V) (A : view V).

(** The nodes whose back link is out of date: fronts of worn lists. *)
Definition old (ls : fam) (w : gset nat) (x : nat) : Prop :=
  exists l xs, l ∈ w /\ ls !! l = Some xs /\ x = hd l xs.

Definition agree (ls : fam) (w : gset nat) (p pr : fld) : Prop :=
  forall x, (is_Some (p !! x) <-> is_Some (pr !! x)) /\ (~ old ls w x -> p !! x = pr !! x).

(** The link fields hold the lists [ls]; [pr] is the back link field with the
    out of date links repaired. *)
Definition links (n p : fld) (ls : fam) (w : gset nat) : Prop :=
  rings n ls /\ exists pr, rings pr (@rev nat <$> ls) /\ agree ls w p pr.

Definition Inv s A : Prop :=
  dat s = vals A /\ DllModel.al s = al /\ apart (lists A) /\ links (nx s) (pv s) (lists A) (worn A) /\
  (forall l xs, lists A !! l = Some xs ->
     sz s !! l = Some (Z.of_nat (length xs)) /\ is_Some (al !! l) /\ vals A !! l = None /\ l <> 0 /\
     forall x, x ∈ xs -> is_Some (vals A !! x)) /\
  (forall e v, vals A !! e = Some v -> is_Some (nx s !! e) /\ is_Some (pv s !! e) /\ e <> 0).

Lemma agree_upd ls w p pr x q : agree ls w p pr -> agree ls w (<[x:=q]> p) (<[x:=q]> pr).
Proof.
  intros H y. destruct (decide (x = y)) as [->|Hne].
  - rewrite !lookup_insert. split; [|done]. split; eauto.
  - rewrite !lookup_insert_ne by done. apply H.
Qed.

Lemma agree_del ls w p pr x : agree ls w p pr -> agree ls w (delete x p) (delete x pr).
Proof.
  intros H y. destruct (decide (x = y)) as [->|Hne].
  - rewrite !lookup_delete. split; [|done]. split; eauto.
  - rewrite !lookup_delete_ne by done. apply H.
Qed.

Lemma agree_foldr_del ls w p pr xs : agree ls w p pr -> agree ls w (foldr delete p xs) (foldr delete pr xs).
Proof. intros H. induction xs as [|x xs IH]; [done|]. simpl. by apply agree_del. Qed.

Lemma agree_old ls w ls' w' p pr : agree ls w p pr -> (forall x, old ls w x -> old ls' w' x) -> agree ls' w' p pr.
Proof. intros H Ho x. destruct (H x) as [H1 H2]. split; [done|]. intros Hn. apply H2. intros Hx. by apply Hn, Ho. Qed.

(** Changing a list keeps the old links old if it is not worn or keeps its front. *)
Lemma old_set ls w l xs ys x : ls !! l = Some xs -> l ∉ w \/ hd l ys = hd l xs -> old ls w x -> old (<[l:=ys]> ls) w x.
Proof.
  intros Hl Hor (l' & xs' & Hw & Hl' & ->). destruct (decide (l' = l)) as [->|Hne].
  - destruct Hor as [|Hh]; [done|]. simplify_eq. exists l, ys. rewrite lookup_insert. by rewrite Hh.
  - exists l', xs'. by rewrite lookup_insert_ne.
Qed.

Lemma agree_is_Some ls w p pr x : agree ls w p pr -> is_Some (pr !! x) -> is_Some (p !! x).
Proof. intros H Hx. by apply (H x). Qed.

(** ** Loops *)

Lemma dassert_true b : b = true -> dassert ndebug b = Ok tt.
Proof. intros ->. unfold dassert. by destruct ndebug. Qed.

Lemma len_loop_Ok m n q e run : forall fuel b c, path m run q -> NoDup run ->
  head run = Some b -> last run = Some e ->
  length run <= fuel -> ndebug = true \/ (c + Z.of_nat (length run) <= n + 2)%Z ->
  len_loop ndebug fuel m n b e c = Ok (c + Z.of_nat (length run) - 1)%Z.
Proof.
  induction run as [|x run IH]; intros fuel b c Hp Hnd Hb He Hf Hc; [done|].
  simplify_eq/=. destruct fuel as [|fuel]; [lia|].
  cbn [len_loop]. apply NoDup_cons in Hnd as [Hx Hnd]. destruct run as [|y run].
  - simplify_eq/=. rewrite Nat.eqb_refl. f_equal. lia.
  - assert (He' : last (y :: run) = Some e) by done.
    destruct (Nat.eqb_spec b e) as [->|Hne]; [by apply last_Some_elem_of in He'|].
    assert (dassert ndebug (c <=? n)%Z = Ok tt) as ->.
    { unfold dassert. destruct ndebug; [done|]. destruct Hc as [|Hc]; [done|]. unfold oassert.
      destruct (Z.leb_spec c n); [done|simpl in Hc; lia]. }
    cbn [mbind outcome_bind obind].
    destruct Hp as [Hxm Hp]. rewrite (rd_Ok _ _ _ Hxm). cbn [mbind outcome_bind obind hd].
    rewrite (IH fuel y (c + 1)%Z); [f_equal; simpl; lia|done|done|done|done|simpl in *; lia|].
    destruct Hc as [|Hc]; [by left|right; simpl in *; lia].
Qed.

Lemma free_range_Ok n e run : forall fuel s b c q, path (nx s) run q -> NoDup run ->
  head run = Some b -> last run = Some e ->
  (forall x, x ∈ run -> is_Some (dat s !! x)) ->
  length run <= fuel -> (c + Z.of_nat (length run) <= n + 2)%Z ->
  free_range ndebug fuel s n b e c =
    Ok (DMem (foldr delete (nx s) run) (foldr delete (pv s) run) (foldr delete (dat s) run) (sz s) (DllModel.al s),
        (c + Z.of_nat (length run) - 1)%Z).
Proof.
  induction run as [|x run IH]; intros fuel s b c q Hp Hnd Hb He Hd Hf Hc; [done|].
  simplify_eq/=. destruct fuel as [|fuel]; [lia|].
  cbn [free_range]. apply NoDup_cons in Hnd as [Hx Hnd].
  destruct (Hd b ltac:(left)) as [vb Hvb]. destruct run as [|y run].
  - simplify_eq/=. rewrite Nat.eqb_refl. unfold free. rewrite Hvb. cbn [mbind outcome_bind obind].
    do 2 f_equal. lia.
  - assert (He' : last (y :: run) = Some e) by done.
    destruct (Nat.eqb_spec b e) as [->|Hne]; [by apply last_Some_elem_of in He'|].
    rewrite dassert_true by (apply Z.leb_le; simpl in Hc; lia). cbn [mbind outcome_bind obind].
    destruct Hp as [Hxm Hp]. rewrite (rd_Ok _ _ _ Hxm). cbn [mbind outcome_bind obind hd].
    unfold free at 1. rewrite Hvb. cbn [mbind outcome_bind obind].
    erewrite (IH fuel _ y (c + 1)%Z).
    + cbn [nx pv dat sz DllModel.al]. rewrite <- !foldr_delete_cons. do 2 f_equal. simpl. lia.
    + cbn [nx]. apply path_del; done.
    + done.
    + done.
    + done.
    + intros z Hz. cbn [dat]. rewrite lookup_delete_ne; [apply Hd; by right|]. intros ->. done.
    + simpl in *; lia.
    + simpl in *; lia.
Qed.

(** ** Consequences of the invariant *)

Lemma Inv_ring s A l xs : Inv s A -> lists A !! l = Some xs -> path (nx s) (l :: xs) l /\ NoDup (l :: xs).
Proof. intros (_ & _ & [Ha _] & [Hr _] & _) Hl. split; [by apply Hr|by apply Ha]. Qed.

Lemma Inv_live s A l xs x : Inv s A -> lists A !! l = Some xs -> x ∈ l :: xs ->
  is_Some (nx s !! x) /\ is_Some (pv s !! x) /\ x <> 0.
Proof.
  intros HI Hl Hx. destruct (Inv_ring _ _ _ _ HI Hl) as [Hp _].
  destruct HI as (_ & _ & _ & (_ & pr & Hpr & Hag) & H1 & H2). split_and!.
  - by eapply path_elem.
  - eapply agree_is_Some; [done|]. eapply (path_elem pr (l :: rev xs)).
    + apply Hpr. by rewrite lookup_fmap, Hl.
    + apply elem_of_cons in Hx as [->|Hx]; [left|right; by apply elem_of_rev].
  - destruct (H1 _ _ Hl) as (_ & _ & _ & Hn & Hv).
    apply elem_of_cons in Hx as [->|Hx]; [done|]. destruct (Hv x Hx) as [v Hvx]. by destruct (H2 _ _ Hvx) as (_ & _ & ?).
Qed.

(** Nodes whose back link can be relied on. *)
Lemma not_old A l xs x : apart (lists A) -> lists A !! l = Some xs -> x ∈ l :: xs ->
  x <> hd l xs \/ l ∉ worn A -> ~ old (lists A) (worn A) x.
Proof.
  intros [H1 H2] Hl Hx Hor (l' & xs' & Hw & Hl' & ->). destruct (decide (l' = l)) as [->|Hne].
  - simplify_eq. by destruct Hor.
  - apply (H2 l' l xs' xs (hd l' xs') Hl' Hl Hne); [|done]. destruct xs'; simpl; [left|right; left].
Qed.

Lemma old_owned (ls : fam) w x : old ls w x -> owned ls x.
Proof. intros (l & xs & _ & Hl & ->). exists l, xs. split; [done|]. destruct xs; simpl; [left|right; left]. Qed.

Lemma unlisted_owned s A e v : Inv s A -> vals A !! e = Some v -> unlisted A e -> ~ owned (lists A) e.
Proof.
  intros (_ & _ & _ & _ & H1 & _) Hv Hu (l & xs & Hl & Hx). apply elem_of_cons in Hx as [->|Hx].
  - destruct (H1 _ _ Hl) as (_ & _ & Hn & _). congruence.
  - by apply (Hu l xs).
Qed.

Lemma unused_owned s A p : Inv s A -> unused A p -> ~ owned (lists A) p.
Proof.
  intros (_ & _ & _ & _ & H1 & _) (H0 & Hv & Hl) (l & xs & Hl' & Hx). apply elem_of_cons in Hx as [->|Hx].
  - congruence.
  - destruct (H1 _ _ Hl') as (_ & _ & _ & _ & Hs). destruct (Hs _ Hx). congruence.
Qed.

(** ** The state after a list lost or gained a run *)

Lemma Inv_removed s A l pre run post fr n' p' w' : Inv s A -> lists A !! l = Some (pre ++ run ++ post) ->
  links n' p' (<[l:=pre ++ post]> (lists A)) w' ->
  (forall e v, (if (fr : bool) then e ∉ run else True) -> vals A !! e = Some v ->
     is_Some (n' !! e) /\ is_Some (p' !! e)) ->
  Inv (DMem n' p' (if fr then foldr delete (vals A) run else vals A)
        (<[l:=(Z.of_nat (length (pre ++ run ++ post)) - Z.of_nat (length run))%Z]> (sz s)) (DllModel.al s))
      (View (<[l:=pre ++ post]> (lists A)) (if fr then foldr delete (vals A) run else vals A) w').
Proof.
  intros HI Hl Hlk Hm. destruct (HI) as (Hd & Hal & Ha & _ & H1 & H2).
  destruct (apart_unlink _ _ _ _ _ Ha Hl) as [Ha' [_ Hlo]].
  split_and!; cbn [nx pv dat sz DllModel.al lists vals worn]; try done.
  - assert (Hkeep : forall x, owned (<[l:=pre ++ post]> (lists A)) x -> is_Some (vals A !! x) ->
      is_Some ((if fr then foldr delete (vals A) run else vals A) !! x)).
    { intros x Hx Hv. destruct fr; [|done]. apply foldr_del_is_Some; [|done].
      intros Hin. by apply (Hlo x). }
    assert (Hnone : forall l, vals A !! l = None -> (if fr then foldr delete (vals A) run else vals A) !! l = None).
    { intros l' Hv. destruct fr; [|done]. destruct (foldr delete (vals A) run !! l') eqn:E; [|done].
      apply lookup_foldr_del in E as [_ E]. congruence. }
    intros l' xs' [[<- <-]|[Hne Hl']]%lookup_insert_Some.
    + destruct (H1 _ _ Hl) as (Hs & His & Hv & H0 & Hin). split_and!; auto.
      * rewrite lookup_insert. f_equal. rewrite !app_length. lia.
      * intros x Hx. apply Hkeep.
        -- exists l, (pre ++ post). rewrite lookup_insert. split; [done|by right].
        -- apply Hin. rewrite !elem_of_app in *. tauto.
    + destruct (H1 _ _ Hl') as (Hs & His & Hv & H0 & Hin). split_and!; auto.
      * by rewrite lookup_insert_ne.
      * intros x Hx. apply Hkeep; [|by apply Hin]. exists l', xs'. rewrite lookup_insert_ne by done.
        split; [done|by right].
  - intros e v Hv.
    assert (Hv' : (if fr then e ∉ run else True) /\ vals A !! e = Some v).
    { destruct fr; [by apply lookup_foldr_del in Hv|done]. }
    destruct Hv' as [Hn Hv']. destruct (Hm e v Hn Hv'). split_and!; [done|done|by destruct (H2 _ _ Hv') as (_ & _ & ?)].
Qed.

Lemma Inv_linked s A l u run v n' p' w' : Inv s A -> lists A !! l = Some (u ++ v) -> loose (lists A) run ->
  (forall x, x ∈ run -> is_Some (vals A !! x)) ->
  links n' p' (<[l:=u ++ run ++ v]> (lists A)) w' ->
  (forall e, is_Some (nx s !! e) -> is_Some (n' !! e)) ->
  (forall e, is_Some (pv s !! e) -> is_Some (p' !! e)) ->
  Inv (DMem n' p' (dat s) (<[l:=(Z.of_nat (length (u ++ v)) + Z.of_nat (length run))%Z]> (sz s)) (DllModel.al s))
      (View (<[l:=u ++ run ++ v]> (lists A)) (vals A) w').
Proof.
  intros HI Hl Hlo Hrun Hlk Hm Hm'. destruct HI as (Hd & Hal & Ha & _ & H1 & H2).
  split_and!; cbn [nx pv dat sz DllModel.al lists vals worn]; try done.
  - by apply apart_link.
  - intros l' xs' [[<- <-]|[Hne Hl']]%lookup_insert_Some.
    + destruct (H1 _ _ Hl) as (Hs & His & Hv & H0 & Hin). split_and!; try done.
      * rewrite lookup_insert. f_equal. rewrite !app_length. lia.
      * intros x. rewrite !elem_of_app. intros [Hx|[Hx|Hx]]; [|by apply Hrun|];
          apply Hin; rewrite elem_of_app; tauto.
    + destruct (H1 _ _ Hl') as (Hs & His & Hv & H0 & Hin). split_and!; try done.
      by rewrite lookup_insert_ne.
  - intros e w Hw. destruct (H2 _ _ Hw) as (? & ? & ?). split_and!; [by apply Hm|by apply Hm'|done].
Qed.

Lemma Inv_new s A e v g g' : Inv s A -> unused A e ->
  Inv (DMem (<[e:=g]> (nx s)) (<[e:=g']> (pv s)) (<[e:=v]> (dat s)) (sz s) (DllModel.al s)) (add_val A e v).
Proof.
  intros HI Hu. pose proof (unused_owned _ _ _ HI Hu) as Ho. destruct Hu as (H0 & Hv & Hl).
  destruct HI as (Hd & Hal & Ha & (Hr & pr & Hpr & Hag) & H1 & H2).
  unfold add_val. split_and!; cbn [nx pv dat sz DllModel.al lists vals worn]; try done.
  - by rewrite Hd.
  - split; [by apply rings_upd|].
    exists (<[e:=g']> pr). split; [|by apply agree_upd]. apply rings_upd; [done|]. by rewrite owned_rev.
  - intros l xs Hlx. destruct (H1 _ _ Hlx) as (Hs & His & Hvl & Hl0 & Hin). split_and!; try done.
    + rewrite lookup_insert_ne; [done|]. congruence.
    + intros x Hx. rewrite lookup_insert_is_Some'. auto.
  - intros e' w. rewrite !lookup_insert_is_Some', lookup_insert_Some. intros [[<- <-]|[Hne Hw]]; [auto|].
    destruct (H2 _ _ Hw) as (? & ? & ?). auto.
Qed.


(** ** Moving the link fields *)

Lemma agree_upd_old ls w ls' w' p pr k q : agree ls w p pr ->
  (forall x, old ls w x -> x = k \/ old ls' w' x) -> agree ls' w' (<[k:=q]> p) (<[k:=q]> pr).
Proof.
  intros H Ho x. destruct (decide (k = x)) as [->|Hne].
  - rewrite !lookup_insert. split; [|done]. split; eauto.
  - rewrite !lookup_insert_ne by done. destruct (H x) as [H1 H2]. split; [done|].
    intros Hn. apply H2. intros Hx. destruct (Ho x Hx); [by subst|done].
Qed.

Lemma links_updn n p (ls : fam) w x q : links n p ls w -> ~ owned ls x -> links (<[x:=q]> n) p ls w.
Proof. intros [Hr Hp] Ho. split; [by apply rings_upd|done]. Qed.

Lemma links_updp n p (ls : fam) w x q : links n p ls w -> ~ owned ls x -> links n (<[x:=q]> p) ls w.
Proof.
  intros (Hr & pr & Hpr & Hag) Ho. split; [done|]. exists (<[x:=q]> pr).
  split; [|by apply agree_upd]. apply rings_upd; [done|]. by rewrite owned_rev.
Qed.

Lemma links_del n p (ls : fam) w xs : links n p ls w -> (forall x, x ∈ xs -> ~ owned ls x) ->
  links (foldr delete n xs) (foldr delete p xs) ls w.
Proof.
  intros (Hr & pr & Hpr & Hag) Ho. split; [by apply rings_foldr_del|]. exists (foldr delete pr xs).
  split; [|by apply agree_foldr_del]. apply rings_foldr_del; [done|]. intros x Hx. rewrite owned_rev. by apply Ho.
Qed.

Lemma hd_elem (l : nat) xs : hd l xs ∈ l :: xs.
Proof. destruct xs; simpl; [left|right; left]. Qed.
Lemma hd_rev_elem (l : nat) xs : hd l (rev xs) ∈ l :: xs.
Proof. pose proof (hd_elem l (rev xs)) as H. rewrite elem_of_cons, elem_of_rev in H. by rewrite elem_of_cons. Qed.

(** Taking out a run; where it is the front, the list must not be worn. *)
Lemma links_unlink n p ls w l pre run post b e : apart ls -> links n p ls w ->
  ls !! l = Some (pre ++ run ++ post) -> pre <> [] \/ l ∉ w ->
  head run = Some b -> last run = Some e ->
  n !! hd l (rev pre) = Some b /\ n !! e = Some (hd l post) /\
  p !! b = Some (hd l (rev pre)) /\ p !! hd l post = Some e /\
  links (<[hd l (rev pre):=hd l post]> n) (<[hd l post:=hd l (rev pre)]> p) (<[l:=pre ++ post]> ls) w /\
  path (<[hd l (rev pre):=hd l post]> n) run (hd l post) /\
  path (<[hd l post:=hd l (rev pre)]> p) (rev run) (hd l (rev pre)).
Proof.
  intros Ha (Hr & pr & Hpr & Hag) Hl Hw Hb He.
  destruct (apart_unlink _ _ _ _ _ Ha Hl) as [Ha' [Hnr Hlo]].
  destruct (rings_unlink n ls l pre run post (hd l (rev pre)) Ha Hr Hl (last_cons_rev l pre)) as (R1 & R2 & R3).
  destruct (rings_unlink_rev pr ls l pre run post Ha Hpr Hl) as (P1 & P2 & P3).
  assert (Hag' : agree (<[l:=pre ++ post]> ls) w (<[hd l post:=hd l (rev pre)]> p) (<[hd l post:=hd l (rev pre)]> pr)).
  { apply agree_upd. eapply agree_old; [done|]. intros x Hx. eapply old_set; [done| |done].
    destruct Hw as [Hw|]; [right|by left]. by destruct pre. }
  assert (Hin : forall x, x ∈ run -> x ∈ l :: pre ++ run ++ post).
  { intros x Hx. right. rewrite !elem_of_app. auto. }
  assert (Hbr : b ∈ run) by (destruct run; simplify_eq/=; left).
  assert (Her : e ∈ run) by (by apply last_Some_elem_of).
  assert (Hne : forall x, x ∈ l :: post -> x ∉ run).
  { intros x Hx Hxr. apply (Hlo x Hxr). exists l, (pre ++ post). rewrite lookup_insert. split; [done|].
    rewrite elem_of_cons, elem_of_app in *. tauto. }
  assert (Hne' : forall x, x ∈ l :: pre -> x ∉ run).
  { intros x Hx Hxr. apply (Hlo x Hxr). exists l, (pre ++ post). rewrite lookup_insert. split; [done|].
    rewrite elem_of_cons, elem_of_app in *. tauto. }
  assert (Hno : forall x, x ∈ l :: run ++ post -> ~ old ls w x).
  { destruct Ha as [A1 A2]. pose proof (A1 _ _ Hl) as Hnd. intros x Hx (l' & xs' & Hw' & Hl' & ->).
    destruct (decide (l' = l)) as [->|Hd].
    - simplify_eq. destruct Hw as [Hw|]; [|done]. destruct pre as [|a pre]; [done|]. simpl in Hx.
      simpl in Hnd. rewrite !NoDup_cons in Hnd. destruct Hnd as (N1 & N2 & _).
      apply elem_of_cons in Hx as [->|Hx]; [apply N1; left|]. apply N2. apply elem_of_app. by right.
    - apply (A2 l' l xs' _ (hd l' xs') Hl' Hl Hd); [apply hd_elem|].
      rewrite elem_of_cons, !elem_of_app in *. tauto. }
  assert (Hpo : forall x, x ∈ l :: run ++ post -> p !! x = pr !! x) by (intros x Hx; by apply Hag, Hno).
  split_and!.
  - rewrite R3. f_equal. destruct run; simplify_eq/=. done.
  - pose proof (path_last_lookup _ _ _ _ He R2) as E. rewrite lookup_insert_ne in E; [done|].
    intros Heq. apply (Hne' (hd l (rev pre))); [apply hd_rev_elem|by rewrite Heq].
  - rewrite Hpo by (right; apply elem_of_app; by left).
    pose proof (path_last_lookup _ _ _ _ (last_rev _ _ Hb) P2) as E. rewrite lookup_insert_ne in E; [done|].
    intros Heq. apply (Hne (hd l post)); [apply hd_elem|by rewrite Heq].
  - rewrite Hpo, P3.
    + f_equal. pose proof (head_rev _ _ He) as E. destruct (rev run); simplify_eq/=. done.
    + pose proof (hd_elem l post) as E. rewrite elem_of_cons, elem_of_app in *. tauto.
  - split; [done|]. eauto.
  - done.
  - eapply path_ext; [|exact P2]. intros x Hx. rewrite elem_of_rev in Hx.
    apply Hag'. intros Ho. by apply (Hlo x Hx), (old_owned _ w).
Qed.

(** Linking a run in; at the front this repairs a worn list. *)
Lemma links_link n p ls w w' l u run v q q' b e : apart ls -> links n p ls w -> ls !! l = Some (u ++ v) ->
  loose ls run -> path n run q -> path p (rev run) q' -> head run = Some b -> last run = Some e ->
  w' = w \/ (u = [] /\ w' = w ∖ {[l]}) -> u <> [] \/ l ∉ w' ->
  links (<[hd l (rev u):=b]> (<[e:=hd l v]> n)) (<[hd l v:=e]> (<[b:=hd l (rev u)]> p))
    (<[l:=u ++ run ++ v]> ls) w'.
Proof.
  intros Ha (Hr & pr & Hpr & Hag) Hl Hlo Hp Hp' Hb He Hw' Hu. split.
  - eapply (rings_link n ls l u run v q); try done. apply last_cons_rev.
  - exists (<[hd l v:=e]> (<[b:=hd l (rev u)]> pr)). split.
    + eapply rings_link_rev; try done. eapply path_ext; [|exact Hp']. intros x Hx. rewrite elem_of_rev in Hx.
      symmetry. apply Hag. intros Ho. by apply (proj2 Hlo x Hx), (old_owned _ w).
    + eapply agree_upd_old; [by apply agree_upd|]. intros x (l' & xs' & Hw & Hl' & ->).
      destruct (decide (l' = l)) as [->|Hd].
      * simplify_eq. destruct u as [|a u]; [by left|right]. exists l, (a :: u ++ run ++ v).
        rewrite lookup_insert. destruct Hw' as [->|[??]]; [|done]. done.
      * right. exists l', xs'. rewrite lookup_insert_ne by done. split; [|done].
        destruct Hw' as [->|[_ ->]]; [done|]. set_solver.
Qed.

(** Link reads at a list that is not worn, or away from its front. *)
Lemma links_back n p ls w l u v : apart ls -> links n p ls w -> ls !! l = Some (u ++ v) ->
  u <> [] \/ l ∉ w -> n !! hd l (rev u) = Some (hd l v) /\ p !! hd l v = Some (hd l (rev u)).
Proof.
  intros Ha (Hr & pr & Hpr & Hag) Hl Hw.
  destruct (rings_unlink n ls l u [] v (hd l (rev u)) Ha Hr Hl (last_cons_rev l u)) as (_ & _ & R3).
  destruct (rings_unlink_rev pr ls l u [] v Ha Hpr Hl) as (_ & _ & P3). split; [done|].
  change (rev [] ++ rev u) with (rev u) in P3. rewrite <- P3. apply Hag. intros (l' & xs' & Hw' & Hl' & Heq). destruct Ha as [A1 A2].
  destruct (decide (l' = l)) as [->|Hd].
  - simplify_eq. destruct Hw as [Hw|]; [|done]. destruct u as [|a u]; [done|]. simpl in Heq.
    pose proof (A1 _ _ Hl) as Hnd. simpl in Hnd. rewrite !NoDup_cons in Hnd. destruct Hnd as (N1 & N2 & _).
    destruct v as [|c v]; simpl in Heq; subst.
    + apply N1. left.
    + apply N2. apply elem_of_app. right. left.
  - apply (A2 l' l xs' _ (hd l v) Hl' Hl Hd); [rewrite Heq; apply hd_elem|].
    pose proof (hd_elem l v) as E. rewrite elem_of_cons, elem_of_app in *. tauto.
Qed.


Ltac bind := cbn [mbind outcome_bind obind].
Ltac isSome := rewrite ?lookup_insert_is_Some'; eauto 6.

Lemma loose1 (ls : fam) e : ~ owned ls e -> loose ls [e].
Proof. intros H. split; [apply NoDup_singleton|]. by intros x ->%elem_of_list_singleton. Qed.

Lemma Inv_link1 s A l u v e val w' : Inv s A -> lists A !! l = Some (u ++ v) ->
  vals A !! e = Some val -> unlisted A e ->
  w' = worn A \/ (u = [] /\ w' = worn A ∖ {[l]}) -> u <> [] \/ l ∉ w' ->
  Inv (DMem (<[hd l (rev u):=e]> (<[e:=hd l v]> (nx s))) (<[hd l v:=e]> (<[e:=hd l (rev u)]> (pv s))) (dat s)
        (<[l:=(Z.of_nat (length (u ++ v)) + 1)%Z]> (sz s)) (DllModel.al s))
      (View (<[l:=u ++ [e] ++ v]> (lists A)) (vals A) w').
Proof.
  intros HI Hl Hv Hu Hw Hc. pose proof (unlisted_owned _ _ _ _ HI Hv Hu) as Ho.
  pose proof HI as (Hd & Hal & Ha & Hlk & H1 & H2). destruct (H2 _ _ Hv) as ([q Hq] & [q' Hq'] & He0).
  apply (Inv_linked s A l u [e] v); try done.
  - by apply loose1.
  - intros x ->%elem_of_list_singleton. eauto.
  - eapply (links_link _ _ _ (worn A) _ l u [e] v q q'); try done. by apply loose1.
  - intros x Hx. isSome.
  - intros x Hx. isSome.
Qed.

Lemma push_front_Ok s A l e xs v : Inv s A -> lists A !! l = Some xs -> vals A !! e = Some v -> unlisted A e ->
  exists s', push_front s l e = Ok s' /\ nx s' !! l = Some e /\ Inv s' (mend (set_list A l (e :: xs) false []) l).
Proof.
  intros HI Hl Hv Hu. pose proof (unlisted_owned _ _ _ _ HI Hv Hu) as Ho.
  destruct (Inv_ring _ _ _ _ HI Hl) as [[Hlm _] Hnd].
  assert (Hel : e <> l) by (intros ->; apply Ho; exists l, xs; split; [done|left]).
  destruct (Inv_live _ _ _ _ (hd l xs) HI Hl (hd_elem l xs)) as (_ & Hph & _).
  pose proof (Inv_link1 s A l [] xs e v (worn A ∖ {[l]}) HI Hl Hv Hu) as HI'.
  destruct HI as (Hd & Hal & Ha & Hlk & H1 & H2). destruct (H1 _ _ Hl) as (Hs & _).
  destruct (H2 _ _ Hv) as (He & He' & _).
  unfold push_front. rewrite (wr_Ok _ _ _ He'). bind. rewrite (rd_Ok _ _ _ Hlm). bind.
  rewrite (wr_Ok _ _ _ He). bind. rewrite (rd_Ok _ l (hd l xs)) by (by rewrite lookup_insert_ne). bind.
  rewrite wr_Ok by isSome. bind. rewrite wr_Ok by isSome. bind.
  unfold add_sz, get_sz, with_links. cbn [sz nx pv]. rewrite Hs. bind. eexists. split; [done|].
  cbn [nx pv dat sz DllModel.al]. split; [by rewrite lookup_insert|].
  apply HI'; [by right|right; set_solver].
Qed.

Lemma push_back_Ok s A l e xs v : Inv s A -> lists A !! l = Some xs -> vals A !! e = Some v -> unlisted A e ->
  xs <> [] \/ l ∉ worn A ->
  exists s', push_back s l e = Ok s' /\ pv s' !! l = Some e /\ Inv s' (set_list A l (xs ++ [e]) false []).
Proof.
  intros HI Hl Hv Hu Hw. pose proof (unlisted_owned _ _ _ _ HI Hv Hu) as Ho.
  assert (Hel : e <> l) by (intros ->; apply Ho; exists l, xs; split; [done|left]).
  assert (Hl' : lists A !! l = Some (xs ++ [])) by (by rewrite app_nil_r).
  destruct (Inv_live _ _ _ _ (hd l (rev xs)) HI Hl (hd_rev_elem l xs)) as (Hph & _ & _).
  destruct (Inv_live _ _ _ _ l HI Hl ltac:(left)) as (_ & Hpl & _).
  pose proof (Inv_link1 s A l xs [] e v (worn A) HI Hl' Hv Hu) as HI'.
  destruct HI as (Hd & Hal & Ha & Hlk & H1 & H2). destruct (H1 _ _ Hl') as (Hs & _).
  destruct (H2 _ _ Hv) as (He & He' & _).
  destruct (links_back _ _ _ _ l xs [] Ha Hlk Hl' Hw) as [_ Hb]. simpl in Hb.
  unfold push_back. rewrite (wr_Ok _ _ _ He). bind. rewrite (rd_Ok _ _ _ Hb). bind.
  rewrite (wr_Ok _ _ _ He'). bind. rewrite (rd_Ok _ l (hd l (rev xs))) by (by rewrite lookup_insert_ne). bind.
  rewrite wr_Ok by isSome. bind. rewrite wr_Ok by isSome. bind.
  unfold add_sz, get_sz, with_links. cbn [sz nx pv]. rewrite Hs. bind. eexists. split; [done|].
  cbn [nx pv dat sz DllModel.al]. split; [by rewrite lookup_insert|].
  apply HI'; [by left|done].
Qed.

Lemma add_val_live A e v : vals (add_val A e v) !! e = Some v.
Proof. unfold add_val. cbn [vals]. by rewrite lookup_insert. Qed.

Lemma unused_unlisted s A e v : Inv s A -> unused A e -> unlisted (add_val A e v) e.
Proof.
  intros HI Hu l xs Hl Hx. apply (unused_owned _ _ _ HI Hu). exists l, xs. split; [done|by right].
Qed.

Lemma alloc_copy_Ok s A e v p : Inv s A -> vals A !! e = Some v -> unused A p ->
  exists s', alloc_copy s p e = Ok s' /\ Inv s' (add_val A p v).
Proof.
  intros HI Hv Hu. pose proof HI as (Hd & _ & _ & _ & _ & H2). destruct (H2 _ _ Hv) as ([n Hn] & [q Hq] & _).
  unfold alloc_copy. rewrite Hd, Hv, (rd_Ok _ _ _ Hn), (rd_Ok _ _ _ Hq). bind.
  eexists. split; [done|]. rewrite <- Hd. by apply Inv_new.
Qed.

(** What both pushes do before linking. *)
Lemma pushed_Ok s A l e ans x A1 xs : Inv s A -> lists A !! l = Some xs -> pushed al A l e ans x A1 ->
  exists a s1, al !! l = Some a /\ (a && (ans =? 0)) = false /\ x = (if (a : bool) then ans else e) /\
    (if (a : bool) then alloc_copy s ans e else Ok s) = Ok s1 /\ Inv s1 A1 /\ lists A1 = lists A /\ worn A1 = worn A /\
    (exists v, vals A1 !! x = Some v) /\ unlisted A1 x /\ e <> 0.
Proof.
  intros HI Hl [v Ha Hv Hu|v Ha Hv Hu].
  - exists false, s. split_and!; try done; [eauto|]. destruct HI as (_ & _ & _ & _ & _ & H2). by destruct (H2 _ _ Hv) as (_ & _ & ?).
  - destruct (alloc_copy_Ok _ _ _ _ _ HI Hv Hu) as (s' & Hs & HI'). exists true, s'. split_and!; try done.
    + destruct Hu as (Hn & _). by destruct ans.
    + exists v. apply add_val_live.
    + by eapply unused_unlisted.
    + destruct HI as (_ & _ & _ & _ & _ & H2). by destruct (H2 _ _ Hv) as (_ & _ & ?).
Qed.

Lemma has_alloc_Ok s A l a : Inv s A -> al !! l = Some a -> has_alloc s l = Ok a.
Proof. intros (_ & Hal & _) Ha. unfold has_alloc. by rewrite Hal, Ha. Qed.

Lemma Inv_l0 s A l xs : Inv s A -> lists A !! l = Some xs -> (l =? 0) = false.
Proof. intros HI Hl. apply Nat.eqb_neq. destruct HI as (_ & _ & _ & _ & H1 & _). by destruct (H1 _ _ Hl) as (_ & _ & _ & ? & _). Qed.

Lemma step_push_front s A l e ans xs x A1 : Inv s A -> has A l xs -> pushed al A l e ans x A1 ->
  exists s', dll_push false s l e ans = Ok (s', x) /\ Inv s' (mend (set_list A1 l (x :: xs) false []) l).
Proof.
  intros HI Hl Hp. destruct (pushed_Ok _ _ _ _ _ _ _ _ HI Hl Hp) as (a & s1 & Ha & Hz & Hx & Hs & HI1 & El & _ & (v & Hv) & Hu & He).
  unfold dll_push. rewrite (Inv_l0 _ _ _ _ HI Hl). apply Nat.eqb_neq in He. rewrite He.
  rewrite (has_alloc_Ok _ _ _ _ HI Ha). bind. cbn [orb]. rewrite Hz, Hs. bind. rewrite <- Hx.
  unfold has in Hl. rewrite <- El in Hl.
  destruct (push_front_Ok _ _ _ _ _ _ HI1 Hl Hv Hu) as (s' & -> & Hh & HI'). bind. rewrite (rd_Ok _ _ _ Hh). bind.
  eauto.
Qed.

Lemma step_push_back s A l e ans xs x A1 : Inv s A -> has A l xs -> pushed al A l e ans x A1 ->
  xs <> [] \/ l ∉ worn A ->
  exists s', dll_push true s l e ans = Ok (s', x) /\ Inv s' (set_list A1 l (xs ++ [x]) false []).
Proof.
  intros HI Hl Hp Hw. destruct (pushed_Ok _ _ _ _ _ _ _ _ HI Hl Hp) as (a & s1 & Ha & Hz & Hx & Hs & HI1 & El & Ew & (v & Hv) & Hu & He).
  unfold dll_push. rewrite (Inv_l0 _ _ _ _ HI Hl). apply Nat.eqb_neq in He. rewrite He.
  rewrite (has_alloc_Ok _ _ _ _ HI Ha). bind. cbn [orb]. rewrite Hz, Hs. bind. rewrite <- Hx.
  unfold has in Hl. rewrite <- El in Hl. rewrite <- Ew in Hw.
  destruct (push_back_Ok _ _ _ _ _ _ HI1 Hl Hv Hu Hw) as (s' & -> & Hh & HI'). bind. rewrite (rd_Ok _ _ _ Hh). bind.
  eauto.
Qed.

Lemma step_push_refused s A l e xs back : Inv s A -> has A l xs -> al !! l = Some true ->
  dll_push back s l e 0 = Ok (s, 0).
Proof.
  intros HI Hl Ha. unfold dll_push. destruct ((l =? 0) || (e =? 0)); [done|].
  rewrite (has_alloc_Ok _ _ _ _ HI Ha). bind. done.
Qed.

Lemma step_emplace_front s A l v ans xs : Inv s A -> has A l xs -> al !! l = Some true -> unused A ans ->
  exists s', dll_emplace false s l v ans = Ok (s', ans) /\
    Inv s' (mend (set_list (add_val A ans v) l (ans :: xs) false []) l).
Proof.
  intros HI Hl Ha Hu. unfold dll_emplace. rewrite (has_alloc_Ok _ _ _ _ HI Ha). bind.
  pose proof Hu as (H0 & _). apply Nat.eqb_neq in H0. rewrite H0. cbn [negb orb].
  pose proof (Inv_new s A ans v 0 0 HI Hu) as HI1.
  destruct (push_front_Ok _ (add_val A ans v) l ans xs v HI1 Hl) as (s' & -> & _ & HI').
  - apply add_val_live.
  - by eapply unused_unlisted.
  - bind. eauto.
Qed.

Lemma step_emplace_back s A l v ans xs : Inv s A -> has A l xs -> al !! l = Some true -> unused A ans ->
  xs <> [] \/ l ∉ worn A ->
  exists s', dll_emplace true s l v ans = Ok (s', ans) /\
    Inv s' (set_list (add_val A ans v) l (xs ++ [ans]) false []).
Proof.
  intros HI Hl Ha Hu Hw. unfold dll_emplace. rewrite (has_alloc_Ok _ _ _ _ HI Ha). bind.
  pose proof Hu as (H0 & _). apply Nat.eqb_neq in H0. rewrite H0. cbn [negb orb].
  pose proof (Inv_new s A ans v 0 0 HI Hu) as HI1.
  destruct (push_back_Ok _ (add_val A ans v) l ans xs v HI1 Hl) as (s' & -> & _ & HI').
  - apply add_val_live.
  - by eapply unused_unlisted.
  - done.
  - bind. eauto.
Qed.

Lemma step_emplace_refused s A l v ans xs back : Inv s A -> has A l xs -> al !! l = Some false \/ ans = 0 ->
  dll_emplace back s l v ans = Ok (s, 0).
Proof.
  intros HI Hl Ha. assert (is_Some (al !! l)) as [a Hal].
  { destruct HI as (_ & _ & _ & _ & H1 & _). by destruct (H1 _ _ Hl) as (_ & ? & _). }
  unfold dll_emplace. rewrite (has_alloc_Ok _ _ _ _ HI Hal). bind.
  destruct Ha as [Ha| ->]; [by simplify_eq|]. by rewrite orb_true_r.
Qed.

Lemma step_insert s A l e ans u v x A1 : Inv s A -> sound A l (u ++ v) -> pushed al A l e ans x A1 ->
  exists s', dll_insert s l (hd l v) e ans = Ok (s', x) /\ Inv s' (set_list A1 l (u ++ [x] ++ v) false []).
Proof.
  intros HI [Hl Hw] Hp.
  destruct (pushed_Ok _ _ _ _ _ _ _ _ HI Hl Hp) as (a & s1 & Ha & Hz & Hx & Hs & HI1 & El & Ew & (w & Hv) & Hu & He).
  assert (Hin : hd l v ∈ l :: u ++ v).
  { pose proof (hd_elem l v). rewrite elem_of_cons, elem_of_app in *. tauto. }
  assert (Hin' : hd l (rev u) ∈ l :: u ++ v).
  { pose proof (hd_rev_elem l u). rewrite elem_of_cons, elem_of_app in *. tauto. }
  unfold dll_insert. rewrite (Inv_l0 _ _ _ _ HI Hl).
  assert (exists pn, nx s !! hd l v = Some pn /\ pn <> 0) as (pn & Hpn & Hpn0).
  { destruct (Inv_ring _ _ _ _ HI Hl) as [Hpath _].
    destruct (ring_succ _ _ _ _ _ Hpath Hin) as (c & d & Heq & Hn). exists (hd l d). split; [done|].
    eapply (Inv_live s A l (u ++ v)); [done|done|]. destruct d as [|d0 d]; simpl; [left|].
    rewrite Heq. apply elem_of_app. right. right. left. }
  destruct HI as (Hd0 & Hal & Ha0 & Hlk & HI2).
  destruct (links_back _ _ _ _ l u v Ha0 Hlk Hl (or_intror Hw)) as [_ Hpp].
  rewrite (rd_Ok _ _ _ Hpn). bind. apply Nat.eqb_neq in Hpn0. rewrite Hpn0, (rd_Ok _ _ _ Hpp). bind.
  assert (HI : Inv s A) by (done).
  destruct (Inv_live _ _ _ _ _ HI Hl Hin') as (_ & _ & H0). apply Nat.eqb_neq in H0. rewrite H0.
  rewrite (has_alloc_Ok _ _ _ _ HI Ha). bind. rewrite Hz, Hs. bind. rewrite <- Hx.
  rewrite <- El in Hl. rewrite <- Ew in Hw.
  pose proof (unlisted_owned _ _ _ _ HI1 Hv Hu) as Ho.
  pose proof (Inv_link1 s1 A1 l u v x w (worn A1) HI1 Hl Hv Hu (or_introl eq_refl) (or_intror Hw)) as HI'.
  destruct (Inv_live _ _ _ _ _ HI1 Hl Hin) as (_ & Hpi & _).
  destruct (Inv_live _ _ _ _ _ HI1 Hl Hin') as (Hni & _ & _).
  destruct HI1 as (Hd1 & Hal1 & Ha1 & Hlk1 & H11 & H12). destruct (H11 _ _ Hl) as (Hsz & _).
  destruct (H12 _ _ Hv) as (Hex & Hex' & _).
  destruct (links_back _ _ _ _ l u v Ha1 Hlk1 Hl (or_intror Hw)) as [_ Hpp1].
  assert (Hne : x <> hd l v) by (intros ->; apply Ho; by exists l, (u ++ v)).
  rewrite (wr_Ok _ _ _ Hex). bind. rewrite (rd_Ok _ _ _ Hpp1). bind. rewrite (wr_Ok _ _ _ Hex'). bind.
  rewrite (rd_Ok _ (hd l v) (hd l (rev u))) by (by rewrite lookup_insert_ne). bind.
  rewrite wr_Ok by isSome. bind. rewrite wr_Ok by isSome. bind.
  unfold add_sz, get_sz, with_links. cbn [sz nx pv]. rewrite Hsz. bind. eexists. split; [done|]. exact HI'.
Qed.

Lemma step_insert_refused s A l e u v : Inv s A -> sound A l (u ++ v) -> al !! l = Some true ->
  dll_insert s l (hd l v) e 0 = Ok (s, 0).
Proof.
  intros HI [Hl Hw] Ha.
  assert (Hin : hd l v ∈ l :: u ++ v).
  { pose proof (hd_elem l v). rewrite elem_of_cons, elem_of_app in *. tauto. }
  destruct (Inv_live _ _ _ _ _ HI Hl Hin) as ([n Hn] & [p Hp] & _).
  unfold dll_insert. rewrite (Inv_l0 _ _ _ _ HI Hl), (rd_Ok _ _ _ Hn). bind. destruct (n =? 0); [done|].
  rewrite (rd_Ok _ _ _ Hp). bind. destruct (p =? 0); [done|]. rewrite (has_alloc_Ok _ _ _ _ HI Ha). done.
Qed.

(** ** Removal *)

Lemma get_sz_Ok s A l xs : Inv s A -> lists A !! l = Some xs -> get_sz s l = Ok (Z.of_nat (length xs)).
Proof. intros (_ & _ & _ & _ & H1 & _) Hl. unfold get_sz. by destruct (H1 _ _ Hl) as (-> & _). Qed.

Lemma removed1 s A l pre e post fr n p w' : Inv s A -> lists A !! l = Some (pre ++ [e] ++ post) ->
  links n p (<[l:=pre ++ post]> (lists A)) w' ->
  (forall x, is_Some (nx s !! x) -> is_Some (n !! x)) -> (forall x, is_Some (pv s !! x) -> is_Some (p !! x)) ->
  exists s2 s3, (if fr : bool then free (with_links s n p) e else Ok (with_links s n p)) = Ok s2 /\
    add_sz s2 l (-1) = Ok s3 /\
    Inv s3 (View (<[l:=pre ++ post]> (lists A)) (if fr then foldr delete (vals A) [e] else vals A) w').
Proof.
  intros HI Hl Hlk Hn Hp. pose proof HI as (Hd & Hal & Ha & _ & H1 & H2).
  destruct (apart_unlink _ _ _ _ _ Ha Hl) as [Ha' [_ Hlo]].
  destruct (H1 _ _ Hl) as (Hs & _ & _ & _ & Hv).
  destruct (Hv e) as [ve Hve]; [rewrite !elem_of_app; right; left; left|].
  exists (DMem (if fr then foldr delete n [e] else n) (if fr then foldr delete p [e] else p)
    (if fr then foldr delete (vals A) [e] else vals A) (sz s) (DllModel.al s)). eexists. split_and!.
  - unfold free, with_links. cbn [nx pv dat sz DllModel.al]. rewrite Hd. destruct fr; [|done]. by rewrite Hve.
  - unfold add_sz, get_sz. cbn [nx pv dat sz DllModel.al]. rewrite Hs. bind. done.
  - apply (Inv_removed s A l pre [e] post fr); try done.
    + destruct fr; [|done]. by apply links_del.
    + intros x v Hx Hvx. destruct (H2 _ _ Hvx) as (? & ? & _).
      destruct fr; [|auto]. split; apply foldr_del_is_Some; auto.
Qed.

Lemma pop_front_Ok s A l x xs fr : Inv s A -> lists A !! l = Some (x :: xs) ->
  exists s1 s2, pop_front s l = Ok (s1, x) /\ dat s1 = vals A /\ DllModel.al s1 = al /\
    (if fr : bool then free s1 x else Ok s1) = Ok s2 /\ Inv s2 (wear (set_list A l xs fr [x]) l).
Proof.
  intros HI Hl. destruct (Inv_ring _ _ _ _ HI Hl) as [(Hlm & Hxm & _) Hnd].
  assert (Hxl : x <> l). { intros ->. apply NoDup_cons in Hnd as [Hn _]. apply Hn. left. }
  destruct (Inv_live _ _ _ _ x HI Hl ltac:(right; left)) as (_ & Hpx & _).
  pose proof HI as (Hd & Hal & Ha & (Hr & pr & Hpr & Hag) & H1 & H2). destruct (H1 _ _ Hl) as (Hs & _ & _ & _ & Hv).
  destruct (apart_unlink _ _ [] [x] xs Ha Hl) as [Ha' [_ Hlo]]. simpl in Ha', Hlo.
  assert (Hox : ~ owned (<[l:=xs]> (lists A)) x) by (apply Hlo; left).
  unfold pop_front. simpl in Hlm, Hxm. rewrite (rd_Ok _ _ _ Hlm). bind. rewrite wr_Ok by done. bind.
  rewrite (rd_Ok _ _ _ Hxm). bind. rewrite (wr_Ok (nx s) l) by eauto. bind. rewrite wr_Ok by isSome. bind.
  rewrite wr_Ok by isSome. bind. unfold add_sz, get_sz, with_links. cbn [nx pv dat sz DllModel.al].
  rewrite Hs. bind.
  destruct (rings_unlink _ _ l [] [x] xs l Ha Hr Hl eq_refl) as (R1 & _).
  destruct (rings_unlink_rev _ _ l [] [x] xs Ha Hpr Hl) as (P1 & _). simpl in R1, P1.
  assert (Hlk : links (<[x:=0]> (<[l:=hd l xs]> (nx s))) (<[x:=0]> (<[x:=l]> (pv s))) (<[l:=xs]> (lists A)) ({[l]} ∪ worn A)).
  { split; [by apply rings_upd|]. exists (<[x:=0]> (<[x:=l]> (<[hd l xs:=l]> pr))). split.
    { apply rings_upd; [|by rewrite owned_rev]. apply rings_upd; [done|by rewrite owned_rev]. }
    apply agree_upd. intros y. destruct (Hag y) as [G1 G2].
    destruct (decide (x = y)) as [->|Hxy].
    { rewrite !lookup_insert. split; [|done]. split; eauto. }
    rewrite !(lookup_insert_ne _ x y) by done. destruct (decide (hd l xs = y)) as [Hy|Hy].
    - split.
      + rewrite G1. isSome. split; [auto|]. intros _. apply (path_elem pr (l :: rev (x :: xs)) l).
        * apply Hpr. by rewrite lookup_fmap, Hl.
        * pose proof (hd_elem l xs) as E. rewrite Hy in E. rewrite elem_of_cons in *. destruct E as [E|E]; [by left|].
          right. apply elem_of_rev. by right.
      + intros Hno. exfalso. apply Hno. exists l, xs. rewrite lookup_insert. split; [set_solver|done].
    - rewrite lookup_insert_ne by done. split; [done|]. intros Hno. apply G2.
      intros (l' & xs' & Hw' & Hl' & Heq). apply Hno. destruct (decide (l' = l)) as [->|Hd'].
      + by simplify_eq.
      + exists l', xs'. rewrite lookup_insert_ne by done. split; [set_solver|done]. }
  destruct (Hv x) as [vx Hvx]; [left|].
  eexists. exists (DMem (if fr then foldr delete (<[x:=0]> (<[l:=hd l xs]> (nx s))) [x] else (<[x:=0]> (<[l:=hd l xs]> (nx s))))
    (if fr then foldr delete (<[x:=0]> (<[x:=l]> (pv s))) [x] else (<[x:=0]> (<[x:=l]> (pv s))))
    (if fr then foldr delete (vals A) [x] else vals A)
    (<[l:=(Z.of_nat (length (x :: xs)) - Z.of_nat (length [x]))%Z]> (sz s)) (DllModel.al s)).
  split_and!; [done|done|done| |].
  - unfold free. cbn [nx pv dat sz DllModel.al]. rewrite Hd. destruct fr; [|done]. by rewrite Hvx.
  - apply (Inv_removed s A l [] [x] xs fr); try done.
    + destruct fr; [|done]. by apply links_del.
    + intros y v Hy Hvy. destruct (H2 _ _ Hvy) as (? & ? & _).
      destruct fr; [split; apply foldr_del_is_Some; [done| |done|]|split]; isSome.
Qed.

Lemma step_pop_front s A l x xs fr : Inv s A -> has A l (x :: xs) -> al !! l = Some fr ->
  exists s', dll_pop_front s l = Ok (s', OK) /\ Inv s' (wear (set_list A l xs fr [x]) l).
Proof.
  intros HI Hl Hf. destruct (pop_front_Ok s A l x xs fr HI Hl) as (s1 & s2 & Hp & _ & Hal & Hfr & HI').
  unfold dll_pop_front. rewrite (Inv_l0 _ _ _ _ HI Hl), (get_sz_Ok _ _ _ _ HI Hl). bind.
  replace (Z.of_nat (length (x :: xs)) =? 0)%Z with false by (symmetry; apply Z.eqb_neq; simpl; lia).
  rewrite Hp. bind. unfold has_alloc. rewrite Hal, Hf. bind. exists s2. split; [|done].
  destruct fr; [by rewrite Hfr|by simplify_eq].
Qed.

Lemma step_pop_back s A l x xs fr : Inv s A -> has A l (xs ++ [x]) -> al !! l = Some fr ->
  xs <> [] \/ l ∉ worn A ->
  exists s', dll_pop_back s l = Ok (s', OK) /\ Inv s' (set_list A l xs fr [x]).
Proof.
  intros HI Hl Hf Hw. assert (Hl' : lists A !! l = Some (xs ++ [x] ++ [])) by done.
  pose proof HI as (Hd & Hal & Ha & Hlk & H1 & H2).
  destruct (links_unlink _ _ _ _ _ xs [x] [] x x Ha Hlk Hl' Hw eq_refl eq_refl) as (L1 & L2 & L3 & L4 & L5 & _).
  simpl in L2, L4, L5.
  destruct (apart_unlink _ _ _ _ _ Ha Hl') as [Ha' [_ Hlo]].
  assert (Ho : ~ owned (<[l:=xs ++ []]> (lists A)) x) by (apply Hlo; left).
  unfold dll_pop_back. rewrite (Inv_l0 _ _ _ _ HI Hl), (get_sz_Ok _ _ _ _ HI Hl). bind.
  replace (Z.of_nat (length (xs ++ [x])) =? 0)%Z with false
    by (symmetry; apply Z.eqb_neq; rewrite app_length; simpl; lia).
  rewrite (rd_Ok _ _ _ L4). bind. rewrite (rd_Ok _ _ _ L3). bind. rewrite wr_Ok by isSome. bind.
  rewrite wr_Ok by isSome. bind. rewrite wr_Ok by isSome. bind. rewrite wr_Ok by isSome. bind.
  unfold has_alloc. cbn [DllModel.al with_links]. rewrite Hal, Hf. bind.
  destruct (removed1 s A l xs x [] fr (<[x:=0]> (<[hd l (rev xs):=l]> (nx s))) (<[x:=0]> (<[l:=hd l (rev xs)]> (pv s))) (worn A) HI Hl')
    as (s2 & s3 & E2 & E3 & HI').
  - apply links_updn; [|done]. by apply links_updp.
  - intros y Hy. isSome.
  - intros y Hy. isSome.
  - rewrite E2. bind. rewrite E3. bind. exists s3. split; [done|]. by rewrite app_nil_r in HI'.
Qed.

Lemma step_pop_empty s A l : Inv s A -> has A l [] ->
  dll_pop_front s l = Ok (s, INPUT_ERR) /\ dll_pop_back s l = Ok (s, INPUT_ERR).
Proof.
  intros HI Hl. unfold dll_pop_front, dll_pop_back.
  rewrite (Inv_l0 _ _ _ _ HI Hl), (get_sz_Ok _ _ _ _ HI Hl). bind. done.
Qed.

Lemma step_front s A l xs : Inv s A -> has A l xs -> dll_front s l = Ok (hd 0 xs).
Proof.
  intros HI Hl. destruct (Inv_ring _ _ _ _ HI Hl) as [[Hlm _] _]. unfold dll_front.
  rewrite (Inv_l0 _ _ _ _ HI Hl), (get_sz_Ok _ _ _ _ HI Hl). bind. destruct xs as [|x xs]; [done|].
  by rewrite (rd_Ok _ _ _ Hlm).
Qed.

Lemma hd_default (a b : nat) xs : xs <> [] -> hd a xs = hd b xs.
Proof. by destruct xs. Qed.

Lemma step_back s A l xs : Inv s A -> has A l xs -> dll_back s l = Ok (hd 0 (rev xs)).
Proof.
  intros HI Hl. unfold dll_back.
  rewrite (Inv_l0 _ _ _ _ HI Hl), (get_sz_Ok _ _ _ _ HI Hl). bind. destruct (decide (xs = [])) as [->|Hne]; [done|].
  replace (Z.of_nat (length xs) =? 0)%Z with false by (symmetry; apply Z.eqb_neq; destruct xs; [done|simpl; lia]).
  destruct HI as (Hd & Hal & Ha & Hlk & H1 & H2).
  destruct (links_back _ _ _ _ l xs [] Ha Hlk) as [_ Hb]; [by rewrite app_nil_r|by left|].
  simpl in Hb. rewrite (rd_Ok _ _ _ Hb). f_equal. apply hd_default. intros E. apply (f_equal length) in E.
  rewrite rev_length in E. by destruct xs.
Qed.

Lemma hd_ne l post (x : nat) pre run : NoDup (l :: pre ++ run ++ post) -> (hd l post =? l) = match post with [] => true | _ => false end.
Proof.
  intros Hnd. destruct post as [|c post]; simpl; [apply Nat.eqb_refl|]. apply Nat.eqb_neq. intros ->.
  apply NoDup_cons in Hnd as [Hn _]. apply Hn. rewrite !elem_of_app. right. right. left.
Qed.

Lemma step_erase s A l e pre post fr : Inv s A -> sound A l (pre ++ [e] ++ post) -> al !! l = Some fr ->
  exists s', dll_erase s l e = Ok (s', match post with [] => 0 | _ => e end) /\
    Inv s' (set_list A l (pre ++ post) fr [e]).
Proof.
  intros HI [Hl Hw] Hf. pose proof HI as (Hd & Hal & Ha & Hlk & H1 & H2).
  destruct (links_unlink _ _ _ _ _ pre [e] post e e Ha Hlk Hl (or_intror Hw) eq_refl eq_refl) as (L1 & L2 & L3 & L4 & L5 & L6 & L7).
  destruct (Inv_ring _ _ _ _ HI Hl) as [_ Hnd].
  destruct (Inv_live _ _ _ _ e HI Hl) as (_ & _ & He0); [right; rewrite elem_of_app; right; left|].
  unfold dll_erase. apply Nat.eqb_neq in He0. rewrite (Inv_l0 _ _ _ _ HI Hl), He0, (get_sz_Ok _ _ _ _ HI Hl). bind. cbn [orb].
  replace (Z.of_nat (length (pre ++ [e] ++ post)) =? 0)%Z with false
    by (symmetry; apply Z.eqb_neq; rewrite !app_length; simpl; lia).
  rewrite (rd_Ok _ _ _ L2). bind. rewrite (rd_Ok _ _ _ L3). bind. rewrite wr_Ok by isSome. bind.
  destruct L6 as [L6 _]. destruct L7 as [L7 _]. simpl in L6, L7.
  rewrite (rd_Ok _ _ _ L7). bind. rewrite wr_Ok by isSome. bind. rewrite (rd_Ok _ _ _ L6). bind.
  unfold has_alloc. cbn [DllModel.al with_links]. rewrite Hal, Hf. bind.
  destruct (removed1 s A l pre e post fr _ _ (worn A) HI Hl L5) as (s2 & s3 & E2 & E3 & HI').
  - intros y Hy. isSome.
  - intros y Hy. isSome.
  - rewrite E2. bind. rewrite E3. bind. exists s3. split; [|done]. do 2 f_equal.
    rewrite (hd_ne _ _ e _ _ Hnd). by destruct post.
Qed.

Lemma step_extract s A l e pre post : Inv s A -> sound A l (pre ++ [e] ++ post) ->
  exists s', dll_extract s l e = Ok (s', hd 0 post) /\ Inv s' (set_list A l (pre ++ post) false []).
Proof.
  intros HI [Hl Hw]. pose proof HI as (Hd & Hal & Ha & Hlk & H1 & H2).
  destruct (links_unlink _ _ _ _ _ pre [e] post e e Ha Hlk Hl (or_intror Hw) eq_refl eq_refl) as (L1 & L2 & L3 & L4 & L5 & L6 & L7).
  destruct (apart_unlink _ _ _ _ _ Ha Hl) as [Ha' [_ Hlo]].
  assert (Ho : ~ owned (<[l:=pre ++ post]> (lists A)) e) by (apply Hlo; left).
  destruct (Inv_ring _ _ _ _ HI Hl) as [_ Hnd].
  destruct (Inv_live _ _ _ _ e HI Hl) as (_ & _ & He0); [right; rewrite elem_of_app; right; left|].
  destruct (Inv_live _ _ _ _ (hd l post) HI Hl) as (_ & _ & Hn0).
  { pose proof (hd_elem l post) as E. rewrite elem_of_cons, !elem_of_app in *. tauto. }
  destruct (Inv_live _ _ _ _ (hd l (rev pre)) HI Hl) as (_ & _ & Hp0).
  { pose proof (hd_rev_elem l pre) as E. rewrite elem_of_cons, !elem_of_app in *. tauto. }
  unfold dll_extract. apply Nat.eqb_neq in He0, Hn0, Hp0. rewrite (Inv_l0 _ _ _ _ HI Hl), He0. cbn [orb].
  rewrite (rd_Ok _ _ _ L2). bind. rewrite (rd_Ok _ _ _ L3). bind. rewrite (get_sz_Ok _ _ _ _ HI Hl). bind.
  replace (Z.of_nat (length (pre ++ [e] ++ post)) =? 0)%Z with false
    by (symmetry; apply Z.eqb_neq; rewrite !app_length; simpl; lia).
  rewrite Hn0, Hp0. cbn [orb]. rewrite wr_Ok by isSome. bind.
  destruct L6 as [L6 _]. destruct L7 as [L7 _]. simpl in L6, L7.
  rewrite (rd_Ok _ _ _ L7). bind. rewrite wr_Ok by isSome. bind. rewrite wr_Ok by isSome. bind. rewrite wr_Ok by isSome. bind.
  destruct (removed1 s A l pre e post false (<[e:=0]> (<[hd l (rev pre):=hd l post]> (nx s)))
    (<[e:=0]> (<[hd l post:=hd l (rev pre)]> (pv s))) (worn A) HI Hl) as (s2 & s3 & E2 & E3 & HI').
  - apply links_updn; [|done]. by apply links_updp.
  - intros y Hy. isSome.
  - intros y Hy. isSome.
  - simplify_eq/=. rewrite E3. bind. exists s3. split; [|done]. do 2 f_equal.
    change (pre ++ e :: post) with (pre ++ [e] ++ post) in Hnd.
    rewrite (hd_ne _ _ e _ _ Hnd). by destruct post.
Qed.

(** ** Ranges *)

Lemma Inv_nz s A l xs x : Inv s A -> lists A !! l = Some xs -> x ∈ l :: xs -> (x =? 0) = false.
Proof. intros HI Hl Hx. apply Nat.eqb_neq. by eapply Inv_live. Qed.

(** Successor of a node in a list. *)
Lemma Inv_next s A l xs x : Inv s A -> lists A !! l = Some xs -> x ∈ l :: xs ->
  exists y, nx s !! x = Some y /\ y ∈ l :: xs.
Proof.
  intros HI Hl Hx. destruct (Inv_ring _ _ _ _ HI Hl) as [Hpath _].
  destruct (ring_succ _ _ _ _ _ Hpath Hx) as (c & d & Heq & Hn). exists (hd l d). split; [done|].
  destruct d as [|d0 d]; simpl; [left|]. rewrite Heq. apply elem_of_app. right. right. left.
Qed.

Lemma Inv_prev s A l xs x : Inv s A -> sound A l xs -> x ∈ l :: xs ->
  exists y, pv s !! x = Some y /\ y ∈ l :: xs.
Proof.
  intros HI [Hl Hw] Hx. destruct HI as (_ & _ & Ha & (_ & pr & Hpr & Hag) & _).
  assert (Hpath : path pr (l :: rev xs) l) by (apply Hpr; by rewrite lookup_fmap, Hl).
  destruct (ring_succ _ _ _ x _ Hpath) as (c & d & Heq & Hn).
  { rewrite elem_of_cons, elem_of_rev. by rewrite elem_of_cons in Hx. }
  exists (hd l d). split.
  - rewrite <- Hn. apply Hag. eapply not_old; [done..|by right].
  - rewrite elem_of_cons, <- elem_of_rev, <- elem_of_cons. destruct d as [|d0 d]; simpl; [left|].
    rewrite Heq. apply elem_of_app. right. right. left.
Qed.

Lemma run_facts ls l pre run post b e : apart ls -> ls !! l = Some (pre ++ run ++ post) ->
  head run = Some b -> last run = Some e ->
  b ∈ run /\ e ∈ run /\ (forall x, x ∈ run -> x ∈ l :: pre ++ run ++ post) /\
  hd l post ∈ l :: pre ++ run ++ post /\ hd l (rev pre) ∈ l :: pre ++ run ++ post /\
  hd l post ∉ run /\ hd l (rev pre) ∉ run /\ l ∉ run.
Proof.
  intros Ha Hl Hb He. destruct (apart_unlink _ _ _ _ _ Ha Hl) as [Ha' [Hnr Hlo]].
  assert (Hno : forall x, x ∈ l :: pre ++ post -> x ∉ run).
  { intros x Hx Hr. apply (Hlo x Hr). exists l, (pre ++ post). by rewrite lookup_insert. }
  pose proof (hd_elem l post) as E1. pose proof (hd_rev_elem l pre) as E2.
  split_and!.
  - destruct run; simplify_eq/=; left.
  - by apply last_Some_elem_of.
  - intros x Hx. right. rewrite !elem_of_app. auto.
  - rewrite elem_of_cons, !elem_of_app in *. tauto.
  - rewrite elem_of_cons, !elem_of_app in *. tauto.
  - apply Hno. rewrite elem_of_cons, !elem_of_app in *. tauto.
  - apply Hno. rewrite elem_of_cons, !elem_of_app in *. tauto.
  - apply Hno. left.
Qed.

Lemma step_range s A l b pre run post fr a : Inv s A -> sound A l (pre ++ run ++ post) ->
  head run = Some b -> al !! l = Some a ->
  exists s', dll_remove_range ndebug fr s l b (hd l post) = Ok (s', hd 0 post) /\
    Inv s' (set_list A l (pre ++ post) (fr && a) run).
Proof.
  intros HI HS Hb Hf. pose proof HS as [Hl Hw]. pose proof HI as (Hd & Hal & Ha & Hlk & H1 & H2).
  destruct (last run) as [e|] eqn:He; [|apply last_None in He; by subst].
  destruct (run_facts _ _ _ _ _ _ _ Ha Hl Hb He) as (Fb & Fe & Fin & Fn & Fp & Fnr & Fpr & Flr).
  destruct (links_unlink _ _ _ _ _ pre run post b e Ha Hlk Hl (or_intror Hw) Hb He) as (L1 & L2 & L3 & L4 & L5 & L6 & L7).
  destruct (apart_unlink _ _ _ _ _ Ha Hl) as [Ha' [Hnr Hlo]].
  destruct (Inv_ring _ _ _ _ HI Hl) as [_ Hnd].
  destruct (Inv_next _ _ _ _ b HI Hl (Fin _ Fb)) as (bn & Ebn & Ibn).
  destruct (Inv_next _ _ _ _ _ HI Hl Fn) as (en & Een & Ien).
  unfold dll_remove_range.
  rewrite (Inv_l0 _ _ _ _ HI Hl), (Inv_nz _ _ _ _ b HI Hl (Fin _ Fb)), (Inv_nz _ _ _ _ _ HI Hl Fn). cbn [orb].
  rewrite (rd_Ok _ _ _ Ebn). bind. rewrite (rd_Ok _ _ _ L3). bind. rewrite (rd_Ok _ _ _ Een). bind.
  rewrite (rd_Ok _ _ _ L4). bind. rewrite (get_sz_Ok _ _ _ _ HI Hl). bind.
  rewrite (Inv_nz _ _ _ _ _ HI Hl Ibn), (Inv_nz _ _ _ _ _ HI Hl Fp), (Inv_nz _ _ _ _ _ HI Hl Ien),
    (Inv_nz _ _ _ _ e HI Hl (Fin _ Fe)). cbn [orb].
  assert (Hlen : length run <= length (pre ++ run ++ post)) by (rewrite !app_length; lia).
  assert (Hlen1 : 1 <= length run) by (destruct run; [done|simpl; lia]).
  replace (Z.of_nat (length (pre ++ run ++ post)) =? 0)%Z with false by (symmetry; apply Z.eqb_neq; lia).
  destruct (Nat.eqb_spec b (hd l post)) as [->|_]; [done|].
  rewrite (rd_Ok _ _ _ L2). bind. rewrite wr_Ok by isSome. bind.
  pose proof (path_last_lookup _ _ _ _ (last_rev _ _ Hb) L7) as Lb.
  rewrite (rd_Ok _ _ _ Lb). bind. rewrite wr_Ok by isSome. bind. rewrite wr_Ok by isSome. bind.
  unfold has_alloc. cbn [DllModel.al with_links]. rewrite Hal, Hf. bind.
  assert (Hob : ~ owned (<[l:=pre ++ post]> (lists A)) b) by (by apply Hlo).
  assert (Hoe : ~ owned (<[l:=pre ++ post]> (lists A)) e) by (by apply Hlo).
  assert (Hret : (if hd l post =? l then 0 else hd l post) = hd 0 post).
  { rewrite (hd_ne _ _ e _ _ Hnd). by destruct post. }
  destruct (H1 _ _ Hl) as (Hs & _ & _ & _ & Hv).
  pose proof (path_size _ _ _ Hnr L6) as Hsz.
  destruct (fr && a) eqn:Hfa.
  - rewrite (free_range_Ok _ e run _ _ b 1%Z (hd l post)); [|done|done|done|done| |lia|lia].
    2:{ intros x Hx. cbn [dat with_links]. rewrite Hd. apply Hv. rewrite !elem_of_app. auto. }
    bind. rewrite dassert_true by (apply Z.leb_le; lia). bind.
    unfold add_sz, get_sz. cbn [nx pv dat sz DllModel.al with_links]. rewrite Hs. bind.
    eexists. split; [by rewrite Hret|]. rewrite Hd.
    replace (Z.of_nat (length (pre ++ run ++ post)) + - (1 + Z.of_nat (length run) - 1))%Z
      with (Z.of_nat (length (pre ++ run ++ post)) - Z.of_nat (length run))%Z by lia.
    apply (Inv_removed s A l pre run post true); try done.
    + apply links_del; [|done]. by apply links_updp.
    + intros x v Hx Hvx. destruct (H2 _ _ Hvx) as (? & ? & _).
      split; apply foldr_del_is_Some; isSome.
  - unfold len, get_sz. cbn [nx pv dat sz DllModel.al with_links]. rewrite Hs. bind.
    rewrite (len_loop_Ok _ _ (hd l post) e run); [|done|done|done|done|lia|right; lia]. bind.
    rewrite dassert_true by (apply negb_true_iff, Nat.eqb_neq; intros ->; done). bind.
    rewrite wr_Ok by isSome. bind. rewrite dassert_true by (apply Z.leb_le; lia). bind.
    unfold add_sz, get_sz. cbn [nx pv dat sz DllModel.al with_links]. rewrite Hs. bind.
    eexists. split; [by rewrite Hret|]. rewrite Hd.
    replace (Z.of_nat (length (pre ++ run ++ post)) + - (1 + Z.of_nat (length run) - 1))%Z
      with (Z.of_nat (length (pre ++ run ++ post)) - Z.of_nat (length run))%Z by lia.
    apply (Inv_removed s A l pre run post false); try done.
    + apply links_updn; [|done]. by apply links_updp.
    + intros x v Hx Hvx. destruct (H2 _ _ Hvx) as (? & ? & _). split; isSome.
Qed.

Lemma step_range_one s A l b pre post fr a : Inv s A -> sound A l (pre ++ [b] ++ post) -> al !! l = Some a ->
  exists s', dll_remove_range ndebug fr s l b b =
      Ok (s', if fr : bool then match post with [] => 0 | _ => b end else hd 0 post) /\
    Inv s' (set_list A l (pre ++ post) (fr && a) [b]).
Proof.
  intros HI HS Hf. pose proof HS as [Hl Hw].
  assert (Hin : b ∈ l :: pre ++ [b] ++ post) by (right; rewrite !elem_of_app; right; left; left).
  destruct (Inv_next _ _ _ _ b HI Hl Hin) as (bn & Ebn & Ibn).
  destruct (Inv_prev _ _ _ _ b HI HS Hin) as (bp & Ebp & Ibp).
  unfold dll_remove_range. rewrite (Inv_l0 _ _ _ _ HI Hl), !(Inv_nz _ _ _ _ _ HI Hl Hin). cbn [orb].
  rewrite (rd_Ok _ _ _ Ebn). bind. rewrite (rd_Ok _ _ _ Ebp). bind. rewrite (get_sz_Ok _ _ _ _ HI Hl). bind.
  rewrite !(Inv_nz _ _ _ _ _ HI Hl Ibn), !(Inv_nz _ _ _ _ _ HI Hl Ibp), Nat.eqb_refl. cbn [orb].
  replace (Z.of_nat (length (pre ++ [b] ++ post)) =? 0)%Z with false
    by (symmetry; apply Z.eqb_neq; rewrite !app_length; simpl; lia).
  destruct fr.
  - destruct (step_erase s A l b pre post a HI HS Hf) as (s' & -> & HI'). eauto.
  - destruct (step_extract s A l b pre post HI HS) as (s' & -> & HI'). eauto.
Qed.

(** ** Splicing *)

(** The state after a run moved from one list to another. *)
Lemma splice_Inv s A pl cl pre run post u v n3 p3 : Inv s A ->
  lists A !! cl = Some (pre ++ run ++ post) ->
  <[cl:=pre ++ post]> (lists A) !! pl = Some (u ++ v) ->
  links n3 p3 (<[pl:=u ++ run ++ v]> (<[cl:=pre ++ post]> (lists A))) (worn A) ->
  (forall x, is_Some (nx s !! x) -> is_Some (n3 !! x)) -> (forall x, is_Some (pv s !! x) -> is_Some (p3 !! x)) ->
  exists sz', (if pl =? cl then Ok (with_links s n3 p3)
     else s2 ← add_sz (with_links s n3 p3) pl (Z.of_nat (length run)); add_sz s2 cl (- Z.of_nat (length run)))
     = Ok (DMem n3 p3 (dat s) sz' (DllModel.al s)) /\
   Inv (DMem n3 p3 (dat s) sz' (DllModel.al s))
     (View (<[pl:=u ++ run ++ v]> (<[cl:=pre ++ post]> (lists A))) (vals A) (worn A)).
Proof.
  intros HI Hcl Hpl Hlk Hn Hp. pose proof HI as (Hd & Hal & Ha & _ & H1 & H2).
  destruct (apart_unlink _ _ _ _ _ Ha Hcl) as [Ha' Hlo].
  pose proof (apart_link _ _ _ _ _ Ha' Hpl Hlo) as Ha''.
  destruct (H1 _ _ Hcl) as (Sc & Ac & Vc & Zc & Lc).
  assert (Hpos : forall l xs, <[pl:=u ++ run ++ v]> (<[cl:=pre ++ post]> (lists A)) !! l = Some xs ->
    is_Some (al !! l) /\ vals A !! l = None /\ l <> 0 /\ forall x, x ∈ xs -> is_Some (vals A !! x)).
  { assert (Hc : forall l xs, <[cl:=pre ++ post]> (lists A) !! l = Some xs ->
      is_Some (al !! l) /\ vals A !! l = None /\ l <> 0 /\ forall x, x ∈ xs -> is_Some (vals A !! x)).
    { intros l xs [[<- <-]|[Hne Hl]]%lookup_insert_Some.
      - split_and!; try done. intros x Hx. apply Lc. rewrite !elem_of_app in *. tauto.
      - by destruct (H1 _ _ Hl) as (_ & ? & ? & ? & ?). }
    intros l xs [[<- <-]|[Hne Hl]]%lookup_insert_Some; [|by apply Hc].
    destruct (Hc _ _ Hpl) as (? & ? & ? & Hx). split_and!; try done.
    intros x. rewrite !elem_of_app. intros [E|[E|E]]; [|apply Lc; rewrite !elem_of_app; auto|];
      apply Hx; rewrite elem_of_app; auto. }
  assert (Hfin : forall sz', (forall l xs, <[pl:=u ++ run ++ v]> (<[cl:=pre ++ post]> (lists A)) !! l = Some xs ->
      sz' !! l = Some (Z.of_nat (length xs))) ->
    Inv (DMem n3 p3 (dat s) sz' (DllModel.al s))
     (View (<[pl:=u ++ run ++ v]> (<[cl:=pre ++ post]> (lists A))) (vals A) (worn A))).
  { intros sz' Hsz. split_and!; cbn [nx pv dat sz DllModel.al lists vals worn]; try done.
    - intros l xs Hl. destruct (Hpos _ _ Hl) as (? & ? & ? & ?). split_and!; auto.
    - intros x w Hx. destruct (H2 _ _ Hx) as (? & ? & ?). auto. }
  destruct (Nat.eqb_spec pl cl) as [->|Hne].
  - exists (sz s). split; [done|]. apply Hfin. intros l xs [[<- <-]|[Hne Hl]]%lookup_insert_Some.
    + rewrite Sc. do 2 f_equal. rewrite lookup_insert in Hpl. simplify_eq.
      rewrite !app_length. apply (f_equal length) in Hpl. rewrite !app_length in Hpl. lia.
    + rewrite lookup_insert_ne in Hl by done. by destruct (H1 _ _ Hl).
  - rewrite lookup_insert_ne in Hpl by done. destruct (H1 _ _ Hpl) as (Sp & _).
    unfold add_sz, get_sz. cbn [nx pv dat sz DllModel.al with_links]. rewrite Sp. bind.
    cbn [nx pv dat sz DllModel.al]. rewrite lookup_insert_ne by done. rewrite Sc. bind.
    eexists. split; [done|]. apply Hfin. intros l xs [[<- <-]|[Hn1 Hl]]%lookup_insert_Some.
    + rewrite lookup_insert_ne by done. rewrite lookup_insert. f_equal. rewrite !app_length. lia.
    + apply lookup_insert_Some in Hl as [[<- <-]|[Hn2 Hl]].
      * rewrite lookup_insert. f_equal. rewrite !app_length. lia.
      * rewrite !lookup_insert_ne by done. by destruct (H1 _ _ Hl).
Qed.

(** Splicing in front of the element after the run changes nothing. *)
Lemma moved_same A pl pos cl pre run post A' : apart (lists A) -> moved A pl pos cl pre run post A' ->
  pos = hd cl post -> A' = A.
Proof.
  intros Ha (Wp & Wc & u & v & Hcl & Hpl & -> & ->) Heq.
  destruct (apart_unlink _ _ _ _ _ Ha Hcl) as [[A1 A2] _].
  assert (Hpc : pl = cl).
  { destruct (decide (pl = cl)) as [|Hne]; [done|exfalso].
    eapply (A2 pl cl _ (pre ++ post) (hd pl v) Hpl); [by rewrite lookup_insert|done| |].
    - pose proof (hd_elem pl v). rewrite elem_of_cons, elem_of_app in *. tauto.
    - rewrite Heq. pose proof (hd_elem cl post). rewrite elem_of_cons, elem_of_app in *. tauto. }
  subst pl. pose proof (A1 _ _ Hpl) as Hnd. rewrite lookup_insert in Hpl. simplify_eq.
  assert (u = pre /\ v = post) as [-> ->].
  { destruct v as [|c v], post as [|d post]; simpl in Heq.
    - rewrite !app_nil_r in *. done.
    - subst. exfalso. apply NoDup_cons in Hnd as [Hn _]. apply Hn. rewrite <- Hpl. apply elem_of_app. right. left.
    - subst. exfalso. apply NoDup_cons in Hnd as [Hn _]. apply Hn. apply elem_of_app. right. left.
    - subst. apply NoDup_cons in Hnd as [_ Hnd]. by destruct (nodup_split d _ _ _ _ Hnd (eq_sym Hpl)) as [-> ->]. }
  rewrite insert_insert, insert_id by done. by destruct A.
Qed.

Lemma splice_core s A pl pos cl pre run post A' b e : Inv s A -> moved A pl pos cl pre run post A' ->
  head run = Some b -> last run = Some e ->
  exists pp n3 p3,
    let p1 := <[hd cl post:=hd cl (rev pre)]> (pv s) in
    let n1 := <[hd cl (rev pre):=hd cl post]> (nx s) in
    let n2 := <[e:=pos]> n1 in let p2 := <[b:=pp]> p1 in
    p1 !! pos = Some pp /\ p2 !! pos = Some pp /\ n3 = <[pp:=b]> n2 /\ p3 = <[pos:=e]> p2 /\
    is_Some (n2 !! pp) /\ is_Some (p2 !! pos) /\ path n3 run pos /\
    exists sz', (if pl =? cl then Ok (with_links s n3 p3)
       else s2 ← add_sz (with_links s n3 p3) pl (Z.of_nat (length run)); add_sz s2 cl (- Z.of_nat (length run)))
       = Ok (DMem n3 p3 (dat s) sz' (DllModel.al s)) /\
     Inv (DMem n3 p3 (dat s) sz' (DllModel.al s)) A'.
Proof.
  intros HI (Wp & Wc & u & v & Hcl & Hpl & -> & ->) Hb He.
  pose proof HI as (Hd & Hal & Ha & Hlk & H1 & H2).
  destruct (links_unlink _ _ _ _ _ pre run post b e Ha Hlk Hcl (or_intror Wc) Hb He) as (L1 & L2 & L3 & L4 & L5 & L6 & L7).
  destruct (apart_unlink _ _ _ _ _ Ha Hcl) as [Ha' Hlo].
  destruct (run_facts _ _ _ _ _ _ _ Ha Hcl Hb He) as (Fb & Fe & _).
  destruct (links_back _ _ _ _ pl u v Ha' L5 Hpl (or_intror Wp)) as [B1 B2].
  assert (Hown : owned (<[cl:=pre ++ post]> (lists A)) (hd pl v)).
  { exists pl, (u ++ v). split; [done|]. pose proof (hd_elem pl v). rewrite elem_of_cons, elem_of_app in *. tauto. }
  assert (Hown' : owned (<[cl:=pre ++ post]> (lists A)) (hd pl (rev u))).
  { exists pl, (u ++ v). split; [done|]. pose proof (hd_rev_elem pl u). rewrite elem_of_cons, elem_of_app in *. tauto. }
  assert (Hnb : b <> hd pl v) by (intros ->; by apply (proj2 Hlo (hd pl v))).
  eexists _, _, _. cbv zeta. split_and!; [exact B2| |done|done| | | |].
  - by rewrite lookup_insert_ne.
  - rewrite lookup_insert_is_Some'. right. eauto.
  - rewrite lookup_insert_ne by done. eauto.
  - apply path_upd; [intros Hr; by apply (proj2 Hlo _ Hr)|]. eapply path_last; [apply Hlo|done|exact L6].
  - apply (splice_Inv s A pl cl pre run post u v); try done.
    + eapply (links_link _ _ _ (worn A)); try done; [by left|by right].
    + intros x Hx. isSome.
    + intros x Hx. isSome.
Qed.

Lemma moved_facts A pl pos cl pre run post A' b : apart (lists A) -> moved A pl pos cl pre run post A' ->
  b ∈ run -> pos <> b /\ b <> cl /\ b <> hd cl post /\
  exists xs, lists A !! pl = Some xs /\ pl ∉ worn A.
Proof.
  intros Ha (Wp & Wc & u & v & Hcl & Hpl & -> & ->) Hb.
  destruct (apart_unlink _ _ _ _ _ Ha Hcl) as [Ha' [_ Hlo]].
  assert (Hno : forall x l xs, <[cl:=pre ++ post]> (lists A) !! l = Some xs -> x ∈ l :: xs -> x <> b).
  { intros x l xs Hl Hx ->. apply (Hlo b Hb). by exists l, xs. }
  split_and!.
  - eapply Hno; [exact Hpl|]. pose proof (hd_elem pl v). rewrite elem_of_cons, elem_of_app in *. tauto.
  - intros Heq. eapply (Hno cl cl); [by rewrite lookup_insert|left|done].
  - intros Heq. eapply (Hno (hd cl post) cl); [by rewrite lookup_insert| |done].
    pose proof (hd_elem cl post). rewrite elem_of_cons, elem_of_app in *. tauto.
  - destruct (decide (pl = cl)) as [->|Hne]; [eauto|]. rewrite lookup_insert_ne in Hpl by done. eauto.
Qed.

Lemma moved_nz s A pl pos cl pre run post A' : Inv s A -> moved A pl pos cl pre run post A' ->
  (pos =? 0) = false /\ (pl =? 0) = false /\ (cl =? 0) = false /\ (hd cl post =? 0) = false /\
  (forall x, x ∈ run -> (x =? 0) = false).
Proof.
  intros HI (Wp & Wc & u & v & Hcl & Hpl & -> & ->).
  assert (Hin : forall x, x ∈ cl :: pre ++ run ++ post -> (x =? 0) = false) by (intros x Hx; by eapply Inv_nz).
  assert (Hin' : forall x, x ∈ pl :: u ++ v -> (x =? 0) = false).
  { destruct (decide (pl = cl)) as [->|Hne].
    - rewrite lookup_insert in Hpl. simplify_eq. intros x Hx. apply Hin. rewrite <- Hpl in Hx.
      rewrite elem_of_cons, !elem_of_app in *. tauto.
    - rewrite lookup_insert_ne in Hpl by done. intros x Hx. by eapply Inv_nz. }
  split_and!.
  - apply Hin'. pose proof (hd_elem pl v). rewrite elem_of_cons, elem_of_app in *. tauto.
  - apply Hin'. left.
  - apply Hin. left.
  - apply Hin. pose proof (hd_elem cl post). rewrite elem_of_cons, !elem_of_app in *. tauto.
  - intros x Hx. apply Hin. rewrite elem_of_cons, !elem_of_app. auto.
Qed.

Lemma step_splice s A pl pos cl pre e post A' : Inv s A -> moved A pl pos cl pre [e] post A' ->
  exists s', dll_splice s pl pos cl e = Ok (s', OK) /\ Inv s' A'.
Proof.
  intros HI Hm. destruct (moved_nz _ _ _ _ _ _ _ _ _ HI Hm) as (Zp & Zpl & Zcl & Zn & Zr).
  pose proof HI as (Hd & Hal & Ha & Hlk & H1 & H2).
  destruct (moved_facts _ _ _ _ _ _ _ _ e Ha Hm ltac:(left)) as (N1 & N2 & N3 & xs & Hpl & _).
  destruct (splice_core s A pl pos cl pre [e] post A' e e HI Hm eq_refl eq_refl)
    as (pp & n3 & p3 & R1 & R2 & -> & -> & R3 & R4 & _ & sz' & Hz & HI').
  pose proof Hm as (Wp & Wc & u & v & Hcl & _).
  destruct (links_unlink _ _ _ _ _ pre [e] post e e Ha Hlk Hcl (or_intror Wc) eq_refl eq_refl)
    as (L1 & L2 & L3 & L4 & _ & _ & L7).
  unfold dll_splice. rewrite (Zr e ltac:(left)), Zp, Zpl, Zcl. cbn [orb].
  destruct (Nat.eqb_spec pos e) as [|_]; [done|]. rewrite (rd_Ok _ _ _ L2). bind.
  destruct (Nat.eqb_spec e cl) as [|_]; [done|]. rewrite orb_false_r.
  destruct (Nat.eqb_spec (hd cl post) pos) as [Heq|_].
  { exists s. split; [done|]. by rewrite (moved_same _ _ _ _ _ _ _ _ Ha Hm). }
  rewrite (rd_Ok _ _ _ L3). bind. rewrite wr_Ok by isSome. bind.
  destruct L7 as [L7 _]. simpl in L7. rewrite (rd_Ok _ _ _ L7). bind. rewrite wr_Ok by isSome. bind.
  rewrite (rd_Ok _ _ _ R1). bind. rewrite wr_Ok by isSome. bind. rewrite wr_Ok by isSome. bind.
  rewrite (rd_Ok _ _ _ R2). bind. rewrite (wr_Ok _ _ _ R3). bind. rewrite (wr_Ok _ _ _ R4). bind.
  eexists. split; [|exact HI']. destruct (pl =? cl); [by simplify_eq|].
  change (Z.of_nat (length [e])) with 1%Z in Hz.
  destruct (add_sz _ pl 1) as [s2| |]; [|done..]. revert Hz. bind. change (- (1))%Z with (-1)%Z. by intros ->.
Qed.

Lemma step_splice_self s A pl cl e xs ys : Inv s A -> has A pl xs -> has A cl ys -> e ∈ ys ->
  dll_splice s pl e cl e = Ok (s, OK).
Proof.
  intros HI Hpl Hcl He. unfold dll_splice.
  rewrite (Inv_l0 _ _ _ _ HI Hpl), (Inv_l0 _ _ _ _ HI Hcl), (Inv_nz _ _ _ _ e HI Hcl) by (by right).
  cbn [orb]. by rewrite Nat.eqb_refl.
Qed.

Lemma step_splice_range s A pl pos cl b pre run post A' : Inv s A -> moved A pl pos cl pre run post A' ->
  head run = Some b ->
  pl = cl \/ ndebug = true \/ (exists xs, has A pl xs /\ length run <= S (length xs)) ->
  exists s', dll_splice_range ndebug s pl pos cl b (hd cl post) = Ok (s', OK) /\ Inv s' A'.
Proof.
  intros HI Hm Hb Hnd. destruct (moved_nz _ _ _ _ _ _ _ _ _ HI Hm) as (Zp & Zpl & Zcl & Zn & Zr).
  pose proof HI as (Hd & Hal & Ha & Hlk & H1 & H2).
  destruct (last run) as [e|] eqn:He; [|apply last_None in He; by subst].
  pose proof Hm as (Wp & Wc & u & v & Hcl & Hplu & _).
  destruct (run_facts _ _ _ _ _ _ _ Ha Hcl Hb He) as (Fb & Fe & _).
  destruct (moved_facts _ _ _ _ _ _ _ _ b Ha Hm Fb) as (N1 & N2 & N3 & xs & Hpl & _).
  destruct (moved_facts _ _ _ _ _ _ _ _ e Ha Hm Fe) as (_ & N4 & _).
  destruct (splice_core s A pl pos cl pre run post A' b e HI Hm Hb He)
    as (pp & n3 & p3 & R1 & R2 & -> & -> & R3 & R4 & Rp & sz' & Hz & HI').
  destruct (links_unlink _ _ _ _ _ pre run post b e Ha Hlk Hcl (or_intror Wc) Hb He)
    as (L1 & L2 & L3 & L4 & _ & _ & L7).
  destruct (apart_unlink _ _ _ _ _ Ha Hcl) as [_ [Hnr _]].
  unfold dll_splice_range. rewrite (Zr b Fb), Zn, Zp, Zpl, Zcl. cbn [orb].
  destruct (Nat.eqb_spec pos b) as [|_]; [done|].
  destruct (Nat.eqb_spec pos (hd cl post)) as [Heq|_].
  { exists s. split; [done|]. by rewrite (moved_same _ _ _ _ _ _ _ _ Ha Hm). }
  destruct (Nat.eqb_spec b (hd cl post)) as [|_]; [done|].
  destruct (Nat.eqb_spec b cl) as [|_]; [done|]. cbn [orb].
  rewrite (rd_Ok _ _ _ L4). bind. destruct (Nat.eqb_spec e cl) as [|_]; [done|].
  rewrite (rd_Ok _ _ _ L2). bind. rewrite (rd_Ok _ _ _ L3). bind. rewrite wr_Ok by isSome. bind.
  pose proof (path_last_lookup _ _ _ _ (last_rev _ _ Hb) L7) as Lb.
  rewrite (rd_Ok _ _ _ Lb). bind. rewrite wr_Ok by isSome. bind.
  rewrite (rd_Ok _ _ _ R1). bind. rewrite wr_Ok by isSome. bind. rewrite wr_Ok by isSome. bind.
  rewrite (rd_Ok _ _ _ R2). bind. rewrite (wr_Ok _ _ _ R3). bind. rewrite (wr_Ok _ _ _ R4). bind.
  eexists. split; [|exact HI']. destruct (Nat.eqb_spec pl cl) as [Hpc|Hpc]; [by simplify_eq|].
  assert (G : forall n p l, get_sz (with_links s n p) l = get_sz s l) by done.
  unfold len. rewrite !G, (get_sz_Ok _ _ _ _ HI Hpl), (get_sz_Ok _ _ _ _ HI Hcl). bind. cbn [nx with_links].
  pose proof (path_size _ _ _ Hnr Rp) as Hsz.
  rewrite (len_loop_Ok _ _ pos e run); [|done|done|done|done|lia|].
  2:{ destruct Hnd as [|[->|(xs' & Hx & Hle)]]; [done|by left|right]. unfold has in Hx. simplify_eq. lia. }
  bind.
  replace (1 + Z.of_nat (length run) - 1)%Z with (Z.of_nat (length run)) by lia.
  rewrite dassert_true by (apply Z.leb_le; rewrite !app_length; lia). bind.
  destruct (add_sz _ pl _) as [s2| |]; [|done..]. revert Hz. bind. by intros ->.
Qed.

Lemma step_splice_range_self s A pl pos cl b e xs ys : Inv s A -> has A pl xs -> has A cl ys -> b ∈ ys ->
  e ∈ cl :: ys -> pos = b \/ pos = e \/ b = e -> pos ∈ pl :: xs ->
  dll_splice_range ndebug s pl pos cl b e = Ok (s, OK).
Proof.
  intros HI Hpl Hcl Hb He Hor Hpos. unfold dll_splice_range.
  rewrite (Inv_l0 _ _ _ _ HI Hpl), (Inv_l0 _ _ _ _ HI Hcl), (Inv_nz _ _ _ _ b HI Hcl) by (by right).
  rewrite (Inv_nz _ _ _ _ e HI Hcl He), (Inv_nz _ _ _ _ pos HI Hpl Hpos). cbn [orb].
  destruct Hor as [->|[->| ->]]; rewrite Nat.eqb_refl; rewrite ?orb_true_r; done.
Qed.

(** ** Clearing, reading *)

Definition cleared A l fr xs : view V :=
  let A' := set_list A l [] fr xs in match xs with [] => A' | _ => wear A' l end.

Lemma cleared_cons A l x xs fr : cleared (wear (set_list A l xs fr [x]) l) l fr xs = cleared A l fr (x :: xs).
Proof.
  assert (E : {[l]} ∪ ({[l]} ∪ worn A) = {[l]} ∪ worn A) by set_solver.
  unfold cleared, wear, set_list. cbn [lists vals worn]. destruct xs as [|y xs]; cbn [lists vals worn].
  - rewrite insert_insert. f_equal. by destruct fr.
  - rewrite insert_insert, E. f_equal. destruct fr; [|done].
    by rewrite (foldr_delete_cons (vals A) x (y :: xs)).
Qed.

Lemma clear_loop_Ok l fn fr : al !! l = Some fr -> forall xs fuel s A, Inv s A -> lists A !! l = Some xs ->
  length xs <= fuel ->
  exists s', clear_loop fuel s l fn =
      Ok (s', if fn then map (fun x => (x, vals A !! x)) xs else []) /\
    Inv s' (cleared A l fr xs).
Proof.
  intros Hal. induction xs as [|x xs IH]; intros fuel s A HI Hl Hf.
  - exists s. split.
    + destruct fuel; cbn [clear_loop]; rewrite (get_sz_Ok _ _ _ _ HI Hl); bind; by destruct fn.
    + unfold cleared, set_list. simpl. rewrite insert_id by done.
      replace (if fr then vals A else vals A) with (vals A) by (by destruct fr). by destruct A.
  - destruct fuel as [|fuel]; [simpl in Hf; lia|].
    destruct (pop_front_Ok s A l x xs fr HI Hl) as (s1 & s2 & Hp & Hd1 & Hal1 & Hfr & HI2).
    destruct (IH fuel s2 _ HI2) as (s3 & Hc & HI3).
    { unfold set_list, wear. cbn [lists]. by rewrite lookup_insert. }
    { simpl in Hf. lia. }
    exists s3. rewrite cleared_cons in HI3. split; [|done].
    cbn [clear_loop]. rewrite (get_sz_Ok _ _ _ _ HI Hl). bind.
    destruct (Z.eqb_spec (Z.of_nat (length (x :: xs))) 0) as [Hz|_]; [simpl in Hz; lia|].
    rewrite Hp. bind. unfold has_alloc. rewrite Hal1, Hal. bind. rewrite Hfr. bind. rewrite Hc. bind.
    do 2 f_equal. rewrite Hd1.
    destruct fn; [|done]. cbn [map]. f_equal. apply map_ext_in. intros y Hy.
    apply elem_of_list_In in Hy. f_equal. cbn [set_list wear vals]. destruct fr; [|done].
    cbn [foldr]. rewrite lookup_delete_ne; [done|]. intros <-.
    destruct HI as (_ & _ & [Hn _] & _). specialize (Hn _ _ Hl). apply NoDup_cons in Hn as [_ Hn].
    by apply NoDup_cons in Hn as [Hn _].
Qed.

Lemma step_clear s A l fn xs fr : Inv s A -> has A l xs -> al !! l = Some fr ->
  exists s', dll_clear s l fn = Ok (s', OK, if fn then map (fun x => (x, vals A !! x)) xs else []) /\
    Inv s' (cleared A l fr xs).
Proof.
  intros HI Hl Hal. destruct (Inv_ring _ _ _ _ HI Hl) as [Hp Hnd]. pose proof (path_size _ _ _ Hnd Hp) as Hsz.
  destruct (clear_loop_Ok l fn fr Hal xs (size (nx s)) s A HI Hl) as (s' & Hc & HI'); [simpl in Hsz; lia|].
  unfold dll_clear. rewrite (Inv_l0 _ _ _ _ HI Hl), Hc. bind. eauto.
Qed.

Lemma hd_ret l (xs : list nat) : l ∉ xs -> (if hd l xs =? l then 0 else hd l xs) = hd 0 xs.
Proof.
  intros Hl. destruct xs as [|x xs]; simpl; [by rewrite Nat.eqb_refl|].
  apply not_elem_of_cons in Hl as [Hl _]. by destruct (Nat.eqb_spec x l).
Qed.

Lemma iterate_Ok m (d : gmap nat V) l : l <> 0 -> forall ps fuel, path m (map fst ps) l -> l ∉ map fst ps ->
  Forall (fun p => d !! fst p = Some (snd p) /\ fst p <> 0) ps -> length ps <= fuel ->
  iterate fuel m d l (hd 0 (map fst ps)) = Ok ps.
Proof.
  intros Hl0. induction ps as [|[x v] ps IH]; intros fuel Hp Hl Hf Hn; [by destruct fuel|].
  cbn [map fst] in *. destruct fuel as [|fuel]; [simpl in Hn; lia|].
  apply Forall_cons in Hf as [[Hx Hx0] Hf]. cbn [fst snd] in *. destruct Hp as [Hxm Hp].
  apply not_elem_of_cons in Hl as [_ Hl]. cbn [iterate hd]. apply Nat.eqb_neq in Hx0, Hl0. rewrite Hx0, Hx.
  unfold dll_step_to. rewrite Hl0, Hx0. cbn [orb]. rewrite (rd_Ok _ _ _ Hxm). bind. rewrite hd_ret by done.
  rewrite IH; [done|done|done|done|simpl in Hn; lia].
Qed.

Lemma walk_Ok m (d : gmap nat V) l ps : l <> 0 -> path m (l :: map fst ps) l -> NoDup (l :: map fst ps) ->
  Forall (fun p => d !! fst p = Some (snd p) /\ fst p <> 0) ps ->
  (e ← dll_first m l; iterate (size m) m d l e) = Ok ps.
Proof.
  intros Hl0 Hp Hnd Hf. pose proof (path_size _ _ _ Hnd Hp) as Hsz. destruct Hp as [Hlm Hp].
  apply NoDup_cons in Hnd as [Hl Hnd]. unfold dll_first. pose proof Hl0 as Hl1. apply Nat.eqb_neq in Hl1.
  rewrite Hl1, (rd_Ok _ _ _ Hlm). bind. rewrite hd_ret by done. apply iterate_Ok; try done.
  simpl in Hsz. rewrite map_length in Hsz. lia.
Qed.

Lemma step_iter s A l ps : Inv s A -> has A l (map fst ps) ->
  Forall (fun p => vals A !! fst p = Some (snd p)) ps -> dll_iter s l = Ok ps.
Proof.
  intros HI Hl Hf. destruct (Inv_ring _ _ _ _ HI Hl) as [Hp Hnd].
  pose proof HI as (Hd & _ & _ & _ & H1 & H2). destruct (H1 _ _ Hl) as (_ & _ & _ & Hl0 & _).
  apply walk_Ok; try done.
  eapply Forall_impl; [done|]. intros p Hv. rewrite Hd. split; [done|by destruct (H2 _ _ Hv) as (_ & _ & ?)].
Qed.

(** The back links of a list that is not worn. *)
Lemma Inv_back s A l xs : Inv s A -> sound A l xs -> path (pv s) (l :: rev xs) l /\ NoDup (l :: rev xs).
Proof.
  intros HI [Hl Hw]. pose proof HI as (_ & _ & Ha & (_ & pr & Hpr & Hag) & _).
  assert (Hl' : (@rev nat <$> lists A) !! l = Some (rev xs)) by (by rewrite lookup_fmap, Hl). split.
  - eapply path_ext; [|by apply Hpr]. intros x Hx. apply Hag. eapply not_old; [done|done| |by right].
    rewrite elem_of_cons, elem_of_rev in Hx. by rewrite elem_of_cons.
  - apply apart_rev in Ha as [Ha _]. by apply Ha.
Qed.

Lemma step_riter s A l ps : Inv s A -> sound A l (map fst ps) ->
  Forall (fun p => vals A !! fst p = Some (snd p)) ps -> dll_riter s l = Ok (rev ps).
Proof.
  intros HI Hl Hf. destruct (Inv_back _ _ _ _ HI Hl) as [Hp Hnd]. destruct Hl as [Hl _].
  pose proof HI as (Hd & _ & _ & _ & H1 & H2). destruct (H1 _ _ Hl) as (_ & _ & _ & Hl0 & _).
  apply walk_Ok; [done|by rewrite map_rev..|].
  apply Forall_forall. intros p Hp'. assert (Hp'' : p ∈ ps).
  { apply elem_of_list_In. apply elem_of_list_In in Hp'. by apply in_rev. }
  rewrite Forall_forall in Hf. pose proof (Hf p Hp'') as Hv. rewrite Hd.
  split; [done|by destruct (H2 _ _ Hv) as (_ & _ & ?)].
Qed.

Lemma iter_exists s A l xs : Inv s A -> lists A !! l = Some xs ->
  exists ps, xs = map fst ps /\ Forall (fun p => vals A !! fst p = Some (snd p)) ps.
Proof.
  intros (_ & _ & _ & _ & H1 & _) Hl. destruct (H1 _ _ Hl) as (_ & _ & _ & _ & Hin). clear -Hin.
  induction xs as [|x xs IH]; [by exists []|]. destruct (Hin x) as [v Hv]; [left|].
  destruct IH as (ps & -> & Hf); [intros y Hy; apply Hin; by right|]. exists ((x, v) :: ps).
  split; [done|]. by constructor.
Qed.

Lemma validate_loop_Ok n p z l : forall xs fuel c, path n xs l -> l ∉ xs ->
  (forall x, x ∈ xs -> x <> 0 /\ exists y y', n !! x = Some y /\ p !! x = Some y' /\
     (y =? 0) = false /\ (y' =? 0) = false /\ (y =? x) = false /\ (y' =? x) = false) ->
  length xs <= fuel -> (c + Z.of_nat (length xs) = z)%Z ->
  validate_loop fuel n p z l (hd l xs) c = Ok true.
Proof.
  induction xs as [|x xs IH]; intros fuel c Hp Hl H0 Hf Hc.
  - destruct fuel; cbn [validate_loop hd]; rewrite Nat.eqb_refl; f_equal; apply Z.eqb_eq; simpl in Hc; lia.
  - destruct fuel as [|fuel]; [simpl in Hf; lia|]. apply not_elem_of_cons in Hl as [Hlx Hl].
    destruct Hp as [Hxm Hp]. cbn [validate_loop hd].
    destruct (Nat.eqb_spec x l) as [->|_]; [done|]. destruct (Z.leb_spec z c); [simpl in Hc; lia|].
    destruct (H0 x) as (Hx0 & y & y' & Hy & Hy' & E1 & E2 & E3 & E4); [left|]. apply Nat.eqb_neq in Hx0. rewrite Hx0.
    rewrite (rd_Ok _ _ _ Hy). bind. rewrite (rd_Ok _ _ _ Hy'). bind. rewrite E1, E2, E3, E4. cbn [orb].
    simplify_eq. apply IH; try done; [|simpl in Hf; lia|simpl; lia]. intros y Hy. apply H0. by right.
Qed.

Lemma ring_ne m l xs x y : path m (l :: xs) l -> NoDup (l :: xs) -> x ∈ xs -> m !! x = Some y -> (y =? x) = false.
Proof.
  intros Hp Hnd Hx Hm. apply Nat.eqb_neq. intros ->.
  destruct (elem_of_list_split _ _ Hx) as (a & c & ->).
  change (l :: a ++ x :: c) with ((l :: a) ++ x :: c) in Hp, Hnd.
  apply path_app in Hp as [_ [Hxm _]]. rewrite Hm in Hxm. injection Hxm as Heq.
  apply NoDup_app in Hnd as (N1 & N2 & N3). destruct c as [|y c]; simpl in Heq; subst.
  - apply (N2 l); left.
  - apply NoDup_cons in N3 as [N3 _]. apply N3. left.
Qed.

Lemma step_validate s A l xs : Inv s A -> sound A l xs -> dll_validate s l = Ok true.
Proof.
  intros HI HS. pose proof HS as [Hl Hw].
  destruct (Inv_ring _ _ _ _ HI Hl) as [Hp Hnd]. pose proof (path_size _ _ _ Hnd Hp) as Hsz.
  destruct (Inv_back _ _ _ _ HI HS) as [Hp' Hnd'].
  pose proof Hnd as [Hlx Hnx]%NoDup_cons. pose proof Hp as [Hlm Hpx].
  unfold dll_validate. rewrite (Inv_l0 _ _ _ _ HI Hl), (get_sz_Ok _ _ _ _ HI Hl). bind.
  rewrite (rd_Ok _ _ _ Hlm). bind. apply validate_loop_Ok; try done; [|lia].
  intros x Hx. assert (Hx' : x ∈ l :: xs) by (by right). split; [by eapply Inv_live|].
  destruct (Inv_next _ _ _ _ x HI Hl Hx') as (y & Hy & Iy). destruct (Inv_prev _ _ _ _ x HI HS Hx') as (y' & Hy' & Iy').
  exists y, y'. split_and!; [done|done|by eapply Inv_nz|by eapply Inv_nz|by eapply (ring_ne (nx s) l xs)|].
  eapply (ring_ne (pv s) l (rev xs)); try done. by apply elem_of_rev.
Qed.

(** ** All calls *)

Lemma step_Ok s A o r A' : Inv s A -> call ndebug al A o r A' ->
  exists s', dll_step ndebug s o = Ok (s', r) /\ Inv s' A'.
Proof.
  intros HI Hc. pose proof HI as (_ & _ & _ & _ & HL & _). destruct Hc; cbn [dll_step].
  - eexists. split; [done|]. by apply Inv_new.
  - edestruct step_push_front as (s' & -> & ?); [done..|]. bind. eauto.
  - edestruct step_push_back as (s' & -> & ?); [done..|]. bind. eauto.
  - destruct H1 as [-> | ->]; cbn [dll_step]; erewrite step_push_refused by done; bind; eauto.
  - edestruct step_emplace_front as (s' & -> & ?); [done..|]. bind. eauto.
  - edestruct step_emplace_back as (s' & -> & ?); [done..|]. bind. eauto.
  - destruct H1 as [-> | ->]; cbn [dll_step]; erewrite step_emplace_refused by done; bind; eauto.
  - edestruct step_insert as (s' & -> & ?); [done..|]. bind. eauto.
  - erewrite step_insert_refused by done. bind. eauto.
  - edestruct step_pop_front as (s' & -> & ?); [done..|]. bind. eauto.
  - edestruct step_pop_back as (s' & -> & ?); [done..|]. bind. eauto.
  - destruct (step_pop_empty _ _ _ HI H) as [E1 E2]. destruct H0 as [-> | ->]; cbn [dll_step]; rewrite ?E1, ?E2; bind; eauto.
  - erewrite step_front by done. bind. eauto.
  - erewrite step_back by done. bind. eauto.
  - edestruct step_erase as (s' & -> & ?); [done..|]. bind. eauto.
  - edestruct step_extract as (s' & -> & ?); [done..|]. bind. eauto.
  - edestruct (step_range s A l b pre run post true fr) as (s' & -> & ?); [done..|]. bind. eauto.
  - edestruct (step_range_one s A l b pre post true fr) as (s' & -> & ?); [done..|]. bind. eauto.
  - destruct (HL _ _ (proj1 H)) as (_ & [fr Hfr] & _).
    edestruct (step_range s A l b pre run post false fr) as (s' & -> & ?); [done..|]. bind. eauto.
  - destruct (HL _ _ (proj1 H)) as (_ & [fr Hfr] & _).
    edestruct (step_range_one s A l b pre post false fr) as (s' & -> & ?); [done..|]. bind. eauto.
  - edestruct step_splice as (s' & -> & ?); [done..|]. bind. eauto.
  - erewrite step_splice_self by done. bind. eauto.
  - edestruct step_splice_range as (s' & -> & ?); [done..|]. bind. eauto.
  - erewrite step_splice_range_self by done. bind. eauto.
  - edestruct step_clear as (s' & -> & ?); [done..|]. bind. eauto.
  - erewrite step_iter by done. bind. eauto.
  - erewrite step_riter by done. bind. eauto.
  - unfold dll_size. erewrite Inv_l0, get_sz_Ok by done. bind. eauto.
  - unfold dll_is_empty. erewrite Inv_l0, get_sz_Ok by done. bind. exists s. split; [|done]. do 3 f_equal. by destruct xs.
  - erewrite step_validate by done. bind. eauto.
Qed.

Lemma run_Ok s A os rs A' : Inv s A -> calls ndebug al A os rs A' ->
  exists s', dll_run ndebug s os = Ok (s', rs) /\ Inv s' A'.
Proof.
  intros HI Hc. revert s HI. induction Hc as [A|A o r A1 os rs A2 Hc Hcs IH]; intros s HI; [by exists s|].
  destruct (step_Ok _ _ _ _ _ HI Hc) as (s1 & Hs & HI1). destruct (IH _ HI1) as (s2 & Hr & HI2).
  exists s2. split; [|done]. cbn [dll_run]. rewrite Hs. bind. rewrite Hr. done.
Qed.

Lemma Inv_shows s A : Inv s A -> shows s A.
Proof.
  intros HI l xs Hl. split.
  - unfold dll_size. by rewrite (Inv_l0 _ _ _ _ HI Hl), (get_sz_Ok _ _ _ _ HI Hl).
  - destruct (iter_exists _ _ _ _ HI Hl) as (ps & -> & Hf). exists ps. split_and!; [done|done| |].
    + by apply (step_iter s A l ps).
    + intros Hw. split; [by apply (step_riter s A l ps)|by eapply step_validate].
Qed.

End proofs.

Lemma init_Inv {V} (ls : list (nat * bool)) : (forall l a, (l, a) ∈ ls -> l <> 0) ->
  Inv (V:=V) (list_to_map ls) (dll_init ls) (start ls).
Proof.
  intros H0. unfold dll_init, start.
  assert (Hk : forall l xs, (list_to_map (map (fun x : nat * bool => (x.1, @nil nat)) ls) : fam) !! l = Some xs ->
    xs = [] /\ l <> 0 /\ is_Some ((list_to_map ls : gmap nat bool) !! l) /\
    (list_to_map (map (fun x : nat * bool => (x.1, x.1)) ls) : fld) !! l = Some l /\
    (list_to_map (map (fun x : nat * bool => (x.1, 0%Z)) ls) : gmap nat Z) !! l = Some 0%Z).
  { induction ls as [|[l0 a] ls IH]; simpl; intros l xs; [by rewrite lookup_empty|].
    destruct (decide (l0 = l)) as [->|Hne].
    - rewrite !lookup_insert. intros [= <-]. split_and!; try done. eapply H0. left.
    - rewrite !lookup_insert_ne by done. apply IH. intros l' a' Hin. eapply H0. by right. }
  split_and!; cbn [nx pv dat sz DllModel.al lists vals worn]; try done.
  - split.
    + intros l xs Hl. apply Hk in Hl as (-> & _). apply NoDup_singleton.
    + intros l l' xs xs' x Hl Hl' Hne Hx Hx'. apply Hk in Hl as (-> & _). apply Hk in Hl' as (-> & _).
      apply elem_of_list_singleton in Hx, Hx'. congruence.
  - split.
    + intros l xs Hl. apply Hk in Hl as (-> & _ & _ & Hl & _). simpl. done.
    + eexists. split; [|done]. intros l xs Hl. apply lookup_fmap_Some in Hl as (ys & <- & Hl).
      apply Hk in Hl as (-> & _ & _ & Hl & _). simpl. done.
  - intros l xs Hl. apply Hk in Hl as (-> & Hl0 & Ha & _ & Hs). split_and!; try done.
    by intros x ?%elem_of_nil.
Qed.

Lemma history {V} nd (ls : list (nat * bool)) os rs A : (forall l a, (l, a) ∈ ls -> l <> 0) ->
  calls (V:=V) nd (list_to_map ls) (start ls) os rs A ->
  exists s, dll_run nd (dll_init ls) os = Ok (s, rs) /\ shows s A.
Proof.
  intros H0 Hc. destruct (run_Ok _ _ _ _ _ _ _ (init_Inv ls H0) Hc) as (s & Hr & HI).
  exists s. split; [done|]. by eapply Inv_shows.
Qed.

(** ** Statements per operation *)

Section after.
Context {V : Type} (nd : bool) (ls : list (nat * bool)) (H0 : forall l a, (l, a) ∈ ls -> l <> 0).
Context (os : list (dll_op V)) (rs : list (dll_res V)) (A : view V).
Hypothesis Hc : calls nd (list_to_map ls) (start ls) os rs A.

Lemma after_erase l e pre post fr : sound A l (pre ++ [e] ++ post) -> (list_to_map ls : gmap nat bool) !! l = Some fr ->
  exists s s', dll_run nd (dll_init ls) os = Ok (s, rs) /\
    dll_erase s l e = Ok (s', match post with [] => 0 | _ => e end) /\
    shows s' (set_list A l (pre ++ post) fr [e]).
Proof.
  intros Hl Hfr. destruct (run_Ok _ _ _ _ _ _ _ (init_Inv ls H0) Hc) as (s & Hr & HI).
  destruct (step_erase _ s A l e pre post fr HI Hl Hfr) as (s' & Hs & HI').
  exists s, s'. split_and!; [done|done|]. by eapply Inv_shows.
Qed.

Lemma after_extract l e pre post : sound A l (pre ++ [e] ++ post) ->
  exists s s', dll_run nd (dll_init ls) os = Ok (s, rs) /\
    dll_extract s l e = Ok (s', hd 0 post) /\
    shows s' (set_list A l (pre ++ post) false []).
Proof.
  intros Hl. destruct (run_Ok _ _ _ _ _ _ _ (init_Inv ls H0) Hc) as (s & Hr & HI).
  destruct (step_extract _ s A l e pre post HI Hl) as (s' & Hs & HI').
  exists s, s'. split_and!; [done|done|]. by eapply Inv_shows.
Qed.

Lemma after_remove_range (f : bool) l b pre run post fr : sound A l (pre ++ run ++ post) ->
  head run = Some b -> (list_to_map ls : gmap nat bool) !! l = Some fr ->
  exists s s', dll_run nd (dll_init ls) os = Ok (s, rs) /\
    dll_remove_range nd f s l b (hd l post) = Ok (s', hd 0 post) /\
    shows s' (set_list A l (pre ++ post) (f && fr) run).
Proof.
  intros Hl Hrun Hfr. destruct (run_Ok _ _ _ _ _ _ _ (init_Inv ls H0) Hc) as (s & Hr & HI).
  destruct (step_range nd _ s A l b pre run post f fr HI Hl Hrun Hfr) as (s' & Hs & HI').
  exists s, s'. split_and!; [done|done|]. by eapply Inv_shows.
Qed.

Lemma after_splice pl pos cl pre e post A' : moved A pl pos cl pre [e] post A' ->
  exists s s', dll_run nd (dll_init ls) os = Ok (s, rs) /\
    dll_splice s pl pos cl e = Ok (s', OK) /\ shows s' A'.
Proof.
  intros Hm. destruct (run_Ok _ _ _ _ _ _ _ (init_Inv ls H0) Hc) as (s & Hr & HI).
  destruct (step_splice _ s A pl pos cl pre e post A' HI Hm) as (s' & Hs & HI').
  exists s, s'. split_and!; [done|done|]. by eapply Inv_shows.
Qed.

Lemma after_splice_range pl pos cl b pre run post A' : moved A pl pos cl pre run post A' -> head run = Some b ->
  pl = cl \/ nd = true \/ (exists xs, lists A !! pl = Some xs /\ length run <= S (length xs)) ->
  exists s s', dll_run nd (dll_init ls) os = Ok (s, rs) /\
    dll_splice_range nd s pl pos cl b (hd cl post) = Ok (s', OK) /\ shows s' A'.
Proof.
  intros Hm Hb Ha. destruct (run_Ok _ _ _ _ _ _ _ (init_Inv ls H0) Hc) as (s & Hr & HI).
  destruct (step_splice_range nd _ s A pl pos cl b pre run post A' HI Hm Hb Ha) as (s' & Hs & HI').
  exists s, s'. split_and!; [done|done|]. by eapply Inv_shows.
Qed.

Lemma after_clear l fn xs fr : lists A !! l = Some xs -> (list_to_map ls : gmap nat bool) !! l = Some fr ->
  exists s s', dll_run nd (dll_init ls) os = Ok (s, rs) /\
    dll_clear s l fn = Ok (s', OK, if (fn : bool) then map (fun x => (x, vals A !! x)) xs else []) /\
    NoDup xs /\ (forall x, x ∈ xs -> is_Some (vals A !! x)) /\
    shows s' (let A' := set_list A l [] fr xs in match xs with [] => A' | _ => wear A' l end).
Proof.
  intros Hl Hfr. destruct (run_Ok _ _ _ _ _ _ _ (init_Inv ls H0) Hc) as (s & Hr & HI).
  destruct (step_clear _ s A l fn xs fr HI Hl Hfr) as (s' & Hs & HI').
  exists s, s'. split_and!; [done|done| | |].
  - pose proof HI as (_ & _ & [Hn _] & _). specialize (Hn _ _ Hl). by apply NoDup_cons in Hn as [_ Hn].
  - pose proof HI as (_ & _ & _ & _ & H1 & _). by destruct (H1 _ _ Hl) as (_ & _ & _ & _ & Hin).
  - by eapply Inv_shows.
Qed.
End after.

(** A move keeps the elements of the two lists together, and all other lists. *)
Lemma moved_keeps {V} (A A' : view V) pl pos cl pre run post : moved A pl pos cl pre run post A' ->
  exists xs ys xs' ys', lists A !! pl = Some xs /\ lists A !! cl = Some ys /\
    lists A' !! pl = Some xs' /\ lists A' !! cl = Some ys' /\
    (if pl =? cl then xs' ≡ₚ xs
     else xs' ≡ₚ run ++ xs /\ ys ≡ₚ run ++ ys') /\
    vals A' = vals A /\
    forall l, l <> pl -> l <> cl -> lists A' !! l = lists A !! l.
Proof.
  intros (_ & _ & u & v & Hcl & Hpl & _ & ->). cbn [lists vals].
  destruct (Nat.eqb_spec pl cl) as [->|Hne].
  - exists (pre ++ run ++ post), (pre ++ run ++ post), (u ++ run ++ v), (u ++ run ++ v).
    rewrite lookup_insert in Hpl. simplify_eq. rewrite lookup_insert. split_and!; try done.
    + rewrite (Permutation_app_swap_app u), (Permutation_app_swap_app pre). by rewrite Hpl.
    + intros l Hl _. by rewrite !lookup_insert_ne.
  - rewrite lookup_insert_ne in Hpl by done.
    exists (u ++ v), (pre ++ run ++ post), (u ++ run ++ v), (pre ++ post).
    rewrite lookup_insert, lookup_insert_ne, lookup_insert by done. split_and!; try done.
    + by rewrite (Permutation_app_swap_app u).
    + by rewrite (Permutation_app_swap_app pre).
    + intros l Hl Hl'. by rewrite !lookup_insert_ne.
Qed.

(** Only popping the front and clearing wear a list. *)
Definition keeps_front {V} (o : dll_op V) : Prop :=
  match o with DPopFront _ | DClear _ _ => False | _ => True end.

Lemma step_never_worn {V} nd al (A : view V) o r A' : call nd al A o r A' -> keeps_front o -> worn A = ∅ -> worn A' = ∅.
Proof.
  intros Hc Hk Hw. assert (Hp : forall l e ans x A1, pushed al A l e ans x A1 -> worn A1 = ∅) by (by intros l e ans x A1 []).
  destruct Hc; try done; try (cbn; by eapply Hp).
  - cbn. erewrite Hp by done. set_solver.
  - cbn. rewrite Hw. set_solver.
  - destruct H as (_ & _ & u & v & _ & _ & _ & ->). done.
  - destruct H as (_ & _ & u & v & _ & _ & _ & ->). done.
Qed.

Lemma never_worn {V} nd al (A : view V) os rs A' : calls nd al A os rs A' -> Forall keeps_front os ->
  worn A = ∅ -> worn A' = ∅.
Proof.
  induction 1 as [|A o r A1 os rs A2 Hc Hcs IH]; [done|]. intros [Hk Hks]%Forall_cons Hw.
  apply IH; [done|]. by eapply step_never_worn.
Qed.

Lemma history_front {V} nd (ls : list (nat * bool)) os rs A : (forall l a, (l, a) ∈ ls -> l <> 0) ->
  calls (V:=V) nd (list_to_map ls) (start ls) os rs A -> Forall keeps_front os ->
  exists s, dll_run nd (dll_init ls) os = Ok (s, rs) /\
    forall l xs, lists A !! l = Some xs ->
      dll_size s l = Ok (Z.of_nat (length xs)) /\
      exists ps, map fst ps = xs /\ Forall (fun p => vals A !! fst p = Some (snd p)) ps /\
        dll_iter s l = Ok ps /\ dll_riter s l = Ok (rev ps) /\ dll_validate s l = Ok true.
Proof.
  intros H0 Hc Hk. destruct (history nd ls os rs A H0 Hc) as (s & Hr & Hs). exists s. split; [done|].
  intros l xs Hl. destruct (Hs l xs Hl) as (Hz & ps & E1 & E2 & E3 & E4). split; [done|]. exists ps.
  destruct E4 as [E4 E5]; [|by split_and!].
  rewrite (never_worn _ _ _ _ _ _ Hc Hk eq_refl). by apply not_elem_of_empty.
Qed.

(** For examples. *)
Lemma unlisted_compute {V} (A : view V) e :
  bool_decide (map_Forall (fun _ xs => e ∉ xs) (lists A)) = true -> unlisted A e.
Proof. intros H%bool_decide_eq_true l xs Hl. by apply (H l xs). Qed.
