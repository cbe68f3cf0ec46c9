(** Proofs about the singly linked list model. *)
From stdpp Require Import base numbers option gmap fin_maps list.
From Verif Require Import Common LinkHeap PathLemmas SllModel SllSpec.

Section proofs.
Context {V : Type} (al : gmap nat bool).
Implicit Types (s : smem V) (A : view V).

Definition Inv s A : Prop :=
  dat s = vals A /\ SllModel.al s = al /\ apart (lists A) /\ rings (nx s) (lists A) /\
  (forall l xs, lists A !! l = Some xs ->
     sz s !! l = Some (Z.of_nat (length xs)) /\ is_Some (al !! l) /\ vals A !! l = None /\ l <> 0 /\
     forall x, x ∈ xs -> is_Some (vals A !! x)) /\
  (forall e v, vals A !! e = Some v -> is_Some (nx s !! e) /\ e <> 0).

(** ** Loops *)

Lemma before_loop_Ok m b pre : forall fuel i p, path m (i :: pre) b -> b ∉ pre ->
  length pre < fuel -> last (i :: pre) = Some p -> before_loop fuel m i b = Ok p.
Proof.
  induction pre as [|x pre IH]; intros [|fuel] i p Hp Hb Hf Hl; try (simpl in Hf; lia).
  - destruct Hp as [Hi _]. simplify_eq/=. rewrite (rd_Ok _ _ _ Hi). simpl. by rewrite Nat.eqb_refl.
  - destruct Hp as [Hi Hp]. simpl in Hi. cbn [before_loop]. rewrite (rd_Ok _ _ _ Hi). simpl.
    apply not_elem_of_cons in Hb as [Hb1 Hb2].
    destruct (Nat.eqb_spec x b) as [->|]; [done|]. apply IH; [done|done|simpl in Hf; lia|done].
Qed.

Lemma len_loop_Ok m n q e run : forall fuel b c, path m run q -> NoDup run -> runs b e run ->
  length run <= fuel -> (c + Z.of_nat (length run) <= n + 2)%Z ->
  len_loop fuel m n b e c = Ok (c + Z.of_nat (length run) - 1)%Z.
Proof.
  induction run as [|x run IH]; intros fuel b c Hp Hnd [Hb He] Hf Hc; [done|].
  simplify_eq/=. destruct fuel as [|fuel]; [lia|].
  cbn [len_loop]. apply NoDup_cons in Hnd as [Hx Hnd]. destruct run as [|y run].
  - simplify_eq/=. rewrite Nat.eqb_refl. f_equal. lia.
  - assert (He' : last (y :: run) = Some e) by done.
    destruct (Nat.eqb_spec b e) as [->|Hne]; [by apply last_Some_elem_of in He'|].
    unfold oassert. destruct (Z.leb_spec c n); [|simpl in Hc; lia]. cbn [mbind outcome_bind obind].
    destruct Hp as [Hxm Hp]. rewrite (rd_Ok _ _ _ Hxm). cbn [mbind outcome_bind obind hd].
    rewrite (IH fuel y (c + 1)%Z); [f_equal; simpl; lia|done|done|by split|simpl in *; lia|simpl in *; lia].
Qed.

Lemma free_range_Ok n e run : forall fuel s b c q, path (nx s) run q -> NoDup run -> runs b e run ->
  (forall x, x ∈ run -> is_Some (dat s !! x)) ->
  length run <= fuel -> (c + Z.of_nat (length run) <= n + 2)%Z ->
  free_range fuel s n b e c =
    Ok (SMem (foldr delete (nx s) run) (foldr delete (dat s) run) (sz s) (SllModel.al s),
        (c + Z.of_nat (length run) - 1)%Z).
Proof.
  induction run as [|x run IH]; intros fuel s b c q Hp Hnd [Hb He] Hd Hf Hc; [done|].
  simplify_eq/=. destruct fuel as [|fuel]; [lia|].
  cbn [free_range]. apply NoDup_cons in Hnd as [Hx Hnd].
  destruct (Hd b ltac:(left)) as [vb Hvb]. destruct run as [|y run].
  - simplify_eq/=. rewrite Nat.eqb_refl. unfold free. rewrite Hvb. cbn [mbind outcome_bind obind].
    do 2 f_equal. lia.
  - assert (He' : last (y :: run) = Some e) by done.
    destruct (Nat.eqb_spec b e) as [->|Hne]; [by apply last_Some_elem_of in He'|].
    unfold oassert. destruct (Z.leb_spec c n); [|simpl in Hc; lia]. cbn [mbind outcome_bind obind].
    destruct Hp as [Hxm Hp]. rewrite (rd_Ok _ _ _ Hxm). cbn [mbind outcome_bind obind hd].
    unfold free at 1. rewrite Hvb. cbn [mbind outcome_bind obind].
    erewrite (IH fuel _ y (c + 1)%Z).
    + cbn [nx dat sz SllModel.al]. do 3 f_equal; [by rewrite <- foldr_delete_cons|by rewrite <- foldr_delete_cons|simpl; lia].
    + cbn [nx]. apply path_del; done.
    + done.
    + by split.
    + intros z Hz. cbn [dat]. rewrite lookup_delete_ne; [apply Hd; by right|]. intros ->. done.
    + simpl in *; lia.
    + simpl in *; lia.
Qed.

(** ** Consequences of the invariant *)

Lemma Inv_ring s A l xs : Inv s A -> lists A !! l = Some xs -> path (nx s) (l :: xs) l /\ NoDup (l :: xs).
Proof. intros (_ & _ & [Ha _] & Hr & _) Hl. split; [by apply Hr|by apply Ha]. Qed.

Lemma Inv_live s A l xs x : Inv s A -> lists A !! l = Some xs -> x ∈ l :: xs ->
  is_Some (nx s !! x) /\ x <> 0.
Proof.
  intros HI Hl Hx. destruct (Inv_ring _ _ _ _ HI Hl) as [Hp _]. split; [by eapply path_elem|].
  destruct HI as (_ & _ & _ & _ & H1 & H2). destruct (H1 _ _ Hl) as (_ & _ & _ & Hn & Hv).
  apply elem_of_cons in Hx as [->|Hx]; [done|]. destruct (Hv x Hx) as [v Hvx]. by destruct (H2 _ _ Hvx).
Qed.

Lemma Inv_before s A l pre x post p : Inv s A -> lists A !! l = Some (pre ++ x :: post) ->
  last (l :: pre) = Some p -> before s l x = Ok p.
Proof.
  intros HI Hl Hp. destruct (Inv_ring _ _ _ _ HI Hl) as [Hpa Hnd].
  change (l :: pre ++ x :: post) with ((l :: pre) ++ x :: post) in *.
  pose proof (path_size _ _ _ Hnd Hpa) as Hs. rewrite app_length in Hs. simpl in Hs.
  apply path_app in Hpa as [Hpa _]. unfold before. eapply before_loop_Ok; [done| |lia|done].
  apply NoDup_app in Hnd as (_ & Hd & _). intros Hx. apply (Hd x); [by right|by left].
Qed.

Lemma unlisted_owned s A e v : Inv s A -> vals A !! e = Some v -> unlisted A e -> ~ owned (lists A) e.
Proof.
  intros (_ & _ & _ & _ & H1 & _) Hv Hu (l & xs & Hl & Hx). apply elem_of_cons in Hx as [->|Hx].
  - destruct (H1 _ _ Hl) as (_ & _ & Hn & _). congruence.
  - by apply (Hu l xs).
Qed.

Lemma unused_owned s A p : Inv s A -> unused A p -> ~ owned (lists A) p.
Proof.
  intros (_ & _ & _ & _ & H1 & _) (H0 & Hv & Hl) (l & xs & Hl' & Hx). apply elem_of_cons in Hx as [->|Hx].
  - congruence.
  - destruct (H1 _ _ Hl') as (_ & _ & _ & _ & Hs). destruct (Hs _ Hx). congruence.
Qed.

(** ** Taking a run out of a list *)

(** The state after [l] lost [run]: [m'] is the new link field. *)
Lemma Inv_removed s A l pre run post fr m' : Inv s A -> lists A !! l = Some (pre ++ run ++ post) ->
  rings m' (<[l:=pre ++ post]> (lists A)) ->
  (forall e v, (if (fr : bool) then e ∉ run else True) -> vals A !! e = Some v -> is_Some (m' !! e)) ->
  Inv (SMem m' (if fr then foldr delete (vals A) run else vals A)
        (<[l:=(Z.of_nat (length (pre ++ run ++ post)) - Z.of_nat (length run))%Z]> (sz s)) (SllModel.al s))
      (set_list A l (pre ++ post) fr run).
Proof.
  intros HI Hl Hr Hm. destruct (HI) as (Hd & Hal & Ha & _ & H1 & H2).
  destruct (apart_unlink _ _ _ _ _ Ha Hl) as [Ha' [_ Hlo]].
  unfold set_list. split_and!; cbn [nx dat sz SllModel.al lists vals]; try done.
  - assert (Hkeep : forall x, owned (<[l:=pre ++ post]> (lists A)) x -> is_Some (vals A !! x) ->
      is_Some ((if fr then foldr delete (vals A) run else vals A) !! x)).
    { intros x Hx [v Hv]. destruct fr; [|eauto]. exists v. apply lookup_foldr_del. split; [|done].
      intros Hin. by apply (Hlo x). }
    intros l' xs' [[<- <-]|[Hne Hl']]%lookup_insert_Some.
    + destruct (H1 _ _ Hl) as (Hs & His & Hv & H0 & Hin). split_and!.
      * rewrite lookup_insert. f_equal. rewrite !app_length. lia.
      * done.
      * destruct fr; [|done]. destruct (foldr delete (vals A) run !! l) eqn:E; [|done].
        apply lookup_foldr_del in E as [_ E]. congruence.
      * done.
      * intros x Hx. apply Hkeep.
        -- exists l, (pre ++ post). rewrite lookup_insert. split; [done|by right].
        -- apply Hin. rewrite !elem_of_app in *. tauto.
    + destruct (H1 _ _ Hl') as (Hs & His & Hv & H0 & Hin). split_and!.
      * by rewrite lookup_insert_ne.
      * done.
      * destruct fr; [|done]. destruct (foldr delete (vals A) run !! l') eqn:E; [|done].
        apply lookup_foldr_del in E as [_ E]. congruence.
      * done.
      * intros x Hx. apply Hkeep; [|by apply Hin]. exists l', xs'. rewrite lookup_insert_ne by done.
        split; [done|by right].
  - intros e v Hv. destruct fr.
    + apply lookup_foldr_del in Hv as [Hn Hv]. split; [by eapply Hm|by destruct (H2 _ _ Hv)].
    + split; [by eapply Hm|by destruct (H2 _ _ Hv)].
Qed.

(** ** Adding a run to a list *)

Lemma Inv_linked s A l u run v m' : Inv s A -> lists A !! l = Some (u ++ v) -> loose (lists A) run ->
  (forall x, x ∈ run -> is_Some (vals A !! x)) ->
  rings m' (<[l:=u ++ run ++ v]> (lists A)) ->
  (forall e, is_Some (nx s !! e) -> is_Some (m' !! e)) ->
  Inv (SMem m' (dat s) (<[l:=(Z.of_nat (length (u ++ v)) + Z.of_nat (length run))%Z]> (sz s)) (SllModel.al s))
      (View (<[l:=u ++ run ++ v]> (lists A)) (vals A)).
Proof.
  intros HI Hl Hlo Hrun Hr Hm. destruct HI as (Hd & Hal & Ha & _ & H1 & H2).
  split_and!; cbn [nx dat sz SllModel.al lists vals]; try done.
  - by apply apart_link.
  - intros l' xs' [[<- <-]|[Hne Hl']]%lookup_insert_Some.
    + destruct (H1 _ _ Hl) as (Hs & His & Hv & H0 & Hin). split_and!; try done.
      * rewrite lookup_insert. f_equal. rewrite !app_length. lia.
      * intros x. rewrite !elem_of_app. intros [Hx|[Hx|Hx]]; [|by apply Hrun|];
          apply Hin; rewrite elem_of_app; tauto.
    + destruct (H1 _ _ Hl') as (Hs & His & Hv & H0 & Hin). split_and!; try done.
      by rewrite lookup_insert_ne.
  - intros e w Hw. destruct (H2 _ _ Hw). split; [by apply Hm|done].
Qed.

Lemma Inv_new s A e v g : Inv s A -> unused A e ->
  Inv (SMem (<[e:=g]> (nx s)) (<[e:=v]> (dat s)) (sz s) (SllModel.al s)) (View (lists A) (<[e:=v]> (vals A))).
Proof.
  intros HI Hu. pose proof (unused_owned _ _ _ HI Hu) as Ho. destruct Hu as (H0 & Hv & Hl).
  destruct HI as (Hd & Hal & Ha & Hr & H1 & H2).
  split_and!; cbn [nx dat sz SllModel.al lists vals]; try done.
  - by rewrite Hd.
  - by apply rings_upd.
  - intros l xs Hlx. destruct (H1 _ _ Hlx) as (Hs & His & Hvl & Hl0 & Hin). split_and!; try done.
    + rewrite lookup_insert_ne; [done|]. congruence.
    + intros x Hx. destruct (decide (x = e)) as [->|]; [rewrite lookup_insert; eauto|].
      rewrite lookup_insert_ne by done. by apply Hin.
  - intros e' w. rewrite lookup_insert_Some. intros [[<- <-]|[Hne Hw]].
    + rewrite lookup_insert. split; [eauto|done].
    + rewrite lookup_insert_ne by done. eauto.
Qed.

Ltac bind := cbn [mbind outcome_bind obind].

Lemma push_Ok s A l e xs v : Inv s A -> lists A !! l = Some xs -> vals A !! e = Some v -> unlisted A e ->
  exists s', push_front s l e = Ok s' /\ nx s' !! l = Some e /\ Inv s' (set_list A l (e :: xs) false []).
Proof.
  intros HI Hl Hv Hu. pose proof (unlisted_owned _ _ _ _ HI Hv Hu) as Ho.
  destruct (Inv_ring _ _ _ _ HI Hl) as [Hp Hnd].
  assert (Hel : e <> l) by (intros ->; apply Ho; exists l, xs; split; [done|left]).
  pose proof HI as (Hd & Hal & Ha & Hr & H1 & H2). destruct (H1 _ _ Hl) as (Hs & _).
  destruct (H2 _ _ Hv) as [He _]. destruct Hp as [Hlm Hp].
  unfold push_front. rewrite (rd_Ok _ _ _ Hlm). bind. rewrite (wr_Ok _ _ _ He). bind.
  rewrite wr_Ok by (rewrite lookup_insert_ne by done; eauto). bind.
  unfold add_sz, get_sz, with_nx. cbn [sz nx]. rewrite Hs. bind. eexists. split; [done|].
  cbn [nx dat sz SllModel.al]. split; [by rewrite lookup_insert|].
  apply (Inv_linked s A l [] [e] xs); try done.
  - split; [apply NoDup_singleton|]. by intros x ->%elem_of_list_singleton.
  - intros x ->%elem_of_list_singleton. eauto.
  - destruct He as [q Hq]. apply (rings_link _ _ l [] [e] xs q l e e); try done.
    + split; [apply NoDup_singleton|]. by intros x ->%elem_of_list_singleton.
  - intros x Hx. rewrite !lookup_insert_is_Some'. tauto.
Qed.

Lemma step_push s A l e ans xs v : Inv s A -> lists A !! l = Some xs -> al !! l = Some false ->
  vals A !! e = Some v -> unlisted A e ->
  exists s', sll_push_front s l e ans = Ok (s', e) /\ Inv s' (set_list A l (e :: xs) false []).
Proof.
  intros HI Hl Hal Hv Hu. destruct (push_Ok _ _ _ _ _ _ HI Hl Hv Hu) as (s' & Hp & Hh & HI').
  pose proof HI as (_ & Hal' & _ & _ & H1 & H2). destruct (H1 _ _ Hl) as (_ & _ & _ & Hl0 & _).
  destruct (H2 _ _ Hv) as [_ He0]. unfold sll_push_front.
  apply Nat.eqb_neq in Hl0, He0. rewrite Hl0, He0. cbn [orb]. unfold has_alloc. rewrite Hal', Hal. bind.
  rewrite Hp. bind. rewrite (rd_Ok _ _ _ Hh). bind. eauto.
Qed.

Lemma step_push_alloc s A l e ans xs v : Inv s A -> lists A !! l = Some xs -> al !! l = Some true ->
  vals A !! e = Some v -> unused A ans ->
  exists s', sll_push_front s l e ans = Ok (s', ans) /\
    Inv s' (View (<[l:=ans :: xs]> (lists A)) (<[ans:=v]> (vals A))).
Proof.
  intros HI Hl Hal Hv Hu.
  pose proof HI as (Hd & Hal' & _ & _ & H1 & H2). destruct (H1 _ _ Hl) as (_ & _ & _ & Hl0 & _).
  destruct (H2 _ _ Hv) as [[n Hn] He0]. pose proof (Inv_new s A ans v n HI Hu) as HI1.
  pose proof (unused_owned _ _ _ HI Hu) as Ho. destruct Hu as (Ha0 & _).
  destruct (push_Ok _ _ l ans xs v HI1) as (s' & Hp & Hh & HI'); cbn [lists vals].
  { done. }
  { by rewrite lookup_insert. }
  { intros l' xs' Hl' Hx. apply Ho. exists l', xs'. split; [done|by right]. }
  exists s'. split; [|exact HI']. unfold sll_push_front.
  apply Nat.eqb_neq in Hl0, He0, Ha0. rewrite Hl0, He0, Ha0. cbn [orb]. unfold has_alloc. rewrite Hal', Hal. bind.
  unfold alloc_copy. rewrite Hd, Hv, (rd_Ok _ _ _ Hn). bind. rewrite <- Hd, Hp. bind.
  rewrite (rd_Ok _ _ _ Hh). bind. done.
Qed.

Lemma step_push_refused s A l e xs : Inv s A -> lists A !! l = Some xs -> al !! l = Some true ->
  sll_push_front s l e 0 = Ok (s, 0).
Proof.
  intros (_ & Hal' & _) Hl Hal. unfold sll_push_front. destruct (_ || _); [done|].
  unfold has_alloc. by rewrite Hal', Hal.
Qed.

(** ** Removal *)

Lemma pop_Ok s A l x xs : Inv s A -> lists A !! l = Some (x :: xs) ->
  pop_front s l = Ok (SMem (<[x:=0]> (<[l:=hd l xs]> (nx s))) (dat s)
                        (<[l:=(Z.of_nat (S (length xs)) - 1)%Z]> (sz s)) (SllModel.al s), x) /\
  rings (<[x:=0]> (<[l:=hd l xs]> (nx s))) (<[l:=xs]> (lists A)).
Proof.
  intros HI Hl. destruct (Inv_ring _ _ _ _ HI Hl) as [Hp Hnd].
  pose proof HI as (Hd & Hal & Ha & Hr & H1 & H2). destruct (H1 _ _ Hl) as (Hs & _).
  destruct (apart_unlink _ l [] [x] xs Ha Hl) as [Ha' [_ Hlo]].
  destruct (rings_unlink _ _ l [] [x] xs l Ha Hr Hl) as (Hr' & _ & _); [done|].
  destruct Hp as [Hlm [Hx Hp]]. cbn [hd] in Hlm.
  split.
  - unfold pop_front. rewrite (rd_Ok _ _ _ Hlm). bind. rewrite (rd_Ok _ _ _ Hx). bind.
    rewrite wr_Ok by eauto. bind. rewrite wr_Ok.
    + bind. unfold add_sz, get_sz, with_nx. cbn [sz nx]. rewrite Hs. bind. done.
    + rewrite lookup_insert_is_Some'. eauto.
  - apply rings_upd; [done|]. apply Hlo. left.
Qed.

Lemma step_pop s A l x xs fr : Inv s A -> lists A !! l = Some (x :: xs) -> al !! l = Some fr ->
  exists s', sll_pop_front s l = Ok (s', OK) /\ Inv s' (set_list A l xs fr [x]).
Proof.
  intros HI Hl Hal. destruct (pop_Ok _ _ _ _ _ HI Hl) as [Hpop Hr'].
  pose proof HI as (Hd & Hal' & Ha & Hr & H1 & H2). destruct (H1 _ _ Hl) as (Hs & _ & _ & Hl0 & Hin).
  destruct (Hin x ltac:(left)) as [vx Hvx].
  destruct (apart_unlink _ l [] [x] xs Ha Hl) as [Ha' [_ Hlo]].
  unfold sll_pop_front. apply Nat.eqb_neq in Hl0. rewrite Hl0. unfold get_sz. rewrite Hs. bind.
  destruct (Z.eqb_spec (Z.of_nat (length (x :: xs))) 0) as [Hz|_]; [simpl in Hz; lia|].
  rewrite Hpop. bind. unfold has_alloc. cbn [SllModel.al]. rewrite Hal', Hal. bind. destruct fr.
  - unfold free. cbn [dat]. rewrite Hd, Hvx. bind. eexists. split; [done|]. cbn [nx sz dat SllModel.al].
    rewrite <- Hal'. apply (Inv_removed s A l [] [x] xs true); try done.
    + apply rings_del; [done|]. apply Hlo. left.
    + intros e v He Hv. apply not_elem_of_cons in He as [He _]. rewrite lookup_delete_ne by done.
      rewrite !lookup_insert_is_Some'. destruct (H2 _ _ Hv). tauto.
  - eexists. split; [done|]. rewrite Hd, <- Hal'. apply (Inv_removed s A l [] [x] xs false); try done.
    intros e v _ Hv. rewrite !lookup_insert_is_Some'. destruct (H2 _ _ Hv). tauto.
Qed.

Lemma hd_ret l (xs : list nat) : l ∉ xs -> (if hd l xs =? l then 0 else hd l xs) = hd 0 xs.
Proof.
  destruct xs as [|x xs]; simpl; [by rewrite Nat.eqb_refl|]. intros [Hx _]%not_elem_of_cons.
  by destruct (Nat.eqb_spec x l).
Qed.

Lemma step_remove f s A l e pre post fr : Inv s A -> lists A !! l = Some (pre ++ [e] ++ post) ->
  al !! l = Some fr ->
  exists s', sll_remove f s l e = Ok (s', hd 0 post) /\ Inv s' (set_list A l (pre ++ post) (f && fr) [e]).
Proof.
  intros HI Hl Hal. destruct (Inv_ring _ _ _ _ HI Hl) as [Hp Hnd].
  pose proof HI as (Hd & Hal' & Ha & Hr & H1 & H2). destruct (H1 _ _ Hl) as (Hs & _ & _ & Hl0 & Hin).
  destruct (last_cons_inv l pre) as (_ & b & _ & Hb).
  destruct (apart_unlink _ _ _ _ _ Ha Hl) as [Ha' [_ Hlo]].
  destruct (rings_unlink _ _ l pre [e] post b Ha Hr Hl Hb) as (Hr' & Hpe & Hbm).
  assert (Hein : e ∈ pre ++ [e] ++ post) by (rewrite !elem_of_app; right; left; left).
  destruct (Hin e Hein) as [ve Hve].
  assert (Hel : e <> l) by (intros ->; by apply NoDup_cons in Hnd as [Hnd _]).
  assert (Hlpost : l ∉ post) by (intros Hx; apply NoDup_cons in Hnd as [Hnd _]; apply Hnd; rewrite !elem_of_app; auto).
  destruct (H2 _ _ Hve) as [_ He0].
  unfold sll_remove. pose proof Hl0 as Hl0'. pose proof He0 as He0'. apply Nat.eqb_neq in Hl0', He0'. rewrite Hl0', He0'.
  cbn [orb]. unfold get_sz. rewrite Hs. bind.
  destruct (Z.eqb_spec (Z.of_nat (length (pre ++ [e] ++ post))) 0) as [Hz|_]; [rewrite !app_length in Hz; simpl in Hz; lia|].
  pose proof Hel as Hel'. apply Nat.eqb_neq in Hel'. rewrite Hel'. cbn [orb].
  assert (Hem : nx s !! e = Some (hd l post)).
  { change (l :: pre ++ [e] ++ post) with ((l :: pre) ++ [e] ++ post) in Hp.
    apply path_app in Hp as [_ Hp]. by destruct Hp. }
  rewrite (rd_Ok _ _ _ Hem). bind. rewrite (Inv_before s A l pre e post b HI Hl Hb). bind.
  rewrite wr_Ok by eauto. bind. rewrite wr_Ok by (rewrite lookup_insert_is_Some'; eauto). bind.
  unfold with_nx, has_alloc. cbn [nx dat sz SllModel.al]. rewrite Hal', Hal. bind.
  destruct (f && fr).
  - unfold free. cbn [dat nx sz SllModel.al]. rewrite Hd, Hve. bind.
    unfold add_sz, get_sz. cbn [nx dat sz SllModel.al]. rewrite Hs. bind. rewrite hd_ret by done.
    eexists. split; [done|]. rewrite <- Hal'. apply (Inv_removed s A l pre [e] post true); try done.
    + apply rings_del; [|apply Hlo; left]. apply rings_upd; [done|apply Hlo; left].
    + intros e' v He Hv. apply not_elem_of_cons in He as [He _]. rewrite lookup_delete_ne by done.
      rewrite !lookup_insert_is_Some'. destruct (H2 _ _ Hv). tauto.
  - bind. unfold add_sz, get_sz. cbn [nx dat sz SllModel.al]. rewrite Hs. bind. rewrite hd_ret by done.
    eexists. split; [done|]. rewrite Hd, <- Hal'. apply (Inv_removed s A l pre [e] post false); try done.
    + apply rings_upd; [done|apply Hlo; left].
    + intros e' v _ Hv. rewrite !lookup_insert_is_Some'. destruct (H2 _ _ Hv). tauto.
Qed.

Lemma runs_split b e run : runs b e run -> exists r, run = b :: r /\ e ∈ run /\ b ∈ run.
Proof.
  intros [Hb He]. destruct run as [|x r]; [done|]. simplify_eq/=. exists r.
  split_and!; [done|by eapply last_Some_elem_of|left].
Qed.

Lemma step_remove_range f s A l b e pre run post fr : Inv s A -> lists A !! l = Some (pre ++ run ++ post) ->
  runs b e run -> al !! l = Some fr ->
  exists s', sll_remove_range f s l b e = Ok (s', hd 0 post) /\
    Inv s' (set_list A l (pre ++ post) (f && fr) run).
Proof.
  intros HI Hl Hrun Hal. destruct (Inv_ring _ _ _ _ HI Hl) as [Hp Hnd].
  pose proof HI as (Hd & Hal' & Ha & Hr & H1 & H2). destruct (H1 _ _ Hl) as (Hs & _ & _ & Hl0 & Hin).
  destruct (last_cons_inv l pre) as (_ & p & _ & Hpl).
  destruct (apart_unlink _ _ _ _ _ Ha Hl) as [Ha' [Hndr Hlo]].
  destruct (rings_unlink _ _ l pre run post p Ha Hr Hl Hpl) as (Hr' & Hpe & Hbm).
  destruct (runs_split _ _ _ Hrun) as (r & Hrr & He & Hb).
  assert (Hsub : forall x, x ∈ run -> x ∈ pre ++ run ++ post) by (intros x; rewrite !elem_of_app; tauto).
  assert (Hrl : forall x, x ∈ run -> x <> l).
  { intros x Hx ->. apply NoDup_cons in Hnd as [Hnd _]. auto. }
  assert (Hr0 : forall x, x ∈ run -> x <> 0).
  { intros x Hx. destruct (Hin x (Hsub x Hx)) as [v Hv]. by destruct (H2 _ _ Hv). }
  assert (Hlpost : l ∉ post).
  { intros Hx. apply NoDup_cons in Hnd as [Hnd _]. apply Hnd. rewrite !elem_of_app. auto. }
  assert (Hlen : length (pre ++ run ++ post) <> 0) by (rewrite !app_length, Hrr; simpl; lia).
  unfold sll_remove_range. pose proof Hl0 as Hl0'.
  pose proof (Hr0 e He) as He0. pose proof (Hr0 b Hb) as Hb0.
  pose proof (Hrl e He) as Hel. pose proof (Hrl b Hb) as Hbl.
  apply Nat.eqb_neq in Hl0', He0, Hb0, Hel, Hbl. rewrite Hl0', He0, Hb0.
  cbn [orb]. unfold get_sz at 1. rewrite Hs. bind.
  destruct (Z.eqb_spec (Z.of_nat (length (pre ++ run ++ post))) 0) as [Hz|_]; [lia|].
  rewrite Hel, Hbl. cbn [orb].
  assert (Hem : nx s !! e = Some (hd l post)).
  { change (l :: pre ++ run ++ post) with ((l :: pre) ++ run ++ post) in Hp.
    apply path_app in Hp as [_ Hp]. apply path_app in Hp as [Hp _].
    eapply path_last_lookup; [|done]. by destruct Hrun. }
  rewrite (rd_Ok _ _ _ Hem). bind.
  rewrite (Inv_before s A l pre b (r ++ post) p HI); [|by rewrite Hl, Hrr|done]. bind.
  rewrite wr_Ok by eauto. bind.
  unfold with_nx, has_alloc. cbn [nx dat sz SllModel.al]. rewrite Hal', Hal. bind.
  assert (Hsz1 : length run <= size (<[p:=hd l post]> (nx s))) by (by eapply path_size).
  assert (Hcz : (Z.of_nat (length run) <= Z.of_nat (length (pre ++ run ++ post)))%Z) by (rewrite !app_length; lia).
  destruct (f && fr).
  - erewrite (free_range_Ok _ e run); [|done|done|done| |lia|lia].
    2:{ intros x Hx. cbn [dat]. rewrite Hd. auto. }
    bind. cbn [nx dat sz SllModel.al]. unfold oassert.
    replace (1 + Z.of_nat (length run) - 1)%Z with (Z.of_nat (length run)) by lia.
    apply Z.leb_le in Hcz. rewrite Hcz. bind.
    unfold add_sz, get_sz. cbn [nx dat sz SllModel.al]. rewrite Hs. bind. rewrite hd_ret by done.
    eexists. split; [done|]. rewrite Hd, <- Hal'. apply (Inv_removed s A l pre run post true); try done.
    + by apply rings_foldr_del.
    + intros e' v Hn Hv. apply foldr_del_is_Some; [done|]. rewrite lookup_insert_is_Some'.
      destruct (H2 _ _ Hv). tauto.
  - unfold len, get_sz. cbn [nx dat sz SllModel.al]. rewrite Hs. bind.
    erewrite (len_loop_Ok _ _ _ e run); [|done|done|done|lia|lia]. bind.
    rewrite wr_Ok by (rewrite lookup_insert_is_Some'; eauto). bind. unfold oassert.
    replace (1 + Z.of_nat (length run) - 1)%Z with (Z.of_nat (length run)) by lia.
    apply Z.leb_le in Hcz. rewrite Hcz. bind.
    unfold add_sz, get_sz. cbn [nx dat sz SllModel.al]. rewrite Hs. bind. rewrite hd_ret by done.
    eexists. split; [done|]. rewrite Hd, <- Hal'. apply (Inv_removed s A l pre run post false); try done.
    + apply rings_upd; [done|by apply Hlo].
    + intros e' v _ Hv. rewrite !lookup_insert_is_Some'. destruct (H2 _ _ Hv). tauto.
Qed.

(** ** Splicing *)

Lemma view_eta A : View (lists A) (vals A) = A.
Proof. by destruct A. Qed.

(** The position directly precedes the run: nothing moves. *)
Lemma moved_adjacent A pl pos cl run pre post u v : apart (lists A) ->
  lists A !! cl = Some (pre ++ run ++ post) -> <[cl:=pre ++ post]> (lists A) !! pl = Some (u ++ v) ->
  last (pl :: u) = Some pos -> last (cl :: pre) = Some pos ->
  View (<[pl:=u ++ run ++ v]> (<[cl:=pre ++ post]> (lists A))) (vals A) = A.
Proof.
  intros Ha Hcl Hpl Hpu Hpc. destruct (apart_unlink _ _ _ _ _ Ha Hcl) as [Ha' _].
  pose proof Ha' as [Hn1 Hn2].
  assert (Hp1 : pos ∈ pl :: u ++ v).
  { change (pl :: u ++ v) with ((pl :: u) ++ v). apply elem_of_app. left. by eapply last_Some_elem_of. }
  assert (Hp2 : pos ∈ cl :: pre ++ post).
  { change (cl :: pre ++ post) with ((cl :: pre) ++ post). apply elem_of_app. left. by eapply last_Some_elem_of. }
  assert (pl = cl) as ->.
  { destruct (decide (pl = cl)); [done|]. exfalso.
    apply (Hn2 pl cl (u ++ v) (pre ++ post) pos); try done. by rewrite lookup_insert. }
  rewrite lookup_insert in Hpl. simplify_eq.
  assert (pre = u /\ post = v) as [-> ->].
  { specialize (Hn1 cl (pre ++ post)). rewrite lookup_insert in Hn1. specialize (Hn1 eq_refl).
    apply last_Some in Hpu as [u' Hu]. apply last_Some in Hpc as [p' Hp'].
    assert (Heq : u' ++ pos :: v = p' ++ pos :: post).
    { change (pos :: v) with ([pos] ++ v). change (pos :: post) with ([pos] ++ post).
      rewrite !app_assoc, <- Hu, <- Hp'. simpl. by f_equal. }
    assert (Hnd : NoDup (p' ++ pos :: post)).
    { change (pos :: post) with ([pos] ++ post). rewrite app_assoc, <- Hp'. done. }
    destruct (nodup_split pos p' post u' v Hnd) as [-> ->]; [done|].
    split; [|done]. rewrite <- Hp' in Hu. by simplify_eq. }
  rewrite insert_insert, insert_id by done. apply view_eta.
Qed.

Lemma map_sz_same (m : gmap nat Z) l n k : m !! l = Some n -> <[l:=(n - k + k)%Z]> (<[l:=(n - k)%Z]> m) = m.
Proof. intros Hl. rewrite insert_insert, insert_id; [done|]. rewrite Hl. f_equal. lia. Qed.

(** The pointer surgery shared by the two splices. *)
Lemma splice_core s A pl pos cl b e run pre post u v p : Inv s A ->
  lists A !! cl = Some (pre ++ run ++ post) -> <[cl:=pre ++ post]> (lists A) !! pl = Some (u ++ v) ->
  last (pl :: u) = Some pos -> last (cl :: pre) = Some p -> runs b e run ->
  let m1 := <[p:=hd cl post]> (nx s) in
  let m3 := <[pos:=b]> (<[e:=hd pl v]> m1) in
  nx s !! e = Some (hd cl post) /\ is_Some (nx s !! p) /\ m1 !! pos = Some (hd pl v) /\ is_Some (nx s !! pos) /\
  path m3 run (hd pl v) /\
  is_Some (sz s !! pl) /\
  Inv (SMem m3 (dat s)
         (if pl =? cl then sz s
          else <[pl:=(Z.of_nat (length (u ++ v)) + Z.of_nat (length run))%Z]>
                 (<[cl:=(Z.of_nat (length (pre ++ run ++ post)) - Z.of_nat (length run))%Z]> (sz s)))
         (SllModel.al s))
      (View (<[pl:=u ++ run ++ v]> (<[cl:=pre ++ post]> (lists A))) (vals A)).
Proof.
  intros HI Hcl Hpl Hpos Hp Hrun m1 m3.
  pose proof HI as (Hd & Hal & Ha & Hr & H1 & H2). pose proof Hrun as [Hb He].
  destruct (apart_unlink _ _ _ _ _ Ha Hcl) as [Ha' Hlo].
  destruct (rings_unlink _ _ _ _ _ _ _ Ha Hr Hcl Hp) as (Hr' & Hpe & Hpm).
  destruct (runs_split _ _ _ Hrun) as (r & Hrr & Hein & Hbin).
  assert (Hem : nx s !! e = Some (hd cl post)).
  { destruct (Inv_ring _ _ _ _ HI Hcl) as [Hpa _].
    change (cl :: pre ++ run ++ post) with ((cl :: pre) ++ run ++ post) in Hpa.
    apply path_app in Hpa as [_ Hpa]. apply path_app in Hpa as [Hpa _]. by eapply path_last_lookup. }
  assert (Hposm : m1 !! pos = Some (hd pl v)).
  { pose proof (Hr' _ _ Hpl) as Hpa. change (pl :: u ++ v) with ((pl :: u) ++ v) in Hpa.
    apply path_app in Hpa as [Hpa _]. by eapply path_last_lookup. }
  assert (Hrings : rings m3 (<[pl:=u ++ run ++ v]> (<[cl:=pre ++ post]> (lists A)))).
  { eapply rings_link; done. }
  assert (Hposs : is_Some (nx s !! pos)).
  { assert (Hx : is_Some (m1 !! pos)) by eauto. unfold m1 in Hx.
    apply lookup_insert_is_Some' in Hx as [<-|?]; [eauto|done]. }
  assert (Hdom : forall x, is_Some (nx s !! x) -> is_Some (m3 !! x)).
  { intros x Hx. unfold m3, m1. rewrite !lookup_insert_is_Some'. tauto. }
  destruct (H1 _ _ Hcl) as (Hscl & _ & _ & _ & Hin).
  assert (Hspl : is_Some (sz s !! pl)).
  { apply lookup_insert_Some in Hpl as [[<- _]|[_ Hpl]]; [eauto|]. destruct (H1 _ _ Hpl); eauto. }
  assert (HI1 : Inv (SMem m1 (dat s) (<[cl:=(Z.of_nat (length (pre ++ run ++ post)) - Z.of_nat (length run))%Z]> (sz s)) (SllModel.al s))
                 (set_list A cl (pre ++ post) false run)).
  { rewrite Hd. apply (Inv_removed s A cl pre run post false); try done.
    intros x w _ Hx. unfold m1. rewrite lookup_insert_is_Some'. destruct (H2 _ _ Hx). tauto. }
  split_and!; try done; try (by eauto).
  - pose proof (Hrings pl (u ++ run ++ v)) as Hpa. rewrite lookup_insert in Hpa. specialize (Hpa eq_refl).
    change (pl :: u ++ run ++ v) with ((pl :: u) ++ run ++ v) in Hpa.
    apply path_app in Hpa as [_ Hpa]. by apply path_app in Hpa as [Hpa _].
  - pose proof (Inv_linked _ _ pl u run v m3 HI1) as HI2. cbn [nx dat sz SllModel.al lists vals set_list] in HI2.
    assert (Heq : (if pl =? cl then sz s
          else <[pl:=(Z.of_nat (length (u ++ v)) + Z.of_nat (length run))%Z]>
                 (<[cl:=(Z.of_nat (length (pre ++ run ++ post)) - Z.of_nat (length run))%Z]> (sz s)))
       = <[pl:=(Z.of_nat (length (u ++ v)) + Z.of_nat (length run))%Z]>
                 (<[cl:=(Z.of_nat (length (pre ++ run ++ post)) - Z.of_nat (length run))%Z]> (sz s))).
    { destruct (Nat.eqb_spec pl cl) as [->|]; [|done]. rewrite lookup_insert in Hpl. simplify_eq.
      rewrite insert_insert, insert_id; [done|]. rewrite Hscl. f_equal.
      rewrite <- Hpl. rewrite !app_length. lia. }
    rewrite Heq. apply HI2; try done.
    + intros x Hx. apply Hin. rewrite !elem_of_app. tauto.
    + intros x Hx. unfold m3. rewrite !lookup_insert_is_Some'. tauto.
Qed.

Lemma moved_facts s A pl pos cl b e run pre post u v : Inv s A ->
  lists A !! cl = Some (pre ++ run ++ post) -> <[cl:=pre ++ post]> (lists A) !! pl = Some (u ++ v) ->
  last (pl :: u) = Some pos -> runs b e run ->
  pl <> 0 /\ cl <> 0 /\ pos <> 0 /\ b <> 0 /\ e <> 0 /\ b <> pos /\ e <> pos /\ owned (lists A) pos.
Proof.
  intros HI Hcl Hpl Hpos Hrun. pose proof HI as (_ & _ & Ha & _ & H1 & _).
  destruct (runs_split _ _ _ Hrun) as (r & Hrr & Hein & Hbin).
  destruct (apart_unlink _ _ _ _ _ Ha Hcl) as [Ha' [_ Hlo]].
  assert (Hpos' : owned (<[cl:=pre ++ post]> (lists A)) pos).
  { exists pl, (u ++ v). split; [done|]. change (pl :: u ++ v) with ((pl :: u) ++ v). apply elem_of_app. left.
    by eapply last_Some_elem_of. }
  assert (Hown : owned (lists A) pos).
  { eapply owned_remove; [done| |done]. intros y. rewrite !elem_of_app. tauto. }
  assert (Hsub : forall x, x ∈ run -> x ∈ cl :: pre ++ run ++ post) by (intros x; rewrite elem_of_cons, !elem_of_app; tauto).
  split_and!.
  - apply lookup_insert_Some in Hpl as [[<- _]|[_ Hpl]]; [by destruct (H1 _ _ Hcl) as (_ & _ & _ & ? & _)|].
    by destruct (H1 _ _ Hpl) as (_ & _ & _ & ? & _).
  - by destruct (H1 _ _ Hcl) as (_ & _ & _ & ? & _).
  - destruct Hown as (l & xs & Hl & Hx). by destruct (Inv_live _ _ _ _ _ HI Hl Hx).
  - by destruct (Inv_live _ _ _ _ b HI Hcl (Hsub _ Hbin)).
  - by destruct (Inv_live _ _ _ _ e HI Hcl (Hsub _ Hein)).
  - intros ->. by apply (Hlo pos).
  - intros ->. by apply (Hlo pos).
  - done.
Qed.

Lemma add_sz_Ok (m : fld) (d : gmap nat V) (z : gmap nat Z) (a : gmap nat bool) l n k : z !! l = Some n ->
  add_sz (SMem m d z a) l k = Ok (SMem m d (<[l:=(n + k)%Z]> z) a).
Proof. intros Hl. unfold add_sz, get_sz. cbn [sz]. rewrite Hl. done. Qed.

Lemma moved_sizes s A pl cl run pre post u v : Inv s A -> pl <> cl ->
  lists A !! cl = Some (pre ++ run ++ post) -> <[cl:=pre ++ post]> (lists A) !! pl = Some (u ++ v) ->
  sz s !! cl = Some (Z.of_nat (length (pre ++ run ++ post))) /\
  sz s !! pl = Some (Z.of_nat (length (u ++ v))).
Proof.
  intros HI Hne Hcl Hpl. pose proof HI as (_ & _ & _ & _ & H1 & _).
  rewrite lookup_insert_ne in Hpl by done. split; [by destruct (H1 _ _ Hcl)|by destruct (H1 _ _ Hpl)].
Qed.

Lemma step_splice s A pl pos cl e A' : Inv s A -> moved A pl pos cl [e] A' ->
  exists s', sll_splice s pl pos cl e = Ok (s', OK) /\ Inv s' A'.
Proof.
  intros HI (pre & post & u & v & Hcl & Hpl & Hpos & ->).
  assert (Hrun : runs e e [e]) by done.
  destruct (moved_facts _ _ _ _ _ _ _ _ _ _ _ _ HI Hcl Hpl Hpos Hrun) as (Hpl0 & Hcl0 & Hpos0 & _ & He0 & _ & Hne & Hown).
  destruct (last_cons_inv cl pre) as (_ & p & _ & Hp).
  destruct (splice_core _ _ _ _ _ _ _ _ _ _ _ _ _ HI Hcl Hpl Hpos Hp Hrun) as (Hem & Hps & Hposm & [pn Hpn] & _ & _ & HI').
  pose proof HI as (_ & _ & Ha & Hr & _).
  unfold sll_splice.
  pose proof (proj2 (Nat.eqb_neq _ _) Hpl0) as ->. pose proof (proj2 (Nat.eqb_neq _ _) Hcl0) as ->.
  pose proof (proj2 (Nat.eqb_neq _ _) Hpos0) as ->. pose proof (proj2 (Nat.eqb_neq _ _) He0) as ->.
  pose proof (proj2 (Nat.eqb_neq _ _) Hne) as ->. cbn [orb].
  rewrite (rd_Ok _ _ _ Hpn). bind. destruct (Nat.eqb_spec pn e) as [->|Hpne].
  - exists s. split; [done|].
    assert (pos = p) as -> by (by eapply rings_pred).
    by rewrite (moved_adjacent A pl p cl [e] pre post u v).
  - rewrite (Inv_before s A cl pre e post p HI Hcl Hp). bind. rewrite (rd_Ok _ _ _ Hem). bind.
    rewrite (wr_Ok _ _ _ Hps). bind. rewrite (rd_Ok _ _ _ Hposm). bind.
    rewrite wr_Ok by (rewrite lookup_insert_is_Some'; eauto). bind.
    rewrite wr_Ok by (rewrite !lookup_insert_is_Some'; eauto). bind. unfold with_nx.
    destruct (Nat.eqb_spec pl cl) as [->|Hpc]; [eauto|].
    destruct (moved_sizes _ _ _ _ _ _ _ _ _ HI Hpc Hcl Hpl) as [Hscl Hspl].
    erewrite add_sz_Ok by done. bind.
    erewrite add_sz_Ok by (rewrite lookup_insert_ne by done; done). bind. eexists. split; [done|exact HI'].
Qed.

Lemma step_splice_range s A pl pos cl b e run A' : Inv s A -> moved A pl pos cl run A' -> runs b e run ->
  exists s', sll_splice_range s pl pos cl b e = Ok (s', OK) /\ Inv s' A'.
Proof.
  intros HI Hmv Hrun. pose proof Hmv as (pre & post & u & v & Hcl & Hpl & Hpos & ->).
  destruct (moved_facts _ _ _ _ _ _ _ _ _ _ _ _ HI Hcl Hpl Hpos Hrun) as (Hpl0 & Hcl0 & Hpos0 & Hb0 & He0 & Hbne & Hne & Hown).
  destruct (last_cons_inv cl pre) as (_ & p & _ & Hp).
  destruct (splice_core _ _ _ _ _ _ _ _ _ _ _ _ _ HI Hcl Hpl Hpos Hp Hrun) as (Hem & Hps & Hposm & [pn Hpn] & Hpr & _ & HI').
  pose proof HI as (_ & _ & Ha & Hr & _).
  destruct (runs_split _ _ _ Hrun) as (r & Hrr & Hein & Hbin).
  unfold sll_splice_range.
  pose proof (proj2 (Nat.eqb_neq _ _) Hpl0) as ->. pose proof (proj2 (Nat.eqb_neq _ _) Hcl0) as ->.
  pose proof (proj2 (Nat.eqb_neq _ _) Hpos0) as ->. pose proof (proj2 (Nat.eqb_neq _ _) He0) as ->.
  pose proof (proj2 (Nat.eqb_neq _ _) Hb0) as ->.
  pose proof (proj2 (Nat.eqb_neq _ _) Hne) as ->. pose proof (proj2 (Nat.eqb_neq _ _) Hbne) as ->. cbn [orb].
  assert (Hcl' : lists A !! cl = Some (pre ++ b :: (r ++ post))) by (by rewrite Hcl, Hrr).
  destruct (apart_unlink _ _ _ _ _ Ha Hcl) as [Ha' [Hndr _]].
  rewrite (rd_Ok _ _ _ Hpn). bind. destruct (Nat.eqb_spec pn b) as [->|Hpne].
  - exists s. split; [done|].
    assert (pos = p) as -> by (by apply (rings_pred (nx s) (lists A) cl pre b (r ++ post))).
    by rewrite (moved_adjacent A pl p cl run pre post u v).
  - destruct (Nat.eqb_spec b e) as [<-|Hbe].
    + assert (r = []) as ->.
      { destruct r as [|y r]; [done|]. exfalso. destruct Hrun as [_ Hl]. rewrite Hrr in Hl, Hndr.
        apply NoDup_cons in Hndr as [Hndr _]. apply Hndr. by eapply last_Some_elem_of. }
      rewrite Hrr in Hmv. destruct (step_splice _ _ _ _ _ _ _ HI Hmv) as (s' & -> & HI''). bind.
      rewrite <- Hrr in HI''. eauto.
    + rewrite (Inv_before s A cl pre b (r ++ post) p HI Hcl' Hp). bind. rewrite (rd_Ok _ _ _ Hem). bind.
      rewrite (wr_Ok _ _ _ Hps). bind. rewrite (rd_Ok _ _ _ Hposm). bind.
      rewrite wr_Ok by (rewrite lookup_insert_is_Some'; eauto). bind.
      rewrite wr_Ok by (rewrite !lookup_insert_is_Some'; eauto). bind. unfold with_nx.
      destruct (Nat.eqb_spec pl cl) as [->|Hpc]; [eauto|].
      destruct (moved_sizes _ _ _ _ _ _ _ _ _ HI Hpc Hcl Hpl) as [Hscl Hspl].
      unfold len, get_sz. cbn [nx sz]. rewrite Hscl. bind.
      pose proof (path_size _ _ _ Hndr Hpr) as Hsz.
      erewrite (len_loop_Ok _ _ _ e run); [|done|done|done|lia|rewrite !app_length; lia]. bind.
      replace (1 + Z.of_nat (length run) - 1)%Z with (Z.of_nat (length run)) by lia.
      erewrite add_sz_Ok by done. bind.
      erewrite add_sz_Ok by (rewrite lookup_insert_ne by done; done). bind. eexists. split; [done|exact HI'].
Qed.

Lemma step_splice_self s A pl cl e xs ys : Inv s A -> lists A !! pl = Some xs -> lists A !! cl = Some ys ->
  e ∈ ys -> sll_splice s pl e cl e = Ok (s, OK).
Proof.
  intros HI Hpl Hcl He. destruct (Inv_live _ _ _ _ e HI Hcl) as [_ He0]; [by right|].
  pose proof HI as (_ & _ & _ & _ & H1 & _). destruct (H1 _ _ Hpl) as (_ & _ & _ & Hp0 & _).
  destruct (H1 _ _ Hcl) as (_ & _ & _ & Hc0 & _). unfold sll_splice.
  apply Nat.eqb_neq in He0, Hp0, Hc0. rewrite He0, Hp0, Hc0, Nat.eqb_refl. done.
Qed.

Lemma step_splice_range_self s A pl pos cl b e xs ys : Inv s A -> lists A !! pl = Some xs ->
  lists A !! cl = Some ys -> b ∈ ys -> e ∈ ys -> pos = b \/ pos = e ->
  sll_splice_range s pl pos cl b e = Ok (s, OK).
Proof.
  intros HI Hpl Hcl Hb He Hpos. destruct (Inv_live _ _ _ _ e HI Hcl) as [_ He0]; [by right|].
  destruct (Inv_live _ _ _ _ b HI Hcl) as [_ Hb0]; [by right|].
  pose proof HI as (_ & _ & _ & _ & H1 & _). destruct (H1 _ _ Hpl) as (_ & _ & _ & Hp0 & _).
  destruct (H1 _ _ Hcl) as (_ & _ & _ & Hc0 & _). unfold sll_splice_range.
  assert (Hpos0 : pos <> 0) by (destruct Hpos; congruence).
  apply Nat.eqb_neq in He0, Hb0, Hp0, Hc0, Hpos0. rewrite He0, Hb0, Hp0, Hc0, Hpos0. cbn [orb].
  destruct Hpos as [->| ->]; rewrite Nat.eqb_refl; [done|]. by rewrite orb_true_r.
Qed.

(** ** Clearing, reading *)

Lemma set_list_twice A l x xs fr gone : 
  set_list (set_list A l xs fr [x]) l [] fr gone = set_list A l [] fr (x :: gone).
Proof.
  unfold set_list. cbn [lists vals]. rewrite insert_insert. f_equal. destruct fr; [|done].
  by rewrite (foldr_delete_cons (vals A) x gone).
Qed.

Lemma clear_loop_Ok l fn fr : al !! l = Some fr -> forall xs fuel s A, Inv s A -> lists A !! l = Some xs ->
  length xs <= fuel ->
  exists s', clear_loop fuel s l fn =
      Ok (s', if fn then map (fun x => (x, vals A !! x)) xs else []) /\
    Inv s' (set_list A l [] fr xs).
Proof.
  intros Hal. induction xs as [|x xs IH]; intros fuel s A HI Hl Hf.
  - pose proof HI as (_ & _ & _ & _ & H1 & _). destruct (H1 _ _ Hl) as (Hs & _).
    exists s. split.
    + destruct fuel; cbn [clear_loop]; unfold get_sz; rewrite Hs; bind; by destruct fn.
    + unfold set_list. simpl. rewrite insert_id by done.
      replace (if fr then vals A else vals A) with (vals A) by (by destruct fr). by rewrite view_eta.
  - destruct fuel as [|fuel]; [simpl in Hf; lia|].
    destruct (step_pop _ _ _ _ _ _ HI Hl Hal) as (s1 & Hpop & HI1).
    pose proof HI as (Hd & Hal' & Ha & _ & H1 & _). destruct (H1 _ _ Hl) as (Hs & _ & _ & Hl0 & _).
    destruct (pop_Ok _ _ _ _ _ HI Hl) as [Hpf _].
    destruct (IH fuel s1 _ HI1) as (s2 & Hc & HI2).
    { unfold set_list. cbn [lists]. by rewrite lookup_insert. }
    { simpl in Hf. lia. }
    exists s2. rewrite set_list_twice in HI2. split; [|done].
    cbn [clear_loop]. unfold get_sz. rewrite Hs. bind.
    unfold sll_pop_front in Hpop. apply Nat.eqb_neq in Hl0. rewrite Hl0 in Hpop.
    unfold get_sz in Hpop. rewrite Hs in Hpop. revert Hpop. bind.
    destruct (Z.eqb_spec (Z.of_nat (length (x :: xs))) 0) as [Hz|_]; [simpl in Hz; lia|].
    rewrite Hpf. bind. unfold has_alloc. cbn [SllModel.al]. rewrite Hal', Hal. bind. intros Hpop.
    assert (Hfree : (if fr then free (SMem (<[x:=0]> (<[l:=hd l xs]> (nx s))) (dat s)
        (<[l:=(Z.of_nat (S (length xs)) - 1)%Z]> (sz s)) al) x
      else Ok (SMem (<[x:=0]> (<[l:=hd l xs]> (nx s))) (dat s)
        (<[l:=(Z.of_nat (S (length xs)) - 1)%Z]> (sz s)) al)) = Ok s1).
    { destruct fr; [|by simplify_eq]. by destruct (free _ _); simplify_eq/=. }
    rewrite Hfree. bind. rewrite Hc. bind. cbn [dat]. rewrite Hd. do 2 f_equal.
    destruct fn; [|done]. cbn [map]. f_equal. apply map_ext_in. intros y Hy.
    apply elem_of_list_In in Hy. f_equal. cbn [set_list vals]. destruct fr; [|done].
    cbn [foldr]. rewrite lookup_delete_ne; [done|]. intros <-.
    destruct Ha as [Hn _]. specialize (Hn _ _ Hl). apply NoDup_cons in Hn as [_ Hn].
    by apply NoDup_cons in Hn as [Hn _].
Qed.

Lemma step_clear s A l fn xs fr : Inv s A -> lists A !! l = Some xs -> al !! l = Some fr ->
  exists s', sll_clear s l fn = Ok (s', OK, if fn then map (fun x => (x, vals A !! x)) xs else []) /\
    Inv s' (set_list A l [] fr xs).
Proof.
  intros HI Hl Hal. destruct (Inv_ring _ _ _ _ HI Hl) as [Hp Hnd]. pose proof (path_size _ _ _ Hnd Hp) as Hsz.
  pose proof HI as (_ & _ & _ & _ & H1 & _). destruct (H1 _ _ Hl) as (_ & _ & _ & Hl0 & _).
  destruct (clear_loop_Ok l fn fr Hal xs (size (nx s)) s A HI Hl) as (s' & Hc & HI'); [simpl in Hsz; lia|].
  unfold sll_clear. apply Nat.eqb_neq in Hl0. rewrite Hl0, Hc. bind. eauto.
Qed.

Lemma front_Ok s A l xs : Inv s A -> lists A !! l = Some xs -> sll_front s l = Ok (hd 0 xs).
Proof.
  intros HI Hl. destruct (Inv_ring _ _ _ _ HI Hl) as [[Hlm Hp] Hnd].
  pose proof HI as (_ & _ & _ & _ & H1 & _). destruct (H1 _ _ Hl) as (_ & _ & _ & Hl0 & _).
  unfold sll_front. apply Nat.eqb_neq in Hl0. rewrite Hl0, (rd_Ok _ _ _ Hlm). bind.
  rewrite hd_ret; [done|]. by apply NoDup_cons in Hnd as [Hnd _].
Qed.

Lemma iterate_Ok s l : l <> 0 -> forall ps fuel, path (nx s) (map fst ps) l -> l ∉ map fst ps ->
  Forall (fun p => dat s !! fst p = Some (snd p) /\ fst p <> 0) ps -> length ps <= fuel ->
  iterate fuel s l (hd 0 (map fst ps)) = Ok ps.
Proof.
  intros Hl0. induction ps as [|[x v] ps IH]; intros fuel Hp Hl Hf Hn; [by destruct fuel|].
  cbn [map fst] in *. destruct fuel as [|fuel]; [simpl in Hn; lia|].
  apply Forall_cons in Hf as [[Hx Hx0] Hf]. cbn [fst snd] in *. destruct Hp as [Hxm Hp].
  apply not_elem_of_cons in Hl as [_ Hl]. cbn [iterate hd]. apply Nat.eqb_neq in Hx0, Hl0. rewrite Hx0, Hx.
  unfold sll_next. rewrite Hl0, Hx0. cbn [orb]. rewrite (rd_Ok _ _ _ Hxm). bind. rewrite hd_ret by done.
  rewrite IH; [done|done|done|done|simpl in Hn; lia].
Qed.

Lemma step_iter s A l ps : Inv s A -> lists A !! l = Some (map fst ps) ->
  Forall (fun p => vals A !! fst p = Some (snd p)) ps -> sll_iter s l = Ok ps.
Proof.
  intros HI Hl Hf. destruct (Inv_ring _ _ _ _ HI Hl) as [Hp Hnd]. pose proof (path_size _ _ _ Hnd Hp) as Hsz.
  pose proof HI as (Hd & _ & _ & _ & H1 & H2). destruct (H1 _ _ Hl) as (_ & _ & _ & Hl0 & _).
  unfold sll_iter. rewrite (front_Ok _ _ _ _ HI Hl). bind. apply iterate_Ok.
  - done.
  - by destruct Hp.
  - by apply NoDup_cons in Hnd as [Hnd _].
  - eapply Forall_impl; [done|]. intros p Hv. rewrite Hd. split; [done|by destruct (H2 _ _ Hv)].
  - simpl in Hsz. rewrite map_length in Hsz. lia.
Qed.

Lemma iter_exists s A l xs : Inv s A -> lists A !! l = Some xs ->
  exists ps, xs = map fst ps /\ Forall (fun p => vals A !! fst p = Some (snd p)) ps.
Proof.
  intros (_ & _ & _ & _ & H1 & _) Hl. destruct (H1 _ _ Hl) as (_ & _ & _ & _ & Hin). clear -Hin.
  induction xs as [|x xs IH]; [by exists []|]. destruct (Hin x) as [v Hv]; [left|].
  destruct IH as (ps & -> & Hf); [intros y Hy; apply Hin; by right|]. exists ((x, v) :: ps).
  split; [done|]. by constructor.
Qed.

Lemma validate_loop_Ok m n l : forall xs fuel c, path m xs l -> NoDup xs -> l ∉ xs -> l <> 0 ->
  (forall x, x ∈ xs -> x <> 0) -> length xs <= fuel -> (c + Z.of_nat (length xs) = n)%Z ->
  validate_loop fuel m n l (hd l xs) c = Ok true.
Proof.
  induction xs as [|x xs IH]; intros fuel c Hp Hnd Hl Hl0 H0 Hf Hc.
  - destruct fuel; cbn [validate_loop hd]; rewrite Nat.eqb_refl; f_equal; apply Z.eqb_eq; simpl in Hc; lia.
  - destruct fuel as [|fuel]; [simpl in Hf; lia|]. apply not_elem_of_cons in Hl as [Hlx Hl].
    apply NoDup_cons in Hnd as [Hx Hnd]. destruct Hp as [Hxm Hp]. cbn [validate_loop hd].
    destruct (Nat.eqb_spec x l) as [->|_]; [done|]. destruct (Z.leb_spec n c); [simpl in Hc; lia|].
    destruct (Nat.eqb_spec x 0) as [->|_]; [by destruct (H0 0); [left|]|].
    rewrite (rd_Ok _ _ _ Hxm). bind.
    assert (hd l xs <> 0 /\ hd l xs <> x) as [Hh0 Hhx].
    { destruct xs as [|y xs]; simpl; [split; congruence|]. split; [apply H0; right; left|].
      intros ->. apply Hx. left. }
    apply Nat.eqb_neq in Hh0, Hhx. rewrite Hh0, Hhx. cbn [orb].
    apply IH; try done; [|simpl in Hf; lia|simpl in Hc; lia]. intros y Hy. apply H0. by right.
Qed.

Lemma step_validate s A l xs : Inv s A -> lists A !! l = Some xs -> sll_validate s l = Ok true.
Proof.
  intros HI Hl. destruct (Inv_ring _ _ _ _ HI Hl) as [Hp Hnd]. pose proof (path_size _ _ _ Hnd Hp) as Hsz.
  pose proof HI as (_ & _ & _ & _ & H1 & _). destruct (H1 _ _ Hl) as (Hs & _ & _ & Hl0 & _).
  pose proof Hnd as [Hlx Hnx]%NoDup_cons. pose proof Hp as [Hlm Hp'].
  unfold sll_validate, get_sz. rewrite Hs. bind. rewrite (rd_Ok _ _ _ Hlm). bind.
  apply validate_loop_Ok; try done; [|lia]. intros x Hx.
  destruct (Inv_live _ _ _ _ x HI Hl) as [_ ?]; [by right|done].
Qed.

(** ** All calls *)

Lemma step_Ok s A o r A' : Inv s A -> call al A o r A' -> exists s', sll_step s o = Ok (s', r) /\ Inv s' A'.
Proof.
  intros HI Hc. pose proof HI as (_ & _ & _ & _ & H1 & _). destruct Hc; cbn [sll_step].
  - eexists. split; [done|]. by apply Inv_new.
  - edestruct step_push as (s' & -> & ?); [done..|]. bind. eauto.
  - edestruct step_push_alloc as (s' & -> & ?); [done..|]. bind. eauto.
  - erewrite step_push_refused by done. bind. eauto.
  - edestruct step_pop as (s' & -> & ?); [done..|]. bind. eauto.
  - destruct (H1 _ _ H) as (Hs & _ & _ & Hl0 & _). unfold sll_pop_front. apply Nat.eqb_neq in Hl0.
    rewrite Hl0. unfold get_sz. rewrite Hs. bind. eauto.
  - erewrite front_Ok by done. bind. eauto.
  - edestruct (step_remove true) as (s' & -> & ?); [done..|]. bind. eauto.
  - destruct (H1 _ _ H) as (_ & [fr Hfr] & _).
    edestruct (step_remove false) as (s' & -> & ?); [done..|]. bind. eauto.
  - edestruct (step_remove_range true) as (s' & -> & ?); [done..|]. bind. eauto.
  - destruct (H1 _ _ H) as (_ & [fr Hfr] & _).
    edestruct (step_remove_range false) as (s' & -> & ?); [done..|]. bind. eauto.
  - edestruct step_splice as (s' & -> & ?); [done..|]. bind. eauto.
  - erewrite step_splice_self by done. bind. eauto.
  - edestruct step_splice_range as (s' & -> & ?); [done..|]. bind. eauto.
  - erewrite step_splice_range_self by done. bind. eauto.
  - edestruct step_clear as (s' & -> & ?); [done..|]. bind. eauto.
  - erewrite step_iter by done. bind. eauto.
  - destruct (H1 _ _ H) as (Hs & _ & _ & Hl0 & _). unfold sll_size. apply Nat.eqb_neq in Hl0. rewrite Hl0.
    unfold get_sz. rewrite Hs. bind. eauto.
  - destruct (H1 _ _ H) as (Hs & _ & _ & Hl0 & _). unfold sll_is_empty. apply Nat.eqb_neq in Hl0. rewrite Hl0.
    unfold get_sz. rewrite Hs. bind. exists s. split; [|done]. do 3 f_equal. by destruct xs.
  - erewrite step_validate by done. bind. eauto.
Qed.

Lemma run_Ok s A os rs A' : Inv s A -> calls al A os rs A' -> exists s', sll_run s os = Ok (s', rs) /\ Inv s' A'.
Proof.
  intros HI Hc. revert s HI. induction Hc as [A|A o r A1 os rs A2 Hc Hcs IH]; intros s HI; [by exists s|].
  destruct (step_Ok _ _ _ _ _ HI Hc) as (s1 & Hs & HI1). destruct (IH _ HI1) as (s2 & Hr & HI2).
  exists s2. split; [|done]. cbn [sll_run]. rewrite Hs. bind. rewrite Hr. done.
Qed.

Lemma Inv_shows s A : Inv s A -> shows s A.
Proof.
  intros HI l xs Hl. pose proof HI as (_ & _ & _ & _ & H1 & _). destruct (H1 _ _ Hl) as (Hs & _ & _ & Hl0 & _).
  split.
  - unfold sll_size. apply Nat.eqb_neq in Hl0. rewrite Hl0. unfold get_sz. by rewrite Hs.
  - destruct (iter_exists _ _ _ _ HI Hl) as (ps & -> & Hf). exists ps. split_and!; [|done|done].
    by apply (step_iter s A l ps).
Qed.

End proofs.

Lemma init_Inv {V} (ls : list (nat * bool)) : (forall l a, (l, a) ∈ ls -> l <> 0) ->
  Inv (V:=V) (list_to_map ls) (sll_init ls) (start ls).
Proof.
  intros H0. unfold sll_init, start.
  assert (Hk : forall l xs, (list_to_map (map (fun x : nat * bool => (x.1, @nil nat)) ls) : fam) !! l = Some xs ->
    xs = [] /\ l <> 0 /\ is_Some ((list_to_map ls : gmap nat bool) !! l) /\
    (list_to_map (map (fun x : nat * bool => (x.1, x.1)) ls) : fld) !! l = Some l /\
    (list_to_map (map (fun x : nat * bool => (x.1, 0%Z)) ls) : gmap nat Z) !! l = Some 0%Z).
  { induction ls as [|[l0 a] ls IH]; simpl; intros l xs; [by rewrite lookup_empty|].
    destruct (decide (l0 = l)) as [->|Hne].
    - rewrite !lookup_insert. intros [= <-]. split_and!; try done. eapply H0. left.
    - rewrite !lookup_insert_ne by done. apply IH. intros l' a' Hin. eapply H0. by right. }
  split_and!; cbn [nx dat sz SllModel.al lists vals]; try done.
  - split.
    + intros l xs Hl. apply Hk in Hl as (-> & _). apply NoDup_singleton.
    + intros l l' xs xs' x Hl Hl' Hne Hx Hx'. apply Hk in Hl as (-> & _). apply Hk in Hl' as (-> & _).
      apply elem_of_list_singleton in Hx, Hx'. congruence.
  - intros l xs Hl. apply Hk in Hl as (-> & _ & _ & Hl & _). simpl. done.
  - intros l xs Hl. apply Hk in Hl as (-> & Hl0 & Ha & _ & Hs). split_and!; try done.
    by intros x ?%elem_of_nil.
Qed.

Lemma history {V} (ls : list (nat * bool)) os rs A : (forall l a, (l, a) ∈ ls -> l <> 0) ->
  calls (V:=V) (list_to_map ls) (start ls) os rs A ->
  exists s, sll_run (sll_init ls) os = Ok (s, rs) /\ shows s A.
Proof.
  intros H0 Hc. destruct (run_Ok _ _ _ _ _ _ (init_Inv ls H0) Hc) as (s & Hr & HI).
  exists s. split; [done|]. by eapply Inv_shows.
Qed.

(** ** Statements per operation *)

Section after.
Context {V : Type} (ls : list (nat * bool)) (H0 : forall l a, (l, a) ∈ ls -> l <> 0).
Context (os : list (sll_op V)) (rs : list (sll_res V)) (A : view V).
Hypothesis Hc : calls (list_to_map ls) (start ls) os rs A.

Lemma after_call o r A' : call (list_to_map ls) A o r A' ->
  exists s s', sll_run (sll_init ls) os = Ok (s, rs) /\ sll_step s o = Ok (s', r) /\ shows s' A' /\
    (forall l xs, lists A' !! l = Some xs -> sll_validate s' l = Ok true).
Proof.
  intros Hcall. destruct (run_Ok _ _ _ _ _ _ (init_Inv ls H0) Hc) as (s & Hr & HI).
  destruct (step_Ok _ _ _ _ _ _ HI Hcall) as (s' & Hs & HI'). exists s, s'. split_and!; [done|done| |].
  - by eapply Inv_shows.
  - intros l xs Hl. by eapply step_validate.
Qed.

Lemma after_splice_range pl pos cl b e run A' : moved A pl pos cl run A' -> runs b e run ->
  exists s s', sll_run (sll_init ls) os = Ok (s, rs) /\
    sll_splice_range s pl pos cl b e = Ok (s', OK) /\ shows s' A' /\
    (forall l xs, lists A' !! l = Some xs -> sll_validate s' l = Ok true).
Proof.
  intros Hm Hr. destruct (after_call (SSpliceRange pl pos cl b e) (RResult OK) A') as (s & s' & H1 & H2 & H3).
  - by apply (call_splice_range _ A pl pos cl b e run).
  - exists s, s'. split; [done|]. split; [|done]. cbn [sll_step] in H2.
    destruct (sll_splice_range s pl pos cl b e) as [[s1 r]| |]; simplify_eq/=. done.
Qed.

Lemma after_splice pl pos cl e A' : moved A pl pos cl [e] A' ->
  exists s s', sll_run (sll_init ls) os = Ok (s, rs) /\
    sll_splice s pl pos cl e = Ok (s', OK) /\ shows s' A' /\
    (forall l xs, lists A' !! l = Some xs -> sll_validate s' l = Ok true).
Proof.
  intros Hm. destruct (after_call (SSplice pl pos cl e) (RResult OK) A') as (s & s' & H1 & H2 & H3).
  - by apply call_splice.
  - exists s, s'. split; [done|]. split; [|done]. cbn [sll_step] in H2.
    destruct (sll_splice s pl pos cl e) as [[s1 r]| |]; simplify_eq/=. done.
Qed.

Lemma after_remove_range (f : bool) l b e pre run post fr : lists A !! l = Some (pre ++ run ++ post) ->
  runs b e run -> (list_to_map ls : gmap nat bool) !! l = Some fr ->
  exists s s', sll_run (sll_init ls) os = Ok (s, rs) /\
    sll_remove_range f s l b e = Ok (s', hd 0 post) /\
    shows s' (set_list A l (pre ++ post) (f && fr) run).
Proof.
  intros Hl Hrun Hfr. destruct (run_Ok _ _ _ _ _ _ (init_Inv ls H0) Hc) as (s & Hr & HI).
  destruct (step_remove_range _ f s A l b e pre run post fr HI Hl Hrun Hfr) as (s' & Hs & HI').
  exists s, s'. split_and!; [done|done|]. by eapply Inv_shows.
Qed.

(** A range without end points in the list is refused. *)
Lemma after_no_range (f : bool) l b e xs : l = 0 \/ lists A !! l = Some xs ->
  l = 0 \/ b = 0 \/ e = 0 \/ xs = [] \/ b = l \/ e = l ->
  exists s, sll_run (sll_init ls) os = Ok (s, rs) /\ sll_remove_range f s l b e = Ok (s, 0).
Proof.
  intros Hl Hno. destruct (run_Ok _ _ _ _ _ _ (init_Inv ls H0) Hc) as (s & Hr & HI).
  exists s. split; [done|]. unfold sll_remove_range.
  destruct (Nat.eqb_spec l 0) as [|Hl0]; [done|]. destruct Hl as [|Hl]; [done|].
  destruct (Nat.eqb_spec b 0) as [|Hb]; [done|]. destruct (Nat.eqb_spec e 0) as [|He]; [done|]. cbn [orb].
  pose proof HI as (_ & _ & _ & _ & H1 & _). destruct (H1 _ _ Hl) as (Hs & _). unfold get_sz. rewrite Hs. cbn [mbind outcome_bind obind].
  destruct Hno as [?|[?|[?|[-> |[-> | ->]]]]]; try done.
  - by rewrite Nat.eqb_refl, orb_true_r.
  - by rewrite Nat.eqb_refl, orb_true_r.
Qed.

Lemma after_clear l fn xs fr : lists A !! l = Some xs -> (list_to_map ls : gmap nat bool) !! l = Some fr ->
  exists s s', sll_run (sll_init ls) os = Ok (s, rs) /\
    sll_clear s l fn = Ok (s', OK, if (fn : bool) then map (fun x => (x, vals A !! x)) xs else []) /\
    NoDup xs /\ (forall x, x ∈ xs -> is_Some (vals A !! x)) /\
    shows s' (set_list A l [] fr xs).
Proof.
  intros Hl Hfr. destruct (run_Ok _ _ _ _ _ _ (init_Inv ls H0) Hc) as (s & Hr & HI).
  destruct (step_clear _ s A l fn xs fr HI Hl Hfr) as (s' & Hs & HI').
  exists s, s'. split_and!; [done|done| | |].
  - pose proof HI as (_ & _ & [Hn _] & _). specialize (Hn _ _ Hl). by apply NoDup_cons in Hn as [_ Hn].
  - pose proof HI as (_ & _ & _ & _ & H1 & _). by destruct (H1 _ _ Hl) as (_ & _ & _ & _ & Hin).
  - by eapply Inv_shows.
Qed.
End after.

(** A move keeps the elements of the two lists together, and all other lists. *)
Lemma moved_keeps {V} (A A' : view V) pl pos cl run : moved A pl pos cl run A' ->
  exists xs ys xs' ys', lists A !! pl = Some xs /\ lists A !! cl = Some ys /\
    lists A' !! pl = Some xs' /\ lists A' !! cl = Some ys' /\
    (if pl =? cl then xs' ≡ₚ xs
     else xs' ≡ₚ run ++ xs /\ ys ≡ₚ run ++ ys') /\
    vals A' = vals A /\
    forall l, l <> pl -> l <> cl -> lists A' !! l = lists A !! l.
Proof.
  intros (pre & post & u & v & Hcl & Hpl & _ & ->). cbn [lists vals].
  destruct (Nat.eqb_spec pl cl) as [->|Hne].
  - exists (pre ++ run ++ post), (pre ++ run ++ post), (u ++ run ++ v), (u ++ run ++ v).
    rewrite lookup_insert in Hpl. simplify_eq. rewrite lookup_insert. split_and!; try done.
    + rewrite (Permutation_app_swap_app u), (Permutation_app_swap_app pre). by rewrite Hpl.
    + intros l Hl _. by rewrite !lookup_insert_ne.
  - rewrite lookup_insert_ne in Hpl by done.
    exists (u ++ v), (pre ++ run ++ post), (u ++ run ++ v), (pre ++ post).
    rewrite lookup_insert, lookup_insert_ne, lookup_insert by done. split_and!; try done.
    + by rewrite (Permutation_app_swap_app u).
    + by rewrite (Permutation_app_swap_app pre).
    + intros l Hl Hl'. by rewrite !lookup_insert_ne.
Qed.

(** For examples. *)
Lemma unlisted_compute {V} (A : view V) e :
  bool_decide (map_Forall (fun _ xs => e ∉ xs) (lists A)) = true -> unlisted A e.
Proof. intros H%bool_decide_eq_true l xs Hl. by apply (H l xs). Qed.
