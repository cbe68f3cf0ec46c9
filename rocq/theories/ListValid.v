(** What the answer of validate is worth for linked lists. *)
From stdpp Require Import base numbers option gmap fin_maps list.
From Verif Require Import Common LinkHeap PathLemmas.
From Verif Require SllModel SllSpec SllProofs DllModel DllSpec DllProofs.

Local Ltac bind := cbn [mbind outcome_bind obind].

(** Memory in which validate may be asked: elements [dat] and lists [sz] with links
    [m]. Every element belongs to some list, given by [pool], or to none; links lead
    to NULL, to the sentinel of that list, or to elements that belong to it. *)
Definition leads {V} (dat : gmap nat V) (pool : nat -> nat) (l n : nat) : Prop :=
  n = 0 \/ n = l \/ is_Some (dat !! n) /\ pool n = l.
Definition pooled {V} (m : fld) (dat : gmap nat V) (sz : gmap nat Z) (pool : nat -> nat) : Prop :=
  (forall x, is_Some (dat !! x) -> x <> 0 /\ exists n, m !! x = Some n /\ leads dat pool (pool x) n) /\
  (forall l, is_Some (sz !! l) -> l <> 0 /\ dat !! l = None /\ exists n, m !! l = Some n /\ leads dat pool l n).

Lemma path_det m l : forall xs ys, path m xs l -> path m ys l -> hd l xs = hd l ys -> l ∉ xs -> l ∉ ys -> xs = ys.
Proof.
  induction xs as [|x xs IH]; intros [|y ys]; cbn [path hd]; intros Hx Hy He Hlx Hly.
  - done.
  - destruct Hly. subst. left.
  - destruct Hlx. subst. left.
  - subst y. destruct Hx as [Hx Hxs], Hy as [Hy Hys]. f_equal. apply IH; try done; [congruence|..].
    + intros H. apply Hlx. by right.
    + intros H. apply Hly. by right.
Qed.

Lemma path_NoDup m l : forall xs, path m xs l -> l ∉ xs -> NoDup xs.
Proof.
  induction xs as [|x xs IH]; intros Hp Hl; [constructor|]. pose proof Hp as [_ Hp'].
  apply not_elem_of_cons in Hl as [Hlx Hl]. constructor; [|by apply IH].
  intros (u & v & ->)%elem_of_list_split.
  pose proof Hp' as [_ Hv]%path_app. apply not_elem_of_app in Hl as Hl'. destruct Hl' as [_ Hlv].
  assert (x :: u ++ x :: v = x :: v) as He.
  { apply (path_det m l); [done|done|done|apply not_elem_of_cons; done|done]. }
  apply (f_equal length) in He. cbn in He. rewrite app_length in He. cbn in He. lia.
Qed.

Lemma map_choice {X Y} (P : nat -> Y -> Prop) (m : gmap nat X) : (forall l x, m !! l = Some x -> exists y, P l y) ->
  exists ls : gmap nat Y, (forall l y, ls !! l = Some y -> P l y) /\ forall l, is_Some (m !! l) <-> is_Some (ls !! l).
Proof.
  induction m as [|l x m Hl IH] using map_ind; intros H.
  - exists ∅. split; [intros l y; by rewrite lookup_empty|]. intros l. rewrite !lookup_empty. split; by intros [? ?].
  - destruct IH as (ls & H1 & H2).
    { intros l' x' Hl'. apply (H l' x'). rewrite lookup_insert_ne; [done|]. congruence. }
    destruct (H l x) as [y Hy]; [by rewrite lookup_insert|]. exists (<[l := y]> ls). split.
    + intros l' y'. destruct (decide (l = l')) as [<-|Hne].
      * rewrite lookup_insert. by intros [= <-].
      * rewrite lookup_insert_ne by done. apply H1.
    + intros l'. destruct (decide (l = l')) as [<-|Hne].
      * rewrite !lookup_insert. split; eauto.
      * rewrite !lookup_insert_ne by done. apply H2.
Qed.

(** Lists that are walked in pools are apart. *)
Lemma pooled_apart {V} m (dat : gmap nat V) sz pool (ls : fam) : pooled m dat sz pool ->
  (forall l xs, ls !! l = Some xs -> is_Some (sz !! l) /\ path m (l :: xs) l /\ l ∉ xs /\
    forall x, x ∈ xs -> is_Some (dat !! x) /\ pool x = l) -> apart ls.
Proof.
  intros [_ HL] H. split.
  - intros l xs Hl. destruct (H l xs Hl) as (_ & Hp & Hx & _). constructor; [done|]. eapply path_NoDup; [apply Hp|done].
  - intros l l' xs xs' x Hl Hl' Hne. rewrite !elem_of_cons.
    destruct (H l xs Hl) as (Hs & _ & _ & Hd), (H l' xs' Hl') as (Hs' & _ & _ & Hd').
    destruct (HL l Hs) as (_ & Hn & _), (HL l' Hs') as (_ & Hn' & _).
    intros [-> |Hx] [He|Hx'].
    + done.
    + destruct (Hd' l Hx') as [[? ?] _]. congruence.
    + subst x. destruct (Hd l' Hx) as [[? ?] _]. congruence.
    + destruct (Hd x Hx), (Hd' x Hx'). congruence.
Qed.

(** ** The singly linked list *)
Section sll.
Context {V : Type}.
Import SllModel SllSpec SllProofs.
Implicit Types (s : smem V).

Lemma sll_loop_ends m (dat : gmap nat V) sz pool n l : pooled m dat sz pool ->
  forall fuel e c, leads dat pool l e -> (n < c + Z.of_nat fuel)%Z -> 0 < fuel ->
  exists b, validate_loop fuel m n l e c = Ok b.
Proof.
  intros [HE _] fuel. induction fuel as [|f IH]; intros e c He Hf H0; [lia|]. cbn [validate_loop].
  destruct (Nat.eqb_spec e l); [eauto|]. destruct (Z.leb_spec n c); [eauto|]. destruct (Nat.eqb_spec e 0); [eauto|].
  destruct He as [|[|[He Hpe]]]; [done..|]. destruct (HE e He) as (_ & en & Hen & Hl). rewrite (rd_Ok _ _ _ Hen). bind.
  destruct (_ || _); [eauto|]. rewrite Hpe in Hl. apply IH; [done|lia|lia].
Qed.

Lemma sll_validate_decides s pool l : pooled (nx s) (dat s) (sz s) pool -> is_Some (sz s !! l) ->
  exists b, sll_validate s l = Ok b.
Proof.
  intros Hp [n Hn]. unfold sll_validate, get_sz. rewrite Hn. bind. pose proof Hp as [_ HL].
  destruct (HL l) as (_ & _ & e & He & Hl); [eauto|]. rewrite (rd_Ok _ _ _ He). bind.
  eapply sll_loop_ends; [done|done|lia|lia].
Qed.

Lemma sll_loop_true m (dat : gmap nat V) sz pool n l : pooled m dat sz pool ->
  forall fuel e c, leads dat pool l e -> validate_loop fuel m n l e c = Ok true ->
  exists xs, hd l xs = e /\ path m xs l /\ l ∉ xs /\ (c + Z.of_nat (length xs) = n)%Z /\
    forall x, x ∈ xs -> is_Some (dat !! x) /\ pool x = l.
Proof.
  intros [HE _] fuel. induction fuel as [|f IH]; intros e c He; cbn [validate_loop];
    destruct (Nat.eqb_spec e l) as [-> |Hel].
  1,3: intros [= Hc%Z.eqb_eq]; exists []; split; [done|]; split; [done|]; split; [by apply not_elem_of_nil|];
       split; [cbn; lia|]; by intros x ?%elem_of_nil.
  - done.
  - destruct (Z.leb_spec n c); [done|]. destruct (Nat.eqb_spec e 0); [done|].
    destruct He as [|[|[He Hpe]]]; [done..|]. destruct (HE e He) as (_ & en & Hen & Hl). rewrite (rd_Ok _ _ _ Hen). bind.
    destruct (_ || _); [done|]. rewrite Hpe in Hl.
    intros (xs & Hh & Hp & Hlx & Hc & Hx)%IH; [|done]. exists (e :: xs). cbn [hd path length]. rewrite Hh.
    split; [done|]. split; [done|]. split; [apply not_elem_of_cons; split; [congruence|done]|]. split; [lia|].
    intros x [-> |Hin]%elem_of_cons; [done|by apply Hx].
Qed.

Theorem sll_validate_Inv s pool : pooled (nx s) (dat s) (sz s) pool ->
  (forall l, is_Some (sz s !! l) -> is_Some (al s !! l)) ->
  (forall l, is_Some (sz s !! l) -> sll_validate s l = Ok true) ->
  exists A, vals A = dat s /\ (forall l, is_Some (sz s !! l) <-> is_Some (lists A !! l)) /\ Inv (al s) s A.
Proof.
  intros Hp Hal Hv. pose proof Hp as [HE HL].
  destruct (map_choice (fun l xs => sz s !! l = Some (Z.of_nat (length xs)) /\ path (nx s) (l :: xs) l /\ l ∉ xs /\
    forall x, x ∈ xs -> is_Some (dat s !! x) /\ pool x = l) (sz s)) as (ls & H1 & H2).
  { intros l n Hn. specialize (Hv l ltac:(eauto)). unfold sll_validate, get_sz in Hv. rewrite Hn in Hv.
    cbn [mbind outcome_bind obind] in Hv. destruct (HL l) as (_ & _ & e & He & Hl); [eauto|].
    rewrite (rd_Ok _ _ _ He) in Hv. cbn [mbind outcome_bind obind] in Hv.
    eapply sll_loop_true in Hv as (xs & Hh & Hpx & Hlx & Hc & Hx); [|done|done].
    exists xs. split; [rewrite Hn; f_equal; lia|]. split; [split; [by rewrite Hh|done]|]. done. }
  exists (View ls (dat s)). cbn [vals lists]. split; [done|]. split; [done|].
  split; [done|]. split; [done|]. cbn [vals lists]. split.
  { eapply pooled_apart; [done|]. intros l xs Hl. destruct (H1 l xs Hl) as (Hs & ? & ? & ?). eauto. }
  split; [intros l xs Hl; by destruct (H1 l xs Hl) as (_ & ? & _)|]. split.
  - intros l xs Hl. destruct (H1 l xs Hl) as (Hs & _ & _ & Hx). destruct (HL l) as (Hl0 & Hn & _); [eauto|].
    split; [done|]. split; [apply Hal; eauto|]. split; [done|]. split; [done|]. intros x Hxx. by destruct (Hx x Hxx).
  - intros e v He. destruct (HE e) as (He0 & n & Hn & _); [eauto|]. split; [eauto|done].
Qed.

Theorem sll_validate_usable s pool : pooled (nx s) (dat s) (sz s) pool ->
  (forall l, is_Some (sz s !! l) -> is_Some (al s !! l)) ->
  (forall l, is_Some (sz s !! l) -> sll_validate s l = Ok true) ->
  exists A, vals A = dat s /\ (forall l, is_Some (sz s !! l) <-> is_Some (lists A !! l)) /\ shows s A /\
    forall os rs A', calls (al s) A os rs A' -> exists s', sll_run s os = Ok (s', rs) /\ shows s' A'.
Proof.
  intros Hp Hal Hv. destruct (sll_validate_Inv s pool Hp Hal Hv) as (A & H1 & H2 & HI). exists A.
  split; [done|]. split; [done|]. split; [by eapply Inv_shows|].
  intros os rs A' Hc. destruct (run_Ok _ _ _ _ _ _ HI Hc) as (s' & Hr & HI'). exists s'. split; [done|]. by eapply Inv_shows.
Qed.
End sll.

(** ** The doubly linked list *)
Section dll.
Context {V : Type}.
Import DllModel DllSpec DllProofs.
Implicit Types (s : dmem V).

(** Every node also has a back link, anywhere. *)
Definition backed s : Prop := forall x, is_Some (dat s !! x) -> is_Some (pv s !! x).

(** What validate does not look at: a step forward and a step back along the list
    lead to where they started. *)
Definition mirrored s : Prop := forall l ps x y, is_Some (sz s !! l) -> dll_iter s l = Ok ps ->
  x ∈ l :: map fst ps -> nx s !! x = Some y -> pv s !! y = Some x.

Lemma dll_loop_ends s pool n l : pooled (nx s) (dat s) (sz s) pool -> backed s ->
  forall fuel e c, leads (dat s) pool l e -> (n < c + Z.of_nat fuel)%Z -> 0 < fuel ->
  exists b, validate_loop fuel (nx s) (pv s) n l e c = Ok b.
Proof.
  intros [HE _] HB fuel. induction fuel as [|f IH]; intros e c He Hf H0; [lia|]. cbn [validate_loop].
  destruct (Nat.eqb_spec e l); [eauto|]. destruct (Z.leb_spec n c); [eauto|]. destruct (Nat.eqb_spec e 0); [eauto|].
  destruct He as [|[|[He Hpe]]]; [done..|]. destruct (HE e He) as (_ & en & Hen & Hl). rewrite (rd_Ok _ _ _ Hen). bind.
  destruct (HB e He) as [ep Hep]. rewrite (rd_Ok _ _ _ Hep). bind.
  destruct (_ || _); [eauto|]. rewrite Hpe in Hl. apply IH; [done|lia|lia].
Qed.

Lemma dll_validate_decides s pool l : pooled (nx s) (dat s) (sz s) pool -> backed s -> is_Some (sz s !! l) ->
  exists b, dll_validate s l = Ok b.
Proof.
  intros Hp HB [n Hn]. unfold dll_validate. pose proof Hp as [_ HL].
  destruct (HL l) as (Hl0 & _ & e & He & Hl); [eauto|]. destruct (Nat.eqb_spec l 0); [done|].
  unfold get_sz. rewrite Hn. bind. rewrite (rd_Ok _ _ _ He). bind.
  eapply dll_loop_ends; [done|done|done|lia|lia].
Qed.

Lemma dll_loop_true s pool n l : pooled (nx s) (dat s) (sz s) pool -> backed s ->
  forall fuel e c, leads (dat s) pool l e -> validate_loop fuel (nx s) (pv s) n l e c = Ok true ->
  exists xs, hd l xs = e /\ path (nx s) xs l /\ l ∉ xs /\ (c + Z.of_nat (length xs) = n)%Z /\
    forall x, x ∈ xs -> is_Some (dat s !! x) /\ pool x = l.
Proof.
  intros [HE _] HB fuel. induction fuel as [|f IH]; intros e c He; cbn [validate_loop];
    destruct (Nat.eqb_spec e l) as [-> |Hel].
  1,3: intros [= Hc%Z.eqb_eq]; exists []; split; [done|]; split; [done|]; split; [by apply not_elem_of_nil|];
       split; [cbn; lia|]; by intros x ?%elem_of_nil.
  - done.
  - destruct (Z.leb_spec n c); [done|]. destruct (Nat.eqb_spec e 0); [done|].
    destruct He as [|[|[He Hpe]]]; [done..|]. destruct (HE e He) as (_ & en & Hen & Hl). rewrite (rd_Ok _ _ _ Hen). bind.
    destruct (HB e He) as [ep Hep]. rewrite (rd_Ok _ _ _ Hep). bind.
    destruct (_ || _); [done|]. rewrite Hpe in Hl.
    intros (xs & Hh & Hp & Hlx & Hc & Hx)%IH; [|done]. exists (e :: xs). cbn [hd path length]. rewrite Hh.
    split; [done|]. split; [done|]. split; [apply not_elem_of_cons; split; [congruence|done]|]. split; [lia|].
    intros x [-> |Hin]%elem_of_cons; [done|by apply Hx].
Qed.

(** A validated list as it is walked forwards. *)
Lemma dll_validate_path s pool l n : pooled (nx s) (dat s) (sz s) pool -> backed s -> sz s !! l = Some n ->
  dll_validate s l = Ok true ->
  exists xs, n = Z.of_nat (length xs) /\ path (nx s) (l :: xs) l /\ l ∉ xs /\
    forall x, x ∈ xs -> is_Some (dat s !! x) /\ pool x = l.
Proof.
  intros Hp HB Hn. unfold dll_validate. pose proof Hp as [_ HL].
  destruct (HL l) as (Hl0 & _ & e & He & Hl); [eauto|]. destruct (Nat.eqb_spec l 0); [done|].
  unfold get_sz. rewrite Hn. bind. rewrite (rd_Ok _ _ _ He). bind.
  intros (xs & Hh & Hpx & Hlx & Hc & Hx)%(dll_loop_true s pool n l Hp HB); [|done].
  exists xs. split; [lia|]. split; [split; [by rewrite Hh|done]|]. done.
Qed.

Lemma elems_exist (d : gmap nat V) (xs : list nat) : (forall x, x ∈ xs -> is_Some (d !! x)) ->
  exists ps, xs = map fst ps /\ Forall (fun p => d !! fst p = Some (snd p)) ps.
Proof.
  induction xs as [|x xs IH]; intros Hin; [by exists []|]. destruct (Hin x) as [v Hv]; [left|].
  destruct IH as (ps & -> & Hf); [intros y Hy; apply Hin; by right|]. exists ((x, v) :: ps).
  split; [done|]. by constructor.
Qed.

Lemma path_iter s l ps : l <> 0 -> path (nx s) (l :: map fst ps) l -> l ∉ map fst ps ->
  Forall (fun p => dat s !! fst p = Some (snd p) /\ fst p <> 0) ps -> dll_iter s l = Ok ps.
Proof.
  intros Hl0 Hp Hl Hf. unfold dll_iter. apply walk_Ok; try done.
  constructor; [done|]. eapply path_NoDup; [apply Hp|done].
Qed.

(** Forwards a validated list is in order. *)
Theorem dll_validate_forward s pool l n : pooled (nx s) (dat s) (sz s) pool -> backed s -> sz s !! l = Some n ->
  dll_validate s l = Ok true ->
  exists ps, dll_iter s l = Ok ps /\ dll_size s l = Ok (Z.of_nat (length ps)) /\ NoDup (map fst ps) /\
    Forall (fun p => dat s !! fst p = Some (snd p)) ps.
Proof.
  intros Hp HB Hn Hv. destruct (dll_validate_path s pool l n Hp HB Hn Hv) as (xs & -> & Hpx & Hlx & Hx).
  pose proof Hp as [HE HL]. destruct (HL l) as (Hl0 & _); [eauto|].
  destruct (elems_exist (dat s) xs) as (ps & -> & Hf); [intros x Hxx; by apply Hx|]. exists ps. split.
  - apply path_iter; try done. eapply Forall_impl; [done|]. intros p Hd. cbv beta in Hd. split; [done|]. destruct (HE (fst p)) as [? _]; [by eexists|done].
  - unfold dll_size, get_sz. destruct (Nat.eqb_spec l 0); [done|]. rewrite Hn, map_length. split; [done|].
    split; [|done]. eapply path_NoDup; [apply Hpx|done].
Qed.

Lemma path_back (m m' : fld) b : forall xs a, path m (a :: xs) b ->
  (forall x y, x ∈ a :: xs -> m !! x = Some y -> m' !! y = Some x) -> path m' (b :: rev xs) a.
Proof.
  induction xs as [|x xs IH]; intros a Hp H.
  - destruct Hp as [Ha _]. cbn. split; [|done]. apply (H a b); [left|done].
  - cbn [rev]. change (b :: rev xs ++ [x]) with ((b :: rev xs) ++ [x]). apply path_app. pose proof Hp as [Ha Hp'].
    split; [apply (IH x); [done|]; intros y z Hy; apply H; by right|]. cbn. split; [|done].
    apply (H a x); [left|done].
Qed.

Theorem dll_validate_Inv s pool : pooled (nx s) (dat s) (sz s) pool -> backed s -> mirrored s ->
  (forall l, is_Some (sz s !! l) -> is_Some (al s !! l)) ->
  (forall l, is_Some (sz s !! l) -> dll_validate s l = Ok true) ->
  exists A, vals A = dat s /\ worn A = ∅ /\ (forall l, is_Some (sz s !! l) <-> is_Some (lists A !! l)) /\ Inv (al s) s A.
Proof.
  intros Hp HB HM Hal Hv. pose proof Hp as [HE HL].
  destruct (map_choice (fun l xs => sz s !! l = Some (Z.of_nat (length xs)) /\ path (nx s) (l :: xs) l /\ l ∉ xs /\
    forall x, x ∈ xs -> is_Some (dat s !! x) /\ pool x = l) (sz s)) as (ls & H1 & H2).
  { intros l n Hn. destruct (dll_validate_path s pool l n Hp HB Hn) as (xs & -> & Hx); [by eapply Hv; eauto|]. eauto. }
  exists (View ls (dat s) ∅). cbn [vals lists worn]. split; [done|]. split; [done|]. split; [done|].
  split; [done|]. split; [done|]. cbn [vals lists worn]. split.
  { eapply pooled_apart; [done|]. intros l xs Hl. destruct (H1 l xs Hl) as (Hs & ? & ? & ?). eauto. }
  split.
  { split; [intros l xs Hl; by destruct (H1 l xs Hl) as (_ & ? & _)|]. exists (pv s). split; [|intros x; split; [done|done]].
    intros l xs. rewrite lookup_fmap. intros (xs' & Hl & ->)%fmap_Some_1.
    destruct (H1 l xs' Hl) as (Hs & Hpx & Hlx & Hx). eapply path_back; [done|].
    destruct (HL l) as (Hl0 & _); [eauto|].
    destruct (elems_exist (dat s) xs') as (ps & -> & Hf); [intros x Hxx; by apply Hx|].
    intros x y Hxx Hy. eapply (HM l ps); [eauto| |done|done].
    apply path_iter; try done. eapply Forall_impl; [done|]. intros p Hd. cbv beta in Hd. split; [done|]. destruct (HE (fst p)) as [? _]; [by eexists|done]. }
  split.
  - intros l xs Hl. destruct (H1 l xs Hl) as (Hs & _ & _ & Hx). destruct (HL l) as (Hl0 & Hn & _); [eauto|].
    split; [done|]. split; [apply Hal; eauto|]. split; [done|]. split; [done|]. intros x Hxx. by destruct (Hx x Hxx).
  - intros e v He. destruct (HE e) as (He0 & n & Hn & _); [eauto|]. split; [eauto|]. split; [apply HB; eauto|done].
Qed.

Theorem dll_validate_usable nd s pool : pooled (nx s) (dat s) (sz s) pool -> backed s -> mirrored s ->
  (forall l, is_Some (sz s !! l) -> is_Some (al s !! l)) ->
  (forall l, is_Some (sz s !! l) -> dll_validate s l = Ok true) ->
  exists A, vals A = dat s /\ worn A = ∅ /\ (forall l, is_Some (sz s !! l) <-> is_Some (lists A !! l)) /\ shows s A /\
    forall os rs A', calls nd (al s) A os rs A' -> exists s', dll_run nd s os = Ok (s', rs) /\ shows s' A'.
Proof.
  intros Hp HB HM Hal Hv. destruct (dll_validate_Inv s pool Hp HB HM Hal Hv) as (A & H1 & Hw & H2 & HI). exists A.
  split; [done|]. split; [done|]. split; [done|]. split; [by eapply Inv_shows|].
  intros os rs A' Hc. destruct (run_Ok nd _ _ _ _ _ _ HI Hc) as (s' & Hr & HI'). exists s'. split; [done|]. by eapply Inv_shows.
Qed.
End dll.
