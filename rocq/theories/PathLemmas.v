(** Chains of nodes in linked memory. *)
From stdpp Require Import base numbers option gmap fin_maps list.
From Verif Require Import Common LinkHeap.

(** Every node of [xs] points to the next one, the last one to [b]. *)
Fixpoint path (m : fld) (xs : list nat) (b : nat) : Prop :=
  match xs with
  | [] => True
  | x :: xs => m !! x = Some (hd b xs) /\ path m xs b
  end.

Lemma hd_app (b : nat) xs ys : hd b (xs ++ ys) = hd (hd b ys) xs.
Proof. by destruct xs. Qed.

Lemma path_app m xs ys b : path m (xs ++ ys) b <-> path m xs (hd b ys) /\ path m ys b.
Proof.
  induction xs as [|x xs IH]; simpl; [tauto|]. rewrite IH, hd_app. tauto.
Qed.

Lemma path_upd m xs b c d : c ∉ xs -> path m xs b -> path (<[c:=d]> m) xs b.
Proof.
  induction xs as [|x xs IH]; simpl; [done|]. intros [Hc Hn]%not_elem_of_cons [Hx Hp].
  split; [by rewrite lookup_insert_ne|by apply IH].
Qed.

Lemma path_del m xs b c : c ∉ xs -> path m xs b -> path (delete c m) xs b.
Proof.
  induction xs as [|x xs IH]; simpl; [done|]. intros [Hc Hn]%not_elem_of_cons [Hx Hp].
  split; [by rewrite lookup_delete_ne|by apply IH].
Qed.

Lemma path_ext m m' xs b : (forall x, x ∈ xs -> m' !! x = m !! x) -> path m xs b -> path m' xs b.
Proof.
  induction xs as [|x xs IH]; simpl; [done|]. intros He [Hx Hp].
  split; [rewrite He; [done|by left]|]. apply IH; [|done]. intros y Hy. apply He. by right.
Qed.

(** Redirecting the last node. *)
Lemma path_last m xs b p q : NoDup xs -> last xs = Some p -> path m xs b -> path (<[p:=q]> m) xs q.
Proof.
  intros Hnd Hl Hp. apply last_Some in Hl as [ys ->]. apply NoDup_app in Hnd as (_ & Hd & _).
  apply path_app in Hp as [Hp _]. apply path_app. split.
  - simpl in *. apply path_upd; [|done]. intros Hin. apply (Hd p Hin). by left.
  - simpl. split; [|done]. by rewrite lookup_insert.
Qed.

Lemma path_last_lookup m xs b p : last xs = Some p -> path m xs b -> m !! p = Some b.
Proof. intros [ys ->]%last_Some [_ Hp]%path_app. by destruct Hp. Qed.

Lemma path_elem m xs b x : path m xs b -> x ∈ xs -> is_Some (m !! x).
Proof.
  induction xs as [|y xs IH]; simpl; [by intros _ ?%elem_of_nil|]. intros [Hy Hp] [->|Hx]%elem_of_cons; [eauto|].
  by apply IH.
Qed.

Lemma path_size m xs b : NoDup xs -> path m xs b -> length xs <= size m.
Proof.
  intros Hnd Hp. rewrite <- size_dom. rewrite <- (size_list_to_set (C:=gset nat) xs) by done.
  apply subseteq_size. intros x Hx%elem_of_list_to_set. apply elem_of_dom. by eapply path_elem.
Qed.

Lemma rd_Ok m p q : m !! p = Some q -> rd m p = Ok q.
Proof. unfold rd. by intros ->. Qed.
Lemma wr_Ok m p q : is_Some (m !! p) -> wr m p q = Ok (<[p:=q]> m).
Proof. unfold wr. by intros [? ->]. Qed.

Lemma last_cons_inv {A} (x : A) xs : exists ys y, x :: xs = ys ++ [y] /\ last (x :: xs) = Some y.
Proof.
  destruct (last (x :: xs)) as [y|] eqn:E; [|by apply last_None in E].
  pose proof E as [ys Hys]%last_Some. eauto.
Qed.

(** * Families of circular lists, each through its sentinel *)

Notation fam := (gmap nat (list nat)).

Definition owned (ls : fam) (x : nat) : Prop := exists l xs, ls !! l = Some xs /\ x ∈ l :: xs.

(** No node occurs twice, in one list or in two. *)
Definition apart (ls : fam) : Prop :=
  (forall l xs, ls !! l = Some xs -> NoDup (l :: xs)) /\
  (forall l l' xs xs' x, ls !! l = Some xs -> ls !! l' = Some xs' -> l <> l' ->
     x ∈ l :: xs -> x ∈ l' :: xs' -> False).

Definition rings (m : fld) (ls : fam) : Prop :=
  forall l xs, ls !! l = Some xs -> path m (l :: xs) l.

Definition loose (ls : fam) (run : list nat) : Prop :=
  NoDup run /\ forall x, x ∈ run -> ~ owned ls x.

Lemma owned_insert ls l xs x : owned (<[l:=xs]> ls) x -> x ∈ l :: xs \/ owned ls x.
Proof.
  intros (l' & xs' & Hl & Hx). apply lookup_insert_Some in Hl as [[-> ->]|[Hne Hl]]; [by left|].
  right. by exists l', xs'.
Qed.

Lemma owned_remove ls l xs ys x : ls !! l = Some xs -> (forall y, y ∈ ys -> y ∈ xs) ->
  owned (<[l:=ys]> ls) x -> owned ls x.
Proof.
  intros Hl Hs [Hx|Hx]%owned_insert; [|done]. exists l, xs. split; [done|].
  apply elem_of_cons in Hx as [->|Hx]; [by left|right; auto].
Qed.

Lemma apart_insert ls l xs : apart ls -> NoDup (l :: xs) ->
  (forall l' xs' x, ls !! l' = Some xs' -> l <> l' -> x ∈ l :: xs -> x ∈ l' :: xs' -> False) ->
  apart (<[l:=xs]> ls).
Proof.
  intros [H1 H2] Hnd Hx. split.
  - intros l' xs' [[-> ->]|[Hne Hl]]%lookup_insert_Some; [done|eauto].
  - intros l1 l2 xs1 xs2 x Hl1 Hl2 Hne Hx1 Hx2.
    apply lookup_insert_Some in Hl1 as [[-> ->]|[Hn1 Hl1]];
      apply lookup_insert_Some in Hl2 as [[-> ->]|[Hn2 Hl2]]; try done; eauto.
Qed.

Lemma apart_unlink ls l pre run post : apart ls -> ls !! l = Some (pre ++ run ++ post) ->
  apart (<[l:=pre ++ post]> ls) /\ loose (<[l:=pre ++ post]> ls) run.
Proof.
  intros [H1 H2] Hl. pose proof (H1 _ _ Hl) as Hnd.
  assert (Hp : l :: pre ++ run ++ post ≡ₚ run ++ l :: pre ++ post) by apply (Permutation_app_swap_app (l :: pre) run post).
  rewrite Hp in Hnd. apply NoDup_app in Hnd as (Hnr & Hd & Hno). split.
  - apply apart_insert; [done|done|]. intros l' xs' x Hl' Hne Hx Hx'.
    apply (H2 l l' _ _ x Hl Hl' Hne); [|done]. rewrite Hp. apply elem_of_app. by right.
  - split; [done|]. intros x Hx (l' & xs' & Hl' & Hx').
    apply lookup_insert_Some in Hl' as [[<- <-]|[Hne Hl']]; [by apply (Hd x)|].
    apply (H2 l l' _ _ x Hl Hl' Hne); [|done]. rewrite Hp. apply elem_of_app. by left.
Qed.

Lemma apart_link ls l u run v : apart ls -> ls !! l = Some (u ++ v) -> loose ls run ->
  apart (<[l:=u ++ run ++ v]> ls).
Proof.
  intros [H1 H2] Hl [Hnr Hlo]. pose proof (H1 _ _ Hl) as Hnd.
  assert (Hp : l :: u ++ run ++ v ≡ₚ run ++ l :: u ++ v) by apply (Permutation_app_swap_app (l :: u) run v).
  apply apart_insert; [done| |].
  - rewrite Hp. apply NoDup_app. split_and!; [done| |done]. intros x Hx Hx'. apply (Hlo x Hx).
    by exists l, (u ++ v).
  - intros l' xs' x Hl' Hne Hx Hx'. rewrite Hp in Hx. apply elem_of_app in Hx as [Hx|Hx].
    + apply (Hlo x Hx). by exists l', xs'.
    + by apply (H2 l l' _ _ x Hl Hl' Hne).
Qed.

Lemma rings_upd m ls x q : rings m ls -> ~ owned ls x -> rings (<[x:=q]> m) ls.
Proof. intros Hr Ho l xs Hl. apply path_upd; [|auto]. intros Hx. apply Ho. by exists l, xs. Qed.

Lemma rings_del m ls x : rings m ls -> ~ owned ls x -> rings (delete x m) ls.
Proof. intros Hr Ho l xs Hl. apply path_del; [|auto]. intros Hx. apply Ho. by exists l, xs. Qed.

(** One list changes; the nodes written belong to it or to none. *)
Lemma rings_insert m m' ls l ys : apart ls -> rings m ls ->
  path m' (l :: ys) l ->
  (forall l' xs' x, ls !! l' = Some xs' -> l <> l' -> x ∈ l' :: xs' -> m' !! x = m !! x) ->
  rings m' (<[l:=ys]> ls).
Proof.
  intros _ Hr Hp Hf l' xs' [[-> ->]|[Hne Hl]]%lookup_insert_Some; [done|].
  apply (path_ext m); [|by apply Hr]. intros x Hx. by eapply Hf.
Qed.

Lemma rings_unlink m ls l pre run post b : apart ls -> rings m ls ->
  ls !! l = Some (pre ++ run ++ post) -> last (l :: pre) = Some b ->
  rings (<[b:=hd l post]> m) (<[l:=pre ++ post]> ls) /\
  path (<[b:=hd l post]> m) run (hd l post) /\ m !! b = Some (hd l (run ++ post)).
Proof.
  intros Ha Hr Hl Hb. pose proof (Hr _ _ Hl) as Hp. pose proof Ha as [H1 H2]. pose proof (H1 _ _ Hl) as Hnd.
  change (l :: pre ++ run ++ post) with ((l :: pre) ++ run ++ post) in Hp, Hnd.
  apply path_app in Hp as [Hp1 Hp2]. apply path_app in Hp2 as [Hp2 Hp3].
  apply NoDup_app in Hnd as (Hn1 & Hd & Hn2).
  assert (Hbin : b ∈ l :: pre) by (by eapply last_Some_elem_of).
  assert (Hbno : b ∉ run ++ post) by (by apply Hd). rewrite elem_of_app in Hbno.
  split_and!.
  - eapply rings_insert; [done|done| |].
    + change (l :: pre ++ post) with ((l :: pre) ++ post). apply path_app. split.
      * by eapply path_last.
      * apply path_upd; [tauto|done].
    + intros l' xs' x Hl' Hne Hx. apply lookup_insert_ne. intros <-.
      apply (H2 l l' _ _ b Hl Hl' Hne); [|done].
      change (l :: pre ++ run ++ post) with ((l :: pre) ++ run ++ post). apply elem_of_app. by left.
  - apply path_upd; [tauto|done].
  - by eapply path_last_lookup.
Qed.

Lemma rings_link m ls l u run v q pos b e : apart ls -> rings m ls -> ls !! l = Some (u ++ v) ->
  last (l :: u) = Some pos -> loose ls run -> path m run q ->
  head run = Some b -> last run = Some e ->
  rings (<[pos:=b]> (<[e:=hd l v]> m)) (<[l:=u ++ run ++ v]> ls).
Proof.
  intros Ha Hr Hl Hpos [Hnr Hlo] Hprun Hb He. pose proof (Hr _ _ Hl) as Hp. pose proof Ha as [H1 H2].
  pose proof (H1 _ _ Hl) as Hnd.
  change (l :: u ++ v) with ((l :: u) ++ v) in Hp, Hnd.
  apply path_app in Hp as [Hp1 Hp2]. apply NoDup_app in Hnd as (Hn1 & Hd & Hn2).
  assert (Hein : e ∈ run) by (by eapply last_Some_elem_of).
  assert (Hpin : pos ∈ l :: u) by (by eapply last_Some_elem_of).
  assert (Hel : e ∉ (l :: u) ++ v) by (intros Hx; apply (Hlo e Hein); by exists l, (u ++ v)).
  rewrite elem_of_app in Hel.
  assert (Hpr : pos ∉ run).
  { intros Hx. apply (Hlo pos Hx). exists l, (u ++ v). split; [done|].
    change (l :: u ++ v) with ((l :: u) ++ v). apply elem_of_app. by left. }
  eapply rings_insert; [done|done| |].
  - change (l :: u ++ run ++ v) with ((l :: u) ++ run ++ v). rewrite !path_app. split_and!.
    + assert (hd (hd l v) run = b) as Hh by (destruct run; [done|by simplify_eq/=]).
      rewrite hd_app, Hh. eapply path_last; [done|done|]. apply path_upd; [tauto|done].
    + apply path_upd; [done|]. by eapply path_last.
    + apply path_upd; [by apply Hd|]. apply path_upd; [tauto|done].
  - intros l' xs' x Hl' Hne Hx. rewrite !lookup_insert_ne; [done| |].
    + intros <-. apply (Hlo e Hein). by exists l', xs'.
    + intros <-. apply (H2 l l' _ _ pos Hl Hl' Hne); [|done].
      change (l :: u ++ v) with ((l :: u) ++ v). apply elem_of_app. by left.
Qed.

Lemma nodup_split (x : nat) p q p' q' : NoDup (p ++ x :: q) -> p ++ x :: q = p' ++ x :: q' -> p = p' /\ q = q'.
Proof.
  revert p'. induction p as [|y p IH]; intros [|z p'] Hnd Heq; simplify_eq/=; try done.
  - exfalso. apply NoDup_cons in Hnd as [Hnd _]. apply Hnd. apply elem_of_app. right. left.
  - exfalso. apply NoDup_cons in Hnd as [Hnd _]. apply Hnd. apply elem_of_app. right. left.
  - apply NoDup_cons in Hnd as [_ Hnd]. destruct (IH p' Hnd) as [-> ->]; done.
Qed.

Lemma ring_succ m l xs x b : path m (l :: xs) b -> x ∈ l :: xs ->
  exists a c, l :: xs = a ++ x :: c /\ m !! x = Some (hd b c).
Proof.
  intros Hp Hx. apply elem_of_list_split in Hx as (a & c & Heq). rewrite Heq in Hp.
  apply path_app in Hp as [_ [Hx _]]. eauto.
Qed.

(** The only node of any list whose successor is [e] is the one before it. *)
Lemma rings_pred m ls l pre e post pos p : apart ls -> rings m ls -> ls !! l = Some (pre ++ e :: post) ->
  last (l :: pre) = Some p -> owned ls pos -> m !! pos = Some e -> pos = p.
Proof.
  intros [H1 H2] Hr Hl Hp (l' & xs' & Hl' & Hx) Hm.
  destruct (ring_succ _ _ _ _ _ (Hr _ _ Hl') Hx) as (a & c & Heq & Hm'). rewrite Hm in Hm'. simplify_eq.
  assert (l' = l) as ->.
  { destruct (decide (l' = l)) as [|Hne]; [done|]. exfalso.
    eapply (H2 l l' _ _ (hd l' c) Hl Hl'); [done| |].
    - right. apply elem_of_app. right. left.
    - rewrite Heq. destruct c as [|y c]; simpl.
      + rewrite <- Heq. left.
      + apply elem_of_app. right. right. left. }
  rewrite Hl in Hl'. simplify_eq. pose proof (H1 _ _ Hl) as Hnd.
  destruct c as [|y c]; simpl in *.
  { exfalso. apply NoDup_cons in Hnd as [Hnd _]. apply Hnd. apply elem_of_app. right. left. }
  assert (Heq' : (l :: pre) ++ y :: post = (a ++ [pos]) ++ y :: c) by (rewrite <- app_assoc; done).
  apply nodup_split in Heq' as [Heq' _]; [|done].
  rewrite Heq', last_app in Hp. by simplify_eq/=.
Qed.

(** * The same families read backwards *)

Lemma last_cons_rev (l : nat) u : last (l :: u) = Some (hd l (rev u)).
Proof.
  destruct u as [|x u] using rev_ind; [done|]. rewrite rev_app_distr. simpl.
  change (l :: u ++ [x]) with ((l :: u) ++ [x]). by rewrite last_snoc.
Qed.

Lemma last_cons_hd (l : nat) v : last (l :: rev v) = Some (hd l v).
Proof. by rewrite last_cons_rev, rev_involutive. Qed.

Lemma elem_of_rev (x : nat) xs : x ∈ rev xs <-> x ∈ xs.
Proof. rewrite !elem_of_list_In. symmetry. apply in_rev. Qed.

Lemma owned_rev (ls : fam) x : owned (@rev nat <$> ls) x <-> owned ls x.
Proof.
  split.
  - intros (l & xs & Hl & Hx). apply lookup_fmap_Some in Hl as (ys & <- & Hl). exists l, ys. split; [done|].
    apply elem_of_cons in Hx as [->|Hx]; [left|right]. by apply elem_of_rev.
  - intros (l & xs & Hl & Hx). exists l, (rev xs). rewrite lookup_fmap, Hl. split; [done|].
    apply elem_of_cons in Hx as [->|Hx]; [left|right]. by apply elem_of_rev.
Qed.

Lemma apart_rev (ls : fam) : apart ls -> apart (@rev nat <$> ls).
Proof.
  intros [H1 H2]. split.
  - intros l xs Hl. apply lookup_fmap_Some in Hl as (ys & <- & Hl). specialize (H1 _ _ Hl).
    apply NoDup_cons in H1 as [Hn Hd]. apply NoDup_cons. rewrite elem_of_rev. split; [done|].
    apply NoDup_ListNoDup, NoDup_rev, NoDup_ListNoDup. done.
  - intros l l' xs xs' x Hl Hl' Hne Hx Hx'. apply lookup_fmap_Some in Hl as (ys & <- & Hl).
    apply lookup_fmap_Some in Hl' as (ys' & <- & Hl').
    apply (H2 l l' ys ys' x Hl Hl' Hne); [clear Hx'|clear Hx; rename Hx' into Hx];
      apply elem_of_cons in Hx as [->|Hx]; [left|right|left|right]; by apply elem_of_rev.
Qed.

Lemma loose_rev (ls : fam) run : loose ls run -> loose (@rev nat <$> ls) (rev run).
Proof.
  intros [Hn Ho]. split; [apply NoDup_ListNoDup, NoDup_rev, NoDup_ListNoDup; done|].
  intros x Hx. rewrite owned_rev. apply Ho. by apply elem_of_rev.
Qed.

Lemma head_rev (run : list nat) e : last run = Some e -> head (rev run) = Some e.
Proof. intros [ys ->]%last_Some. by rewrite rev_app_distr. Qed.
Lemma last_rev (run : list nat) b : head run = Some b -> last (rev run) = Some b.
Proof. destruct run as [|x r]; [done|]. intros [= ->]. simpl. by rewrite last_snoc. Qed.

Lemma rings_unlink_rev m ls l pre run post : apart ls -> rings m (@rev nat <$> ls) ->
  ls !! l = Some (pre ++ run ++ post) ->
  rings (<[hd l post:=hd l (rev pre)]> m) (@rev nat <$> <[l:=pre ++ post]> ls) /\
  path (<[hd l post:=hd l (rev pre)]> m) (rev run) (hd l (rev pre)) /\
  m !! hd l post = Some (hd l (rev run ++ rev pre)).
Proof.
  intros Ha Hr Hl. rewrite fmap_insert, rev_app_distr.
  apply (rings_unlink m (@rev nat <$> ls) l (rev post) (rev run) (rev pre) (hd l post)); [by apply apart_rev|done| |].
  - rewrite lookup_fmap, Hl. simpl. by rewrite !rev_app_distr, app_assoc.
  - apply last_cons_hd.
Qed.

Lemma rings_link_rev m ls l u run v q b e : apart ls -> rings m (@rev nat <$> ls) -> ls !! l = Some (u ++ v) ->
  loose ls run -> path m (rev run) q -> head run = Some b -> last run = Some e ->
  rings (<[hd l v:=e]> (<[b:=hd l (rev u)]> m)) (@rev nat <$> <[l:=u ++ run ++ v]> ls).
Proof.
  intros Ha Hr Hl Hlo Hp Hb He. rewrite fmap_insert, !rev_app_distr, <- app_assoc.
  apply (rings_link m (@rev nat <$> ls) l (rev v) (rev run) (rev u) q (hd l v) e b); try done.
  - by apply apart_rev.
  - rewrite lookup_fmap, Hl. simpl. by rewrite rev_app_distr.
  - apply last_cons_hd.
  - by apply loose_rev.
  - by apply head_rev.
  - by apply last_rev.
Qed.

Lemma rings_foldr_del m ls run : rings m ls -> (forall x, x ∈ run -> ~ owned ls x) ->
  rings (foldr delete m run) ls.
Proof.
  induction run as [|x run IH]; simpl; [done|]. intros Hr Ho.
  apply rings_del; [|apply Ho; by left]. apply IH; [done|]. intros y Hy. apply Ho. by right.
Qed.

Lemma lookup_foldr_del {X} (m : gmap nat X) xs x v :
  foldr delete m xs !! x = Some v <-> x ∉ xs /\ m !! x = Some v.
Proof.
  induction xs as [|y xs IH]; simpl; [rewrite elem_of_nil; tauto|].
  rewrite lookup_delete_Some, IH, elem_of_cons. intuition.
Qed.

Lemma foldr_del_is_Some {X} (m : gmap nat X) xs x : x ∉ xs -> is_Some (m !! x) -> is_Some (foldr delete m xs !! x).
Proof. intros Hx [v Hv]. exists v. by apply lookup_foldr_del. Qed.

Lemma foldr_delete_cons {X} (m : gmap nat X) x xs : foldr delete m (x :: xs) = foldr delete (delete x m) xs.
Proof. induction xs as [|y xs IH]; [done|]. simpl in *. rewrite delete_commute, IH. done. Qed.
