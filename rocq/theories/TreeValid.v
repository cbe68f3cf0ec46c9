(** What the traversals of validate establish about arbitrary memory. *)
From stdpp Require Import base numbers option gmap fin_maps list.
From Coq Require Import Sorting.Sorted.
From Verif Require Import Common LinkHeap PathLemmas TreeModel OrderSpec TreeProofs WavlModel WavlNode WavlProofs WavlRemove ValidSpec.

Local Ltac bind := cbn [mbind outcome_bind obind].

Lemma filter_shrinks (P Q : nat -> bool) l x :
  (forall z, P z = true -> Q z = true) -> x ∈ l -> P x = false -> Q x = true ->
  length (List.filter P l) < length (List.filter Q l).
Proof.
  intros HPQ. assert (forall l, length (List.filter P l) <= length (List.filter Q l)) as Hle.
  { clear l. induction l as [|z l IH]; cbn [List.filter]; [done|].
    destruct (P z) eqn:E; [rewrite (HPQ z E); cbn; lia|]. destruct (Q z); cbn; lia. }
  induction l as [|z l IH]; intros Hx Hp Hq; [by apply elem_of_nil in Hx|].
  cbn [List.filter]. apply elem_of_cons in Hx as [<- |Hx].
  - rewrite Hp, Hq. cbn [length]. pose proof (Hle l). lia.
  - specialize (IH Hx Hp Hq). destruct (P z) eqn:E; [rewrite (HPQ z E); cbn [length]; lia|]. destruct (Q z); cbn [length]; lia.
Qed.

Lemma filter_length {A} (P : A -> bool) l : length (List.filter P l) <= length l.
Proof. induction l as [|z l IH]; cbn [List.filter]; [done|]. destruct (P z); cbn [length]; lia. Qed.

Section valid.
Context (nil : nat) {K V : Type} (cmp : K -> K -> comparison) (Hcmp : total_preorder cmp).
Context (null : nat -> bool) (dat : gmap nat (K * V)) (h : links).
Context (Hmem : readable nil null dat h).

Notation known x := (is_Some (dat !! x)).
Notation klt := (klt cmp dat).
Notation ptr := (ptr nil).

(** The branches of the nodes, without the parents. *)
Fixpoint shape (t : tree) : Prop :=
  match t with
  | E => True
  | T l x r => lf h !! x = Some (ptr l) /\ rt h !! x = Some (ptr r) /\ x <> nil /\ shape l /\ shape r
  end.

Definition below (x y : nat) : bool :=
  match dat !! x, dat !! y with
  | Some a, Some b => match cmp (fst a) (fst b) with Lt => true | _ => false end
  | _, _ => false
  end.
Lemma below_klt x y : below x y = true <-> klt x y.
Proof.
  unfold below, TreeProofs.klt. split.
  - destruct (dat !! x) as [a|]; [|done]. destruct (dat !! y) as [b|]; [|done].
    destruct (cmp (fst a) (fst b)) eqn:E; try done. eauto 10.
  - intros (a & b & -> & -> & Hab). by rewrite Hab.
Qed.

(** Keys strictly between those of two nodes, the sentinel being no bound. *)
Definition within (low high x : nat) : bool :=
  ((low =? nil) || below low x) && ((high =? nil) || below x high).
Definition room (low high : nat) : nat :=
  length (List.filter (within low high) (elements (dom dat))).

Lemma klt_trans x y z : klt x y -> klt y z -> klt x z.
Proof.
  intros (a & b & Ha & Hb & Hab) (b' & d & Hb' & Hd & Hbd). assert (b' = b) as -> by congruence.
  exists a, d. split_and!; [done..|]. by apply (cmp_lt_trans cmp Hcmp _ (fst b)).
Qed.
Lemma klt_irrefl x : ~ klt x x.
Proof.
  intros (a & b & Ha & Hb & Hab). assert (b = a) as -> by congruence. by rewrite (cmp_refl cmp Hcmp) in Hab.
Qed.

Lemma within_left low high x y : x <> nil -> within low high x = true -> within low x y = true -> within low high y = true.
Proof.
  unfold within. rewrite !andb_true_iff, !orb_true_iff, !Nat.eqb_eq, !below_klt.
  intros Hx [_ [?|Hh]] [Hl [?|Hy]]; try done; split; auto. right. by apply (klt_trans y x).
Qed.
Lemma within_right low high x y : x <> nil -> within low high x = true -> within x high y = true -> within low high y = true.
Proof.
  unfold within. rewrite !andb_true_iff, !orb_true_iff, !Nat.eqb_eq, !below_klt.
  intros Hx [[?|Hl] _] [[?|Hy] Hh]; try done; split; auto. right. by apply (klt_trans low x).
Qed.
Lemma within_self_l x high : x <> nil -> within x high x = false.
Proof.
  intros Hx. unfold within. rewrite (proj2 (Nat.eqb_neq x nil)) by done.
  destruct (below x x) eqn:E; [|done]. by apply below_klt, klt_irrefl in E.
Qed.
Lemma within_self_r low x : x <> nil -> within low x x = false.
Proof.
  intros Hx. unfold within. rewrite (proj2 (Nat.eqb_neq x nil)) by done.
  destruct (below x x) eqn:E; [by apply below_klt, klt_irrefl in E|]. cbn. by rewrite andb_false_r.
Qed.

Lemma room_left low high x : known x -> x <> nil -> within low high x = true -> room low x < room low high.
Proof.
  intros Hk Hx Hw. apply (filter_shrinks _ _ _ x).
  - intros z. by apply within_left.
  - by apply elem_of_elements, elem_of_dom.
  - by apply within_self_r.
  - done.
Qed.
Lemma room_right low high x : known x -> x <> nil -> within low high x = true -> room x high < room low high.
Proof.
  intros Hk Hx Hw. apply (filter_shrinks _ _ _ x).
  - intros z. by apply within_right.
  - by apply elem_of_elements, elem_of_dom.
  - by apply within_self_l.
  - done.
Qed.

(** are_subtrees_valid always comes to an end, and accepts search trees only. *)
Lemma subtrees_valid_total fuel low root high :
  target nil dat low -> target nil dat high -> target nil dat root \/ null root = true ->
  room low high < fuel ->
  exists b, subtrees_valid cmp nil fuel null dat h low root high = Ok b /\
    (b = true -> exists t, shape t /\ ptr t = root /\ StronglySorted klt (nodes t) /\
      forall z, z ∈ nodes t -> within low high z = true /\ known z).
Proof.
  revert low root high. induction fuel as [|f IH]; intros low root high Hlow Hhigh Hroot Hf; [lia|].
  cbn [subtrees_valid]. destruct (null root) eqn:Enull; [by exists false|].
  destruct (Nat.eqb_spec root nil) as [-> |Hne].
  { exists true. split; [done|]. intros _. exists E. split_and!; try done; [constructor|]. intros z Hz. by apply elem_of_nil in Hz. }
  destruct Hroot as [[?|Hk]|?]; [done| |done]. destruct (Hk) as [kx Hkx].
  assert (exists b, (if low =? nil then Ok true
           else kv ← value dat low; c ← cmpk cmp dat (fst kv) root; Ok (match c with Lt => true | _ => false end)) = Ok b /\
          (b = true -> (low =? nil) || below low root = true)) as (b1 & -> & Hb1).
  { destruct (Nat.eqb_spec low nil) as [->|Hn]; [by exists true|]. destruct Hlow as [?|[kl Hkl]]; [done|].
    unfold value. rewrite Hkl. bind. rewrite (cmpk_Ok cmp dat _ _ kx) by done. bind. eexists. split; [done|].
    unfold below. rewrite Hkl, Hkx. done. }
  bind. destruct b1; cbn [negb]; [|by exists false].
  assert (exists b, (if high =? nil then Ok true
           else kv ← value dat high; c ← cmpk cmp dat (fst kv) root; Ok (is_gt c)) = Ok b /\
          (b = true -> (high =? nil) || below root high = true)) as (b2 & -> & Hb2).
  { destruct (Nat.eqb_spec high nil) as [->|Hn]; [by exists true|]. destruct Hhigh as [?|[kl Hkl]]; [done|].
    unfold value. rewrite Hkl. bind. rewrite (cmpk_Ok cmp dat _ _ kx) by done. bind. eexists. split; [done|].
    unfold below. rewrite Hkl, Hkx. destruct (cmp (fst kl) (fst kx)) eqn:E; try done. intros _.
    apply (cmp_flip cmp Hcmp) in E. by rewrite E. }
  bind. destruct b2; cbn [negb]; [|by exists false].
  assert (within low high root = true) as Hw.
  { unfold within. apply andb_true_iff. auto. }
  destruct Hmem as [_ Hm]. destruct (Hm root Hk) as (_ & _ & l & r & p & Hl & Hr & _ & Htl & Htr & _).
  rewrite (rd_Ok _ _ _ Hl). bind.
  destruct (IH low l root) as (b3 & -> & Hb3); [done|by right|done| |].
  { pose proof (room_left low high root Hk Hne Hw). lia. }
  bind. destruct b3; cbn [negb]; [|by exists false]. rewrite (rd_Ok _ _ _ Hr). bind.
  destruct (IH root r high) as (b4 & -> & Hb4); [by right|done|done| |].
  { pose proof (room_right low high root Hk Hne Hw). lia. }
  exists b4. split; [done|]. intros ->.
  destruct Hb3 as (tl & Hsl & <- & Hol & Hwl); [done|]. destruct Hb4 as (tr & Hsr & <- & Hor & Hwr); [done|].
  exists (T tl root tr). cbn [nodes TreeProofs.ptr]. split_and!; try done.
  - apply StronglySorted_app. split_and!; [done| |].
    + constructor; [done|]. apply Forall_forall. intros z Hz. destruct (Hwr z Hz) as [Hz' _].
      unfold within in Hz'. rewrite andb_true_iff, orb_true_iff, Nat.eqb_eq, below_klt in Hz'. by destruct Hz' as [[?|?] _].
    + assert (forall z, z ∈ nodes tl -> klt z root) as Hzx.
      { intros z Hz. destruct (Hwl z Hz) as [Hz' _].
        unfold within in Hz'. rewrite andb_true_iff, !orb_true_iff, !Nat.eqb_eq, !below_klt in Hz'. by destruct Hz' as [_ [?|?]]. }
      intros y z Hy [-> |Hz]%elem_of_cons; [by apply Hzx|]. apply (klt_trans y root); [by apply Hzx|].
      destruct (Hwr z Hz) as [Hz' _].
      unfold within in Hz'. rewrite andb_true_iff, orb_true_iff, Nat.eqb_eq, below_klt in Hz'. by destruct Hz' as [[?|?] _].
  - intros z. rewrite elem_of_app, elem_of_cons. intros [Hz|[-> |Hz]]; [|done|].
    + destruct (Hwl z Hz). split; [|done]. by apply (within_left low high root).
    + destruct (Hwr z Hz). split; [|done]. by apply (within_right low high root).
Qed.

Lemma recursive_size_shape t fuel :
  shape t -> length (nodes t) < fuel -> recursive_size nil fuel h (ptr t) = Ok (Z.of_nat (length (nodes t))).
Proof.
  revert t. induction fuel as [|f IH]; intros t Hs Hf; [lia|].
  destruct t as [|l x r]; cbn [recursive_size TreeProofs.ptr].
  { by rewrite Nat.eqb_refl. }
  destruct Hs as (Hl & Hr & Hx & Hsl & Hsr). cbn [nodes] in *. rewrite app_length in *. cbn [length] in *.
  rewrite (proj2 (Nat.eqb_neq x nil)) by done.
  rewrite (rd_Ok _ _ _ Hr). bind. rewrite (rd_Ok _ _ _ Hl). bind.
  rewrite (IH r) by (done || lia). bind. rewrite (IH l) by (done || lia). bind. f_equal. lia.
Qed.

Lemma storing_parent_total deref p t fuel :
  shape t -> (forall z, z ∈ nodes t -> known z) -> length (nodes t) < fuel ->
  exists b, storing_parent nil deref fuel h p (ptr t) = Ok b /\ (b = true -> rep nil h p t).
Proof.
  revert p t. induction fuel as [|f IH]; intros p t Hs Hk Hf; [lia|].
  destruct t as [|l x r]; cbn [storing_parent TreeProofs.ptr].
  { rewrite Nat.eqb_refl. by exists true. }
  destruct Hs as (Hl & Hr & Hx & Hsl & Hsr). cbn [nodes] in *. rewrite app_length in *. cbn [length] in *.
  rewrite (proj2 (Nat.eqb_neq x nil)) by done. destruct Hmem as [Hnil Hm].
  destruct (Hm x) as (_ & _ & l' & r' & q & _ & _ & Hq & _ & _ & Htq). { apply Hk. rewrite elem_of_app. right. left. }
  rewrite (rd_Ok _ _ _ Hq). bind. destruct (Nat.eqb_spec q p) as [-> |Hqp]; cbn [negb].
  - rewrite (rd_Ok _ _ _ Hl). bind.
    destruct (IH x l) as (b1 & -> & Hb1); [done| |lia|]. { intros z Hz. apply Hk. rewrite elem_of_app. auto. }
    bind. destruct b1; cbn [negb]; [|by exists false]. rewrite (rd_Ok _ _ _ Hr). bind.
    destruct (IH x r) as (b2 & -> & Hb2); [done| |lia|]. { intros z Hz. apply Hk. rewrite elem_of_app, elem_of_cons. auto. }
    exists b2. split; [done|]. intros ->. cbn [rep]. split_and!; auto.
  - destruct deref; [|by exists false].
    assert (is_Some (pa h !! q)) as [q' Hq'].
    { destruct Htq as [-> |Hkq]; [done|]. destruct (Hm q Hkq) as (_ & _ & ? & ? & ? & _ & _ & ? & _). eauto. }
    rewrite (rd_Ok _ _ _ Hq'). bind. by exists false.
Qed.

Lemma known_live x : known x -> live h x.
Proof. intros Hx. destruct Hmem as [_ Hm]. destruct (Hm x Hx) as (_ & _ & ? & ? & ? & ? & ? & ? & _). split_and!; eauto. Qed.

Lemma room_size low high : room low high <= size (lf h).
Proof.
  unfold room. etransitivity; [apply filter_length|].
  assert (size (dom dat) <= size (lf h)) as H; [|done]. rewrite <- (size_dom (lf h)).
  apply subseteq_size. intros x Hx. apply elem_of_dom in Hx. apply elem_of_dom. destruct (known_live x Hx) as (? & _). done.
Qed.

Lemma sorted_size l : StronglySorted klt l -> (forall z, z ∈ l -> known z) -> length l <= size (lf h).
Proof.
  intros Hs Hk.
  assert (NoDup l) as Hnd. { apply (sorted_NoDup cmp Hcmp dat). split; [done|]. by apply Forall_forall. }
  rewrite <- (size_dom (lf h)), <- (size_list_to_set (C := gset nat) l) by done.
  apply subseteq_size. intros x Hx. apply elem_of_list_to_set in Hx. apply elem_of_dom. destruct (known_live x (Hk x Hx)) as (? & _). done.
Qed.

(** A search in a valid tree, with as many iterations as there are elements. *)
Lemma tree_find_in q t e kv :
  rep nil h q t -> sorted cmp dat (nodes t) -> e ∈ nodes t -> dat !! e = Some kv ->
  tree_find nil (S (length (nodes t))) cmp dat h (ptr t) (fst kv) = Ok (Some Eq, e).
Proof using Hcmp.
  clear Hmem. intros Hr Hs He Hkv. unfold tree_find.
  destruct (find_loop_Ok nil cmp Hcmp dat (S (length (nodes t))) h q (fst kv) [] t None [] [])
    as [(x & kx & Hrun & Hx & Hkx & Hc)|(Q & l & r & Hrun & Hpl & Hn & Hl & Hrr)]; try done.
  - pose proof (height_size t). lia.
  - intros u. cbn. by rewrite app_nil_r.
  - intros z Hz. by apply elem_of_nil in Hz.
  - intros z Hz. by apply elem_of_nil in Hz.
  - cbn [zptr] in Hrun. rewrite Hrun. do 2 f_equal.
    destruct (decide (x = e)) as [|Hne]; [done|]. exfalso.
    assert (klt x e \/ klt e x) as Hlt.
    { destruct Hs as [Hs _]. apply elem_of_list_split in Hx as (m1 & m2 & Hm). rewrite Hm in Hs, He.
      apply StronglySorted_app in Hs as (_ & Hs & Hcr). apply StronglySorted_inv in Hs as [_ Hs]. rewrite Forall_forall in Hs.
      apply elem_of_app in He as [He|[He|He]%elem_of_cons]; [|done|].
      - right. apply Hcr; [done|left].
      - left. by apply Hs. }
    destruct Hlt as [(a & b & Ha & Hb & Hab)|(a & b & Ha & Hb & Hab)].
    + assert (a = kx) as -> by congruence. assert (b = kv) as -> by congruence.
      apply (cmp_flip cmp Hcmp) in Hab. by rewrite Hc in Hab.
    + assert (a = kv) as -> by congruence. assert (b = kx) as -> by congruence. by rewrite Hc in Hab.
  - exfalso. cbn [plug] in Hpl.
    assert (e ∈ l ++ nodes E ++ r) as Hin by (rewrite <- Hn, Hpl; done). cbn [nodes] in Hin.
    apply elem_of_app in Hin as [Hin|Hin].
    + destruct (Hl e Hin) as (kz & Hz & Hcz). assert (kz = kv) as -> by congruence. by rewrite (cmp_refl cmp Hcmp) in Hcz.
    + destruct (Hrr e Hin) as (kz & Hz & Hcz). assert (kz = kv) as -> by congruence. by rewrite (cmp_refl cmp Hcmp) in Hcz.
Qed.
End valid.

(** Data that is not reached does not matter. *)
Lemma subtrees_valid_sub {K V} (cmp : K -> K -> comparison) nil null (D D' : gmap nat (K * V)) h fuel low root high b :
  D ⊆ D' -> subtrees_valid cmp nil fuel null D h low root high = Ok b ->
  subtrees_valid cmp nil fuel null D' h low root high = Ok b.
Proof.
  intros Hsub. assert (forall x kv, value D x = Ok kv -> value D' x = Ok kv) as Hval.
  { intros x kv. unfold value. destruct (D !! x) as [w|] eqn:Hx; [|done]. by rewrite (lookup_weaken _ _ _ _ Hx Hsub). }
  revert low root high b. induction fuel as [|f IH]; intros low root high b; [done|]. cbn [subtrees_valid].
  destruct (null root); [done|]. destruct (root =? nil); [done|]. intros Hrun.
  assert (forall k x o, cmpk cmp D k x = Ok o -> cmpk cmp D' k x = Ok o) as Hcmpk.
  { intros k x o. unfold cmpk. destruct (value D x) as [w| |] eqn:E; bind; try done. by rewrite (Hval _ _ E). }
  assert (forall (g : comparison -> bool) x (m m' : outcome bool),
    m = (if x =? nil then Ok true else kv ← value D x; c ← cmpk cmp D (fst kv) root; Ok (g c)) ->
    m' = (if x =? nil then Ok true else kv ← value D' x; c ← cmpk cmp D' (fst kv) root; Ok (g c)) ->
    forall r, m = Ok r -> m' = Ok r) as Hside.
  { intros g x m m' -> -> r. destruct (x =? nil); [done|].
    destruct (value D x) as [w| |] eqn:E; bind; try done. rewrite (Hval _ _ E). bind.
    destruct (cmpk cmp D (fst w) root) as [o| |] eqn:E'; bind; try done. by rewrite (Hcmpk _ _ _ E'). }
  destruct (if low =? nil then _ else _) as [a| |] eqn:Ea in Hrun; try done.
  rewrite (Hside (fun c => match c with Lt => true | _ => false end) low _ _ (eq_sym Ea) eq_refl a eq_refl). revert Hrun. bind.
  destruct (negb a); [done|]. intros Hrun.
  destruct (if high =? nil then _ else _) as [a'| |] eqn:Ea' in Hrun; try done.
  rewrite (Hside is_gt high _ _ (eq_sym Ea') eq_refl a' eq_refl). revert Hrun. bind.
  destruct (negb a'); [done|]. destruct (rd (lf h) root) as [lc| |]; bind; try done.
  destruct (subtrees_valid cmp nil f null D h low lc root) as [y| |] eqn:Ey; bind; try done.
  rewrite (IH _ _ _ _ Ey). bind. destruct (negb y); [done|]. destruct (rd (rt h) root) as [rc| |]; bind; [|done..]. apply IH.
Qed.
