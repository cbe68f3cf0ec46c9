(** Trees in memory: representation, frames, splay, traversal, validation. *)
From Coq Require Import Sorted.
From stdpp Require Import base numbers option gmap fin_maps list.
From Verif Require Import Common LinkHeap PathLemmas OrderSpec TreeModel CostModel CostErase.

Local Ltac bind := cbn [mbind outcome_bind obind].

Inductive tree : Type := E | T (l : tree) (x : nat) (r : tree).

Fixpoint nodes (t : tree) : list nat :=
  match t with E => [] | T l x r => nodes l ++ x :: nodes r end.

(** The node with [a] on the side against direction [d], [b] on the side of [d]. *)
Definition mk (d : bool) (a : tree) (x : nat) (b : tree) : tree := if d then T a x b else T b x a.

(** A list read in direction [d]. *)
Definition ord {A} (d : bool) (l : list A) : list A := if d then l else rev l.

Definition set_br (h : links) (d : bool) (p q : nat) : links :=
  if d then Links (lf h) (<[p := q]> (rt h)) (pa h) else Links (<[p := q]> (lf h)) (rt h) (pa h).
Definition set_pa (h : links) (p q : nat) : links := Links (lf h) (rt h) (<[p := q]> (pa h)).

Definition live (h : links) (x : nat) : Prop :=
  is_Some (lf h !! x) /\ is_Some (rt h !! x) /\ is_Some (pa h !! x).

(** Nothing outside [X] differs. *)
Definition frame (X : list nat) (h h' : links) : Prop :=
  forall z, z ∉ X -> lf h' !! z = lf h !! z /\ rt h' !! z = rt h !! z /\ pa h' !! z = pa h !! z.

Lemma live_br h d x : live h x -> is_Some (br h d !! x).
Proof. intros (H & Hr & _). by destruct d. Qed.
Lemma live_pa h x : live h x -> is_Some (pa h !! x).
Proof. by intros (_ & _ & H). Qed.

Lemma wbr_Ok h d p q : is_Some (br h d !! p) -> wbr h d p q = Ok (set_br h d p q).
Proof. intros [? Hx]. unfold wbr, wr. rewrite Hx. bind. by destruct d. Qed.
Lemma wpa_Ok h p q : is_Some (pa h !! p) -> wpa h p q = Ok (set_pa h p q).
Proof. intros [? Hx]. unfold wpa, wr. rewrite Hx. done. Qed.

Lemma br_set_br_eq h d p q : br (set_br h d p q) d !! p = Some q.
Proof. destruct d; cbn; by rewrite lookup_insert. Qed.
Lemma br_set_br_ne h d d' p q x : d <> d' \/ p <> x -> br (set_br h d p q) d' !! x = br h d' !! x.
Proof.
  intros H. destruct d, d'; cbn; try done; rewrite lookup_insert_ne; try done; by destruct H.
Qed.
Lemma pa_set_br h d p q : pa (set_br h d p q) = pa h.
Proof. by destruct d. Qed.
Lemma br_set_pa h d p q : br (set_pa h p q) d = br h d.
Proof. by destruct d. Qed.
Lemma lf_set_pa h p q : lf (set_pa h p q) = lf h. Proof. done. Qed.
Lemma rt_set_pa h p q : rt (set_pa h p q) = rt h. Proof. done. Qed.
Lemma pa_set_pa_eq h p q : pa (set_pa h p q) !! p = Some q.
Proof. cbn. by rewrite lookup_insert. Qed.
Lemma pa_set_pa_ne h p q x : p <> x -> pa (set_pa h p q) !! x = pa h !! x.
Proof. intros ?. cbn. by rewrite lookup_insert_ne. Qed.

Lemma live_set_br h d p q x : live h x -> live (set_br h d p q) x.
Proof.
  intros (H & Hr & Ha). destruct d; repeat split; cbn; try done;
    destruct (decide (p = x)) as [->|]; rewrite ?lookup_insert, ?lookup_insert_ne; eauto.
Qed.
Lemma live_set_pa h p q x : live h x -> live (set_pa h p q) x.
Proof.
  intros (H & Hr & Ha). repeat split; cbn; try done.
  destruct (decide (p = x)) as [->|]; rewrite ?lookup_insert, ?lookup_insert_ne; eauto.
Qed.

Lemma frame_refl X h : frame X h h.
Proof. done. Qed.
Lemma frame_trans X h h1 h2 : frame X h h1 -> frame X h1 h2 -> frame X h h2.
Proof.
  intros H H' z Hz. destruct (H z Hz) as (<- & <- & <-). by apply H'.
Qed.
Lemma frame_mono X Y h h' : frame X h h' -> (forall z, z ∈ X -> z ∈ Y) -> frame Y h h'.
Proof. intros H HXY z Hz. apply H. intros ?. by apply Hz, HXY. Qed.
Lemma frame_set_br X h d p q : p ∈ X -> frame X h (set_br h d p q).
Proof.
  intros Hp z Hz. assert (p <> z) by congruence.
  destruct d; cbn; by rewrite ?lookup_insert_ne.
Qed.
Lemma frame_set_pa X h p q : p ∈ X -> frame X h (set_pa h p q).
Proof.
  intros Hp z Hz. assert (p <> z) by congruence. cbn. by rewrite ?lookup_insert_ne.
Qed.
Lemma frame_br X h h' d z : frame X h h' -> z ∉ X -> br h' d !! z = br h d !! z.
Proof. intros H Hz. destruct (H z Hz) as (? & ? & ?). by destruct d. Qed.
Lemma frame_pa X h h' z : frame X h h' -> z ∉ X -> pa h' !! z = pa h !! z.
Proof. intros H Hz. by destruct (H z Hz) as (? & ? & ?). Qed.
Lemma frame_live X h h' z : frame X h h' -> z ∉ X -> live h z -> live h' z.
Proof. intros H Hz. destruct (H z Hz) as (E1 & E2 & E3). unfold live. by rewrite E1, E2, E3. Qed.

Lemma elem_of_ord {A} d (l : list A) x : x ∈ ord d l <-> x ∈ l.
Proof. destruct d; [done|]. cbn. by rewrite <- Permutation_rev. Qed.
Lemma ord_Permutation {A} d (l : list A) : ord d l ≡ₚ l.
Proof. destruct d; [done|]. cbn. symmetry. apply Permutation_rev. Qed.
Lemma ord_NoDup {A} d (l : list A) : NoDup (ord d l) <-> NoDup l.
Proof. by rewrite (ord_Permutation d l). Qed.
Lemma ord_length {A} d (l : list A) : length (ord d l) = length l.
Proof. by rewrite (ord_Permutation d l). Qed.
Lemma ord_inj {A} d (l l' : list A) : ord d l = ord d l' -> l = l'.
Proof.
  destruct d; [done|]. cbn. intros H. rewrite <- (rev_involutive l), H. apply rev_involutive.
Qed.
Lemma ord_ord {A} d (l : list A) : ord d (ord d l) = l.
Proof. destruct d; [done|]. cbn. apply rev_involutive. Qed.
Lemma ord_negb {A} d (l : list A) : ord (negb d) l = rev (ord d l).
Proof. destruct d; cbn; by rewrite ?rev_involutive. Qed.
Lemma nodes_mk d a x b : ord d (nodes (mk d a x b)) = ord d (nodes a) ++ x :: ord d (nodes b).
Proof. destruct d; cbn; [done|]. rewrite rev_app_distr. cbn. by rewrite <- app_assoc. Qed.
Lemma nodes_mk_perm d a x b : nodes (mk d a x b) ≡ₚ x :: nodes a ++ nodes b.
Proof.
  destruct d; cbn; rewrite <- Permutation_middle; [done|]. by rewrite (Permutation_app_comm (nodes b)).
Qed.
Lemma elem_of_mk d a x b z : z ∈ nodes (mk d a x b) <-> z = x \/ z ∈ nodes a \/ z ∈ nodes b.
Proof. rewrite nodes_mk_perm. rewrite elem_of_cons, elem_of_app. done. Qed.
Lemma mk_mk d t : t <> E -> exists a x b, t = mk d a x b.
Proof. destruct t as [|l x r]; [done|]. intros _. destruct d; eexists _, _, _; done. Qed.
Lemma mk_not_E d a x b : mk d a x b <> E.
Proof. by destruct d. Qed.

Section proofs.
Context (nil : nat).

Definition ptr (t : tree) : nat := match t with E => nil | T _ x _ => x end.

Fixpoint rep (h : links) (p : nat) (t : tree) : Prop :=
  match t with
  | E => True
  | T l x r =>
    lf h !! x = Some (ptr l) /\ rt h !! x = Some (ptr r) /\ pa h !! x = Some p /\ x <> nil /\
    rep h x l /\ rep h x r
  end.

Lemma ptr_mk d a x b : ptr (mk d a x b) = x.
Proof. by destruct d. Qed.

Lemma rep_mk h p d a x b :
  rep h p (mk d a x b) <->
  br h (negb d) !! x = Some (ptr a) /\ br h d !! x = Some (ptr b) /\ pa h !! x = Some p /\ x <> nil /\
  rep h x a /\ rep h x b.
Proof. destruct d; cbn; naive_solver. Qed.

Lemma rep_nil h p t : rep h p t -> nil ∉ nodes t.
Proof.
  revert p. induction t as [|l IHl x r IHr]; intros p; cbn.
  - intros _ Hin. by apply elem_of_nil in Hin.
  - intros (_ & _ & _ & Hx & Hl & Hr). rewrite elem_of_app, elem_of_cons.
    intros [Hin|[Hin|Hin]]; [by apply (IHl _ Hl)|done|by apply (IHr _ Hr)].
Qed.

Lemma rep_ptr_nil h p t : rep h p t -> ptr t = nil -> t = E.
Proof. destruct t; [done|]. cbn. intros (_ & _ & _ & ? & _) ?. done. Qed.

Lemma ptr_in t : t <> E -> ptr t ∈ nodes t.
Proof. destruct t; [done|]. intros _. cbn. rewrite elem_of_app, elem_of_cons. auto. Qed.

Lemma rep_live h p t z : rep h p t -> z ∈ nodes t -> live h z.
Proof.
  revert p. induction t as [|l IHl x r IHr]; intros p; cbn.
  - intros _ Hin. by apply elem_of_nil in Hin.
  - intros (Hlf & Hrt & Hpa & Hx & Hl & Hr). rewrite elem_of_app, elem_of_cons.
    intros [Hin|[->|Hin]]; eauto. repeat split; eauto.
Qed.

Lemma rep_ext h h' p t :
  (forall z, z ∈ nodes t -> lf h' !! z = lf h !! z /\ rt h' !! z = rt h !! z /\ pa h' !! z = pa h !! z) ->
  rep h p t -> rep h' p t.
Proof.
  revert p. induction t as [|l IHl x r IHr]; intros p Hz; cbn; [done|].
  intros (Hlf & Hrt & Hpa & Hx & Hl & Hr).
  destruct (Hz x) as (-> & -> & ->); [cbn; rewrite elem_of_app, elem_of_cons; auto|].
  split_and!; try done.
  - apply IHl; [|done]. intros z Hzl. apply Hz. cbn. rewrite elem_of_app. auto.
  - apply IHr; [|done]. intros z Hzl. apply Hz. cbn. rewrite elem_of_app, elem_of_cons. auto.
Qed.

Lemma rep_frame X h h' p t : frame X h h' -> (forall z, z ∈ nodes t -> z ∉ X) -> rep h p t -> rep h' p t.
Proof. intros Hf Hd. apply rep_ext. intros z Hz. apply Hf. by apply Hd. Qed.

Lemma rep_set_br h d z q p t : z ∉ nodes t -> rep h p t -> rep (set_br h d z q) p t.
Proof.
  intros Hz. apply (rep_frame [z]); [apply frame_set_br, elem_of_list_here|].
  intros y Hy ->%elem_of_list_singleton. done.
Qed.
Lemma rep_set_pa h z q p t : z ∉ nodes t -> rep h p t -> rep (set_pa h z q) p t.
Proof.
  intros Hz. apply (rep_frame [z]); [apply frame_set_pa, elem_of_list_here|].
  intros y Hy ->%elem_of_list_singleton. done.
Qed.

(** The root gets a new parent; on an empty tree the sentinel is written. *)
Lemma rep_reparent h p q t : NoDup (nodes t) -> rep h p t -> rep (set_pa h (ptr t) q) q t.
Proof.
  destruct t as [|l x r]; cbn; [done|].
  intros Hnd (Hlf & Hrt & Hpa & Hx & Hl & Hr).
  apply NoDup_app in Hnd as (Hndl & Hdis & [Hxr Hndr]%NoDup_cons).
  split_and!; try done.
  - by rewrite lookup_insert.
  - apply (rep_set_pa h x q x l); [|done]. intros Hin. eapply Hdis; [done|]. apply elem_of_list_here.
  - by apply (rep_set_pa h x q x r).
Qed.

Lemma rep_size h p t : NoDup (nodes t) -> rep h p t -> length (nodes t) <= size (lf h).
Proof.
  intros Hnd Hr.
  assert (list_to_set (nodes t) ⊆ dom (lf h)) as Hs.
  { intros z Hz%elem_of_list_to_set. apply elem_of_dom. by destruct (rep_live h p t z Hr Hz). }
  apply subseteq_size in Hs. rewrite size_list_to_set in Hs by done. by rewrite size_dom in Hs.
Qed.

(** A tree under construction: the nodes on one edge, last one first, each with
    the subtree on its other side. The last one has a hole on side [d]; the
    first one hangs from the sentinel. *)
Definition bot (S : list (tree * nat)) : nat := match S with [] => nil | (_, x) :: _ => x end.

Fixpoint spine (h : links) (d : bool) (S : list (tree * nat)) : Prop :=
  match S with
  | [] => True
  | (t, x) :: S' =>
    spine h d S' /\ br h d !! bot S' = Some x /\ pa h !! x = Some (bot S') /\
    br h (negb d) !! x = Some (ptr t) /\ x <> nil /\ rep h x t
  end.

Fixpoint dsp (d : bool) (S : list (tree * nat)) : list nat :=
  match S with [] => [] | (t, x) :: S' => dsp d S' ++ ord d (nodes t) ++ [x] end.

Lemma elem_of_dsp d t x S z : z ∈ dsp d ((t, x) :: S) <-> z ∈ dsp d S \/ z ∈ nodes t \/ z = x.
Proof. cbn. rewrite !elem_of_app, elem_of_ord, elem_of_list_singleton. done. Qed.

Lemma bot_dsp d S : bot S = nil \/ bot S ∈ dsp d S.
Proof. destruct S as [|[t x] S]; [by left|right]. rewrite elem_of_dsp. cbn. auto. Qed.

Lemma spine_set_pa h d S z q : z ∉ dsp d S -> spine h d S -> spine (set_pa h z q) d S.
Proof.
  induction S as [|[t x] S IH]; [done|]. rewrite elem_of_dsp. intros Hz. cbn [spine].
  rewrite !br_set_pa. intros (H1 & H2 & H3 & H4 & H5 & H6).
  split_and!; try done; [apply IH; tauto|rewrite pa_set_pa_ne by naive_solver; done|].
  apply rep_set_pa; tauto.
Qed.

Lemma spine_set_other h d S z q : z ∉ dsp d S -> spine h d S -> spine (set_br h (negb d) z q) d S.
Proof.
  induction S as [|[t x] S IH]; [done|]. rewrite elem_of_dsp. intros Hz. cbn [spine].
  rewrite pa_set_br. intros (H1 & H2 & H3 & H4 & H5 & H6).
  split_and!; try done; [apply IH; tauto| | |].
  - rewrite br_set_br_ne; [done|left; by destruct d].
  - rewrite br_set_br_ne; [done|right; naive_solver].
  - apply rep_set_br; tauto.
Qed.

Lemma spine_set_same h d S z q :
  z ∉ dsp d S -> z <> nil -> spine h d S -> spine (set_br h d z q) d S.
Proof.
  induction S as [|[t x] S IH]; [done|]. rewrite elem_of_dsp. intros Hz Hn. cbn [spine].
  rewrite pa_set_br. intros (H1 & H2 & H3 & H4 & H5 & H6).
  split_and!; try done; [apply IH; tauto| | |].
  - rewrite br_set_br_ne; [done|right]. intros ->.
    destruct (bot_dsp d S) as [Hb|Hb]; naive_solver.
  - rewrite br_set_br_ne; [done|left; by destruct d].
  - apply rep_set_br; tauto.
Qed.

(** The hole is not part of the spine. *)
Lemma spine_set_bot h d S q : NoDup (nil :: dsp d S) -> spine h d S -> spine (set_br h d (bot S) q) d S.
Proof.
  destruct S as [|[t x] S]; [done|]. cbn [spine bot]. intros Hnd (H1 & H2 & H3 & H4 & H5 & H6).
  cbn [dsp] in Hnd. apply NoDup_cons in Hnd as [Hnil Hnd].
  rewrite app_assoc in Hnd. apply NoDup_app in Hnd as (Hnd & Hdis & _).
  assert (x ∉ dsp d S ++ ord d (nodes t)) as Hx.
  { intros Hin. apply (Hdis _ Hin). apply elem_of_list_here. }
  rewrite elem_of_app, elem_of_ord in Hx.
  rewrite pa_set_br. split_and!; try done.
  - apply spine_set_same; tauto.
  - rewrite br_set_br_ne; [done|right]. intros ->.
    destruct (bot_dsp d S) as [Hb|Hb]; [done|]. tauto.
  - rewrite br_set_br_ne; [done|left; by destruct d].
  - apply rep_set_br; tauto.
Qed.

(** Filling the hole. *)
Fixpoint close (d : bool) (S : list (tree * nat)) (t : tree) : tree :=
  match S with [] => t | (u, x) :: S' => close d S' (mk d u x t) end.

Lemma close_nodes d S t : ord d (nodes (close d S t)) = dsp d S ++ ord d (nodes t).
Proof.
  revert t. induction S as [|[u x] S IH]; intros t; [done|]. cbn [close dsp].
  rewrite IH, nodes_mk, <- !app_assoc. done.
Qed.

Lemma close_rep h d S t :
  spine h d S -> br h d !! bot S = Some (ptr t) -> rep h (bot S) t ->
  br h d !! nil = Some (ptr (close d S t)) /\ rep h nil (close d S t).
Proof.
  revert t. induction S as [|[u x] S IH]; intros t; cbn [spine close bot]; [done|].
  intros (H1 & H2 & H3 & H4 & H5 & H6) Hb Hr. apply IH; [done|by rewrite ptr_mk|].
  by apply rep_mk.
Qed.

Context {K V : Type} (cmp : K -> K -> comparison) (Hcmp : total_preorder cmp).
Context (dat : gmap nat (K * V)).

Definition klt (x y : nat) : Prop :=
  exists a b, dat !! x = Some a /\ dat !! y = Some b /\ cmp (fst a) (fst b) = Lt.
Definition kdir (d : bool) (x y : nat) : Prop := if d then klt x y else klt y x.
Definition dirc (d : bool) : comparison := if d then Gt else Lt.

(** [x] is passed on the way to [k] in direction [d]. *)
Definition side (d : bool) (k : K) (x : nat) : Prop :=
  exists kv, dat !! x = Some kv /\ cmp k (fst kv) = dirc d.

Definition sorted (l : list nat) : Prop :=
  StronglySorted klt l /\ Forall (fun x => is_Some (dat !! x)) l.

Lemma cmp_lt_trans a b c : cmp a b = Lt -> cmp b c = Lt -> cmp a c = Lt.
Proof.
  intros H1 H2. destruct (cmp a c) eqn:E3; [|done|].
  - exfalso. assert (cmp c a = Eq) as Eca by (rewrite (tp_opp _ Hcmp), E3; done).
    assert (cmp c b <> Gt) as Hcb by (eapply (tp_trans _ Hcmp _ a); congruence).
    rewrite (tp_opp _ Hcmp), H2 in Hcb. done.
  - exfalso. apply (tp_trans _ Hcmp a b c); congruence.
Qed.
Lemma cmp_flip a b c : cmp a b = c -> cmp b a = CompOpp c.
Proof. intros <-. apply (tp_opp _ Hcmp). Qed.
Lemma cmp_refl a : cmp a a = Eq.
Proof. pose proof (tp_opp _ Hcmp a a) as H. by destruct (cmp a a). Qed.

Lemma side_trans d k x y : side d k x -> kdir d y x -> side d k y.
Proof.
  intros (kv & Hx & Hk) Hy. destruct d; cbn in *; destruct Hy as (a & b & Ha & Hb & Hlt).
  - simplify_eq. exists a. split; [done|]. apply cmp_flip in Hk. cbn in Hk.
    apply (cmp_flip _ _ Lt). by eapply cmp_lt_trans.
  - simplify_eq. exists b. split; [done|]. by eapply cmp_lt_trans.
Qed.

Lemma StronglySorted_app {A} (R : A -> A -> Prop) l1 l2 :
  StronglySorted R (l1 ++ l2) <->
  StronglySorted R l1 /\ StronglySorted R l2 /\ (forall x y, x ∈ l1 -> y ∈ l2 -> R x y).
Proof.
  induction l1 as [|a l1 IH]; cbn.
  - split; [|by intros (_ & ? & _)]. intros H. split_and!; [constructor|done|].
    intros x y Hx. by apply elem_of_nil in Hx.
  - split.
    + intros H. apply StronglySorted_inv in H as [H HF].
      apply IH in H as (H1 & H2 & H3). apply Forall_app in HF as [HF1 HF2].
      split_and!; [by constructor|done|].
      intros x y [->|Hx]%elem_of_cons Hy; [|by apply H3]. rewrite Forall_forall in HF2. by apply HF2.
    + intros (H1 & H2 & H3). apply StronglySorted_inv in H1 as [H1 HF].
      constructor; [apply IH; split_and!; try done|].
      * intros x y Hx Hy. apply H3; [by right|done].
      * apply Forall_app. split; [done|]. apply Forall_forall. intros y Hy.
        apply H3; [left|done].
Qed.

Lemma StronglySorted_rev {A} (R : A -> A -> Prop) l :
  StronglySorted R l -> StronglySorted (fun x y => R y x) (rev l).
Proof.
  induction 1 as [|a l H IH HF]; cbn; [constructor|].
  apply StronglySorted_app. split_and!; [done|repeat constructor|].
  intros x y Hx ->%elem_of_list_singleton. rewrite <- Permutation_rev in Hx.
  rewrite Forall_forall in HF. by apply HF.
Qed.

Lemma sorted_ord d l : StronglySorted klt l -> StronglySorted (kdir d) (ord d l).
Proof. intros H. destruct d; cbn; [done|]. apply (StronglySorted_rev klt), H. Qed.

Lemma sorted_NoDup l : sorted l -> NoDup l.
Proof.
  intros [H _]. induction H as [|a l H IH HF]; constructor; [|done].
  intros Hin. rewrite Forall_forall in HF. destruct (HF a Hin) as (x & y & Hx & Hy & Hlt).
  simplify_eq. by rewrite cmp_refl in Hlt.
Qed.

Lemma sorted_app l1 l2 :
  sorted (l1 ++ l2) <-> sorted l1 /\ sorted l2 /\ (forall x y, x ∈ l1 -> y ∈ l2 -> klt x y).
Proof. unfold sorted. rewrite StronglySorted_app, Forall_app. tauto. Qed.

Definition upd (SP : bool -> list (tree * nat)) (d : bool) (S : list (tree * nat)) (d' : bool) :=
  if Bool.eqb d d' then S else SP d'.

Definition order (N : list nat) (SP : bool -> list (tree * nat)) (t : tree) (d : bool) : Prop :=
  ord d N = dsp d (SP d) ++ ord d (nodes t) ++ rev (dsp (negb d) (SP (negb d))).

Lemma order_flip N SP t d : order N SP t d -> order N SP t (negb d).
Proof.
  unfold order. intros H. rewrite !ord_negb, H, negb_involutive, !rev_app_distr, rev_involutive, app_assoc.
  done.
Qed.
Lemma order_any N SP t d d' : order N SP t d -> order N SP t d'.
Proof.
  intros H. destruct (decide (d = d')) as [<-|]; [done|].
  replace d' with (negb d) by (destruct d, d'; done). by apply order_flip.
Qed.

Lemma order_perm N SP t d : order N SP t d -> N ≡ₚ dsp d (SP d) ++ nodes t ++ dsp (negb d) (SP (negb d)).
Proof.
  unfold order. intros H. rewrite <- (ord_Permutation d N), H, (ord_Permutation d (nodes t)).
  by rewrite <- (Permutation_rev (dsp (negb d) _)).
Qed.

Definition splaying (N : list nat) (k : K) (h : links) (SP : bool -> list (tree * nat)) (t : tree) : Prop :=
  (exists p, rep h p t) /\ (forall d, spine h d (SP d)) /\ (forall d, order N SP t d) /\
  (forall d z, z ∈ dsp d (SP d) -> side d k z) /\ (forall z, z ∈ nil :: N -> live h z).

Lemma negb_ne d : negb d <> d. Proof. by destruct d. Qed.
Lemma negb_cases d d' : d' = d \/ d' = negb d. Proof. destruct d, d'; auto. Qed.

Ltac side_cond := first [done | congruence | by left | by left; apply negb_ne | by left; apply not_eq_sym, negb_ne
  | by right | by right; congruence | by right; apply not_eq_sym].
Ltac look :=
  repeat first
    [ rewrite br_set_pa | rewrite pa_set_br | rewrite br_set_br_eq | rewrite pa_set_pa_eq
    | rewrite br_set_br_ne by side_cond | rewrite pa_set_pa_ne by side_cond ].

Lemma splaying_rotate N k h SP d a x b y c :
  NoDup (nil :: N) ->
  splaying N k h SP (mk d a x (mk d b y c)) ->
  splaying N k (set_pa (set_br (set_pa (set_br h d x (ptr b)) (ptr b) x) (negb d) y x) x y) SP
    (mk d (mk d a x b) y c).
Proof.
  intros Hnd ([p Hr] & Hs & Ho & Hside & Hl).
  apply NoDup_cons in Hnd as [HnilN HndN].
  assert (HN := order_perm _ _ _ _ (Ho d)). rewrite HN in HndN.
  apply rep_mk in Hr as (Ha & Hb & Hp & Hx & Hra & Hrb).
  apply rep_mk in Hrb as (Hb1 & Hc & Hpy & Hy & Hrb & Hrc). rewrite ptr_mk in Hb.
  rewrite !nodes_mk_perm in HndN.
  assert (forall z, z = x \/ z = y \/ z ∈ nodes a \/ z ∈ nodes b \/ z ∈ nodes c ->
            z <> nil /\ forall d', z ∉ dsp d' (SP d')) as Hout.
  { intros z Hz. split.
    - intros ->. apply HnilN. rewrite HN, !nodes_mk_perm. set_solver.
    - intros d' Hin. destruct (negb_cases d d') as [-> | ->].
      + apply NoDup_app in HndN as (_ & Hd & _). apply (Hd z Hin). set_solver.
      + apply NoDup_app in HndN as (_ & _ & HndN). apply NoDup_app in HndN as (_ & Hd & _).
        apply (Hd z); [|done]. set_solver. }
  apply NoDup_app in HndN as (_ & _ & HndN). apply NoDup_app in HndN as (HndN & _ & _).
  assert (x <> y /\ x ∉ nodes a /\ x ∉ nodes b /\ x ∉ nodes c /\ y ∉ nodes a /\ y ∉ nodes b /\ y ∉ nodes c /\
          NoDup (nodes b) /\ (forall z, z ∈ nodes b -> z ∉ nodes a /\ z ∉ nodes c))
    as (Hxy & Hxa & Hxb & Hxc & Hya & Hyb & Hyc & Hndb & Hdb).
  { apply NoDup_cons in HndN as [Hx1 HndN]. apply NoDup_app in HndN as (_ & Hd & HndN).
    apply NoDup_cons in HndN as [Hy1 HndN]. apply NoDup_app in HndN as (Hndb & Hd2 & _).
    split_and!; try set_solver. }
  set (B := ptr b).
  assert (b = E /\ B = nil \/ b <> E /\ B ∈ nodes b /\ B <> nil) as HB.
  { assert (b = E \/ b <> E) as [-> | Hne] by (destruct b; auto); [by left|right].
    split_and!; [done|by apply ptr_in|]. intros Hn. by apply (rep_ptr_nil h y) in Hn. }
  assert (B <> x /\ B <> y /\ B ∉ nodes a /\ B ∉ nodes c /\ forall d', B ∉ dsp d' (SP d')) as (HBx & HBy & HBa & HBc & HBs).
  { destruct HB as [[_ ->]|(_ & HB & Hn)].
    - split_and!; try done.
      + by apply (rep_nil h x).
      + by apply (rep_nil h y).
      + intros d' Hin. apply HnilN. rewrite (order_perm _ _ _ _ (Ho d')), !elem_of_app. auto.
    - split_and!; set_solver. }
  split_and!.
  - exists x. apply rep_mk. rewrite ptr_mk. split_and!; try (look; done).
    + apply rep_mk. split_and!; try (look; done).
      * by repeat first [apply rep_set_pa; [done|] | apply rep_set_br; [done|]].
      * apply rep_set_pa; [done|]. apply rep_set_br; [done|].
        apply (rep_reparent _ y); [done|]. by apply rep_set_br.
    + by repeat first [apply rep_set_pa; [done|] | apply rep_set_br; [done|]].
  - intros d'. destruct (Hout x) as [_ Hx']; [auto|]. destruct (Hout y) as [_ Hy']; [auto|].
    apply spine_set_pa; [done|].
    assert (forall e z q h', (forall d', z ∉ dsp d' (SP d')) -> z <> nil -> spine h' d' (SP d') ->
              spine (set_br h' e z q) d' (SP d')) as Hset.
    { intros e z q h' Hz Hzn. destruct (negb_cases d' e) as [-> | ->];
        [by apply spine_set_same|by apply spine_set_other]. }
    apply Hset; [done..|]. apply spine_set_pa; [done|]. by apply Hset.
  - intros d'. apply (order_any _ _ _ d). specialize (Ho d). unfold order in *. rewrite Ho.
    rewrite !nodes_mk. repeat (rewrite <- ?app_assoc; cbn [app]). done.
  - done.
  - intros z Hz. specialize (Hl z Hz). by repeat first [apply live_set_pa | apply live_set_br].
Qed.

Lemma splaying_push N k h SP d a x b :
  NoDup (nil :: N) -> StronglySorted klt N -> side d k x -> b <> E ->
  splaying N k h SP (mk d a x b) ->
  splaying N k (set_pa (set_br h d (bot (SP d)) x) x (bot (SP d))) (upd SP d ((a, x) :: SP d)) b.
Proof.
  intros Hnd Hsort Hx Hb ([p Hr] & Hs & Ho & Hside & Hl).
  apply NoDup_cons in Hnd as [HnilN HndN].
  assert (HN := order_perm _ _ _ _ (Ho d)).
  assert (HndN' := HndN). rewrite HN, nodes_mk_perm in HndN.
  apply rep_mk in Hr as (Ha & Hb' & Hp & Hxn & Hra & Hrb).
  assert (forall d', nil ∉ dsp d' (SP d')) as Hnil.
  { intros d' Hin. apply HnilN. rewrite (order_perm _ _ _ _ (Ho d')), !elem_of_app. auto. }
  apply NoDup_app in HndN as (Hnd1 & Hd1 & HndN). apply NoDup_app in HndN as (HndN & Hd2 & Hnd2).
  apply NoDup_cons in HndN as [Hx1 HndN]. rewrite elem_of_app in Hx1.
  apply NoDup_app in HndN as (_ & Hdab & _).
  assert (forall z, z = x \/ z ∈ nodes a \/ z ∈ nodes b -> forall d', z ∉ dsp d' (SP d')) as Hout.
  { intros z Hz d' Hin. destruct (negb_cases d d') as [-> | ->].
    - apply (Hd1 z Hin). set_solver.
    - apply (Hd2 z); [|done]. set_solver. }
  assert (forall z, z = x \/ z ∈ nodes a \/ z ∈ nodes b -> bot (SP d) <> z) as Hbot.
  { intros z Hz Heq. destruct (bot_dsp d (SP d)) as [Hn|Hin].
    - rewrite Heq in Hn. subst z. destruct Hz as [Hz|[Hz|Hz]]; [congruence| |]; rewrite Hn in Hz.
      + by apply (rep_nil h x a Hra).
      + by apply (rep_nil h x b Hrb).
    - rewrite Heq in Hin. by apply (Hout z Hz d). }
  split_and!.
  - exists x. apply rep_set_pa; [tauto|]. apply rep_set_br; [|done].
    intros Hin. by apply (Hbot (bot (SP d))); auto.
  - intros d'. unfold upd. destruct (negb_cases d d') as [-> | ->].
    + rewrite eqb_reflx. cbn [spine]. split_and!.
      * apply spine_set_pa; [by apply Hout; auto|]. apply spine_set_bot; [|done]. by constructor.
      * look. done.
      * look. done.
      * look. done.
      * done.
      * apply rep_set_pa; [tauto|]. apply rep_set_br; [|done].
        intros Hin. by apply (Hbot (bot (SP d))); auto.
    + replace (Bool.eqb d (negb d)) with false by (by destruct d).
      apply spine_set_pa; [by apply Hout; auto|].
      replace (set_br h d) with (set_br h (negb (negb d))) by (by rewrite negb_involutive).
      apply spine_set_other; [|done].
      destruct (bot_dsp d (SP d)) as [-> |Hin]; [done|]. intros Hin'.
      apply (Hd1 _ Hin). rewrite elem_of_app. auto.
  - intros d'. apply (order_any _ _ _ d). specialize (Ho d). unfold order, upd in *. rewrite Ho.
    rewrite eqb_reflx. replace (Bool.eqb d (negb d)) with false by (by destruct d).
    cbn [dsp]. rewrite nodes_mk. repeat (rewrite <- ?app_assoc; cbn [app]). done.
  - intros d' z. unfold upd. destruct (negb_cases d d') as [-> | ->].
    + rewrite eqb_reflx, elem_of_dsp. intros [Hz|[Hz| ->]]; [by apply Hside| |done].
      apply (side_trans d k x); [done|].
      apply (sorted_ord d) in Hsort. rewrite (Ho d), nodes_mk in Hsort.
      apply StronglySorted_app in Hsort as (_ & Hsort & _).
      apply StronglySorted_app in Hsort as (Hsort & _ & _).
      apply StronglySorted_app in Hsort as (_ & _ & Hsort).
      apply Hsort; [by rewrite elem_of_ord|left].
    + replace (Bool.eqb d (negb d)) with false by (by destruct d). apply Hside.
  - intros z Hz. specialize (Hl z Hz). by repeat first [apply live_set_pa | apply live_set_br].
Qed.

Lemma link_trees_Ok h p d q :
  live h p -> live h q -> link_trees h p d q = Ok (set_pa (set_br h d p q) q p).
Proof.
  intros Hp Hq. unfold link_trees. rewrite wbr_Ok by (by apply live_br). bind.
  apply wpa_Ok. rewrite pa_set_br. by apply live_pa.
Qed.

Lemma cmpk_Ok k x kv : dat !! x = Some kv -> cmpk cmp dat k x = Ok (cmp k (fst kv)).
Proof. intros H. unfold cmpk, value. by rewrite H. Qed.

Lemma frame_link X h d p q : p ∈ X -> q ∈ X -> frame X h (set_pa (set_br h d p q) q p).
Proof.
  intros Hp Hq. apply (frame_trans _ _ (set_br h d p q)); [by apply frame_set_br|]. by apply frame_set_pa.
Qed.
Lemma live_link h d p q x : live h x -> live (set_pa (set_br h d p q) q p) x.
Proof. intros H. by apply live_set_pa, live_set_br. Qed.

Lemma dirc_is_gt c : c <> Eq -> c = dirc (is_gt c).
Proof. by destruct c. Qed.

(** A link that does not close a cycle of two: [q] does not lead back to [p] on
    the side opposite to the one [p] leads to [q]. The multimap tells tree nodes
    from duplicates by such cycles. [link_chk] is link_trees for nodes among [N]
    and links of this kind only; splaying needs no others. *)
Definition safe (h : links) (p : nat) (d : bool) (q : nat) : Prop :=
  p = nil \/ q = nil \/ br h (negb d) !! q <> Some p.
Definition link_chk (N : list nat) (h : links) (p : nat) (d : bool) (q : nat) : outcome links :=
  if bool_decide (p ∈ nil :: N) && bool_decide (q ∈ nil :: N) &&
     ((p =? nil) || (q =? nil) || negb (bool_decide (br h (negb d) !! q = Some p)))
  then link_trees h p d q else UB.

Lemma link_chk_Ok N h p d q :
  p ∈ nil :: N -> q ∈ nil :: N -> safe h p d q -> (forall z, z ∈ nil :: N -> live h z) ->
  link_chk N h p d q = Ok (set_pa (set_br h d p q) q p).
Proof.
  intros Hp Hq Hs Hl. unfold link_chk. rewrite !bool_decide_eq_true_2 by done. cbn [andb].
  destruct (Nat.eqb_spec p nil); [apply link_trees_Ok; auto|].
  destruct (Nat.eqb_spec q nil); [apply link_trees_Ok; auto|].
  rewrite bool_decide_eq_false_2; [apply link_trees_Ok; auto|]. by destruct Hs as [?|[?|?]].
Qed.
Lemma link_chk_inv N h p d q h' :
  link_chk N h p d q = Ok h' ->
  p ∈ nil :: N /\ q ∈ nil :: N /\ safe h p d q /\ link_trees h p d q = Ok h'.
Proof.
  unfold link_chk. destruct (bool_decide_reflect (p ∈ nil :: N)); [|done].
  destruct (bool_decide_reflect (q ∈ nil :: N)); [|done]. cbn [andb].
  destruct (Nat.eqb_spec p nil); [intros H; split_and!; try done; by left|].
  destruct (Nat.eqb_spec q nil); [intros H; split_and!; try done; right; by left|].
  destruct (bool_decide_reflect (br h (negb d) !! q = Some p)); [done|].
  intros H. split_and!; try done. by right; right.
Qed.

Lemma link_chk_mono N N' h p d q h' :
  (forall z, z ∈ nil :: N -> z ∈ nil :: N') -> link_chk N h p d q = Ok h' -> link_chk N' h p d q = Ok h'.
Proof.
  intros HN H. unfold link_chk in *. destruct (bool_decide_reflect (p ∈ nil :: N)) as [Hp|]; [|done].
  destruct (bool_decide_reflect (q ∈ nil :: N)) as [Hq|]; [|done].
  by rewrite !bool_decide_eq_true_2 by auto.
Qed.

Lemma safe_tree h p d q u : rep h q u -> p ∉ nodes u -> safe h p d (ptr u).
Proof.
  intros Hr Hp. assert (u = E \/ u <> E) as [-> |Hne] by (destruct u; auto); [right; by left|].
  destruct (mk_mk d u Hne) as (a & x & b & ->). rewrite ptr_mk.
  apply rep_mk in Hr as (Ha & _). unfold safe. rewrite Ha.
  assert (a = E \/ a <> E) as [-> |Hae] by (destruct a; auto).
  - cbn. destruct (decide (p = nil)) as [-> |]; [by left|right; right]. congruence.
  - right; right. intros [= <-]. apply Hp, elem_of_mk. right; left. by apply ptr_in.
Qed.

(** Splaying in two heaps in step. *)
Section sim.
Context (R : links -> links -> Prop) (link link' : links -> nat -> bool -> nat -> outcome links).
Context (probe probe' : nat -> outcome comparison).
Hypothesis HR : forall h h', R h h' -> lf h' = lf h /\ rt h' = rt h.
Hypothesis Hlink : forall h h' p d q h1, R h h' -> link h p d q = Ok h1 ->
  exists h1', link' h' p d q = Ok h1' /\ R h1 h1'.
Hypothesis Hprobe : forall x c, probe x = Ok c -> probe' x = Ok c.
Hypothesis Hstart : forall h h' h1, R h h' -> set_links h nil nil = Ok h1 ->
  exists h1', set_links h' nil nil = Ok h1' /\ R h1 h1'.

Lemma sim_br h h' d : R h h' -> br h' d = br h d.
Proof. intros H. destruct (HR _ _ H). by destruct d. Qed.

Lemma splay_loop_c_sim fuel h h' sl sr root h1 sl1 sr1 x n :
  R h h' -> splay_loop_c nil link probe fuel h sl sr root = Ok (h1, sl1, sr1, x, n) ->
  exists h1', splay_loop_c nil link' probe' fuel h' sl sr root = Ok (h1', sl1, sr1, x, n) /\ R h1 h1'.
Proof.
  revert n h h' sl sr root. induction fuel as [|f IH]; intros n h h' sl sr root Hh; [done|].
  cbn [splay_loop_c]. destruct (probe root) as [c| |] eqn:Ec; try done. bind.
  rewrite (Hprobe _ _ Ec). bind. destruct (is_eq c).
  { intros [= <- <- <- <- <-]. by exists h'. }
  rewrite (sim_br _ _ (is_gt c) Hh). destruct (rd (br h (is_gt c)) root) as [b| |]; try done. bind.
  destruct (b =? nil).
  { intros [= <- <- <- <- <-]. by exists h'. }
  destruct (probe b) as [c'| |] eqn:Ec'; try done. bind. rewrite (Hprobe _ _ Ec'). bind.
  assert (forall g g' y, R g g' ->
    (h2 ← link g (if is_gt c then sl else sr) (is_gt c) y;
     next ← rd (br h2 (is_gt c)) y;
     '(r, i) ← splay_loop_c nil link probe f h2 (if is_gt c then y else sl) (if is_gt c then sr else y) next;
     Ok (r, S i)) = Ok (h1, sl1, sr1, x, n) ->
    exists h1', (h2 ← link' g' (if is_gt c then sl else sr) (is_gt c) y;
     next ← rd (br h2 (is_gt c)) y;
     '(r, i) ← splay_loop_c nil link' probe' f h2 (if is_gt c then y else sl) (if is_gt c then sr else y) next;
     Ok (r, S i)) = Ok (h1', sl1, sr1, x, n) /\ R h1 h1') as Hstep.
  { intros g g' y Hg. destruct (link g _ _ y) as [g1| |] eqn:El; try done. bind.
    destruct (Hlink _ _ _ _ _ _ Hg El) as (g1' & -> & Hg1). bind.
    rewrite (sim_br _ _ _ Hg1). destruct (rd _ y) as [z| |]; try done. bind.
    destruct (splay_loop_c nil link probe f g1 _ _ z) as [[[[[g2 sl2] sr2] x2] i]| |] eqn:Er; try done. bind.
    intros [= <- <- <- <- <-]. destruct (IH _ _ _ _ _ _ Hg1 Er) as (g2' & -> & Hg2). bind. by exists g2'. }
  destruct (negb (is_eq c') && Bool.eqb (is_gt c) (is_gt c')).
  - rewrite (sim_br _ _ (negb (is_gt c)) Hh). destruct (rd (br h (negb (is_gt c))) b) as [g| |]; try done. bind.
    destruct (link h root _ g) as [g1| |] eqn:El; try done. bind.
    destruct (Hlink _ _ _ _ _ _ Hh El) as (g1' & -> & Hg1). bind.
    destruct (link g1 b _ root) as [g2| |] eqn:El2; try done. bind.
    destruct (Hlink _ _ _ _ _ _ Hg1 El2) as (g2' & -> & Hg2). bind.
    rewrite (sim_br _ _ _ Hg2). destruct (rd _ b) as [z| |]; try done. bind.
    destruct (z =? nil); [intros [= <- <- <- <- <-]; by exists g2'|]. by apply Hstep.
  - bind. by apply Hstep.
Qed.

Lemma splay_by_c_sim h h' root h1 x n :
  R h h' -> splay_by_c nil link probe h root = Ok (h1, x, n) ->
  exists h1', splay_by_c nil link' probe' h' root = Ok (h1', x, n) /\ R h1 h1'.
Proof.
  intros Hh. unfold splay_by_c. destruct (set_links h nil nil) as [h0| |] eqn:E0; try done. bind.
  destruct (Hstart _ _ _ Hh E0) as (h0' & -> & Hh0). bind. destruct (HR _ _ Hh0) as [-> _].
  destruct (splay_loop_c nil link probe _ h0 nil nil root) as [[[[[g sl] sr] r] i]| |] eqn:El; try done. bind.
  destruct (splay_loop_c_sim _ _ _ _ _ _ _ _ _ _ _ Hh0 El) as (g' & -> & Hg). bind.
  destruct (HR _ _ Hg) as [-> _]. destruct (rd (lf g) r) as [a| |]; try done. bind.
  destruct (link g sl true a) as [g2| |] eqn:E2; try done. bind.
  destruct (Hlink _ _ _ _ _ _ Hg E2) as (g2' & -> & Hg2). bind.
  destruct (HR _ _ Hg2) as [_ ->]. destruct (rd (rt g2) r) as [b| |]; try done. bind.
  destruct (link g2 sr false b) as [g3| |] eqn:E3; try done. bind.
  destruct (Hlink _ _ _ _ _ _ Hg2 E3) as (g3' & -> & Hg3). bind.
  destruct (HR _ _ Hg3) as [_ ->]. destruct (rd (rt g3) nil) as [a'| |]; try done. bind.
  destruct (link g3 r false a') as [g4| |] eqn:E4; try done. bind.
  destruct (Hlink _ _ _ _ _ _ Hg3 E4) as (g4' & -> & Hg4). bind.
  destruct (HR _ _ Hg4) as [-> _]. destruct (rd (lf g4) nil) as [b'| |]; try done. bind.
  destruct (link g4 r true b') as [g5| |] eqn:E5; try done. bind.
  destruct (Hlink _ _ _ _ _ _ Hg4 E5) as (g5' & -> & Hg5). bind.
  destruct (link g5 nil false r) as [g6| |] eqn:E6; try done. bind.
  destruct (Hlink _ _ _ _ _ _ Hg5 E6) as (g6' & -> & Hg6). bind.
  intros [= <- <- <-]. by exists g6'.
Qed.
Lemma splay_by_sim h h' root h1 x :
  R h h' -> splay_by nil link probe h root = Ok (h1, x) ->
  exists h1', splay_by nil link' probe' h' root = Ok (h1', x) /\ R h1 h1'.
Proof.
  intros Hh. rewrite !splay_by_erase, erase_Ok. intros [n Hn].
  destruct (splay_by_c_sim _ _ _ _ _ _ Hh Hn) as (h1' & H' & HR1). exists h1'. split; [|done].
  apply erase_Ok. by exists n.
Qed.
End sim.

(** What splaying makes of a tree, with the number of iterations of its loop: the
    node that ends up at the root and its subtrees. [g] compares what is looked
    for with a node. *)
Inductive falls (g : nat -> comparison) : tree -> nat -> tree -> nat -> tree -> Prop :=
  | falls_found a x b : g x = Eq -> falls g (T a x b) 1 a x b
  | falls_end d a x : g x = dirc d -> falls g (mk d a x E) 1 (if d then a else E) x (if d then E else a)
  | falls_zig d a x b n l z r :
      g x = dirc d -> b <> E -> g (ptr b) <> dirc d -> falls g b n l z r ->
      falls g (mk d a x b) (S n) (if d then mk d a x l else l) z (if d then r else mk d a x r)
  | falls_zigzig_end d a x b y :
      g x = dirc d -> g y = dirc d ->
      falls g (mk d a x (mk d b y E)) 1 (if d then mk d a x b else E) y (if d then E else mk d a x b)
  | falls_zigzig d a x b y c n l z r :
      g x = dirc d -> g y = dirc d -> c <> E -> falls g c n l z r ->
      falls g (mk d a x (mk d b y c)) (S n)
        (if d then mk d (mk d a x b) y l else l) z (if d then r else mk d (mk d a x b) y r).

(** The outcome of comparing [k] with a node. *)
Definition keyc (k : K) (x : nat) : comparison :=
  match dat !! x with Some kv => cmp k (fst kv) | None => Eq end.
Lemma keyc_Ok k x kv : dat !! x = Some kv -> keyc k x = cmp k (fst kv).
Proof. unfold keyc. by intros ->. Qed.

Lemma splay_loop_c_Ok N k fuel h SP t :
  sorted N -> nil ∉ N -> splaying N k h SP t -> t <> E -> length (nodes t) <= fuel ->
  exists h' SP' a x b kv n l r,
    splay_loop_c nil (link_chk N) (cmpk cmp dat k) fuel h (bot (SP true)) (bot (SP false)) (ptr t)
      = Ok (h', bot (SP' true), bot (SP' false), x, n) /\ falls (keyc k) t n l x r /\
    close true (SP' true) a = close true (SP true) l /\ close false (SP' false) b = close false (SP false) r /\
    splaying N k h' SP' (T a x b) /\ frame (nil :: N) h h' /\
    dat !! x = Some kv /\ (cmp k (fst kv) = Gt -> b = E) /\ (cmp k (fst kv) = Lt -> a = E).
Proof.
  intros HN Hnil. assert (NoDup (nil :: N)) as Hnd by (constructor; [done|by apply sorted_NoDup]).
  revert h SP t. induction fuel as [|f IH]; intros h SP t Hsp Ht Hf.
  { destruct t as [|l x r]; [done|]. cbn in Hf. rewrite app_length in Hf. cbn in Hf. lia. }
  assert (forall z, z ∈ nodes t -> z ∈ N) as Hin.
  { intros z Hz. destruct Hsp as (_ & _ & Ho & _). rewrite (order_perm _ _ _ _ (Ho true)), !elem_of_app. auto. }
  assert (forall z, z ∈ N -> is_Some (dat !! z)) as Hdat.
  { destruct HN as [_ HF]. rewrite Forall_forall in HF. done. }
  assert (exists kx, dat !! ptr t = Some kx) as [kx Hkx] by (apply Hdat, Hin, ptr_in; done).
  cbn [splay_loop_c]. rewrite (cmpk_Ok _ _ _ Hkx). bind.
  destruct (is_eq (cmp k (fst kx))) eqn:Heq.
  { destruct t as [|l x r]; [done|]. exists h, SP, l, x, r, kx, 1, l, r. cbn in Hkx.
    split_and!; try done; try by destruct (cmp k (fst kx)).
    constructor. rewrite (keyc_Ok _ _ _ Hkx). by destruct (cmp k (fst kx)). }
  set (d := is_gt (cmp k (fst kx))).
  assert (cmp k (fst kx) = dirc d) as Hd by (apply dirc_is_gt; by destruct (cmp k (fst kx))).
  destruct (mk_mk d t Ht) as (a & x & b & ->). rewrite ptr_mk in *.
  assert (Hsp0 := Hsp). destruct Hsp as ([p Hr] & Hs & Ho & Hside & Hl).
  assert (Hr0 := Hr). apply rep_mk in Hr as (Ha & Hb & Hp & Hx & Hra & Hrb).
  rewrite (rd_Ok _ _ _ Hb). bind.
  destruct (decide (ptr b = nil)) as [Hbn|Hbn].
  { rewrite Hbn, Nat.eqb_refl. apply (rep_ptr_nil h x) in Hbn as ->; [|done].
    exists h, SP, (if d then a else E), x, (if d then E else a), kx, 1, (if d then a else E), (if d then E else a).
    split_and!; try done; rewrite ?Hd; try by destruct d.
    constructor. by rewrite (keyc_Ok _ _ _ Hkx). }
  rewrite (proj2 (Nat.eqb_neq _ _) Hbn).
  assert (b <> E) as Hbne by (by intros ->).
  assert (exists kc, dat !! ptr b = Some kc) as [kc Hkc].
  { apply Hdat, Hin, elem_of_mk. right; right. by apply ptr_in. }
  rewrite (cmpk_Ok _ _ _ Hkc). bind.
  assert ((if d then bot (SP true) else bot (SP false)) = bot (SP d)) as Hbotd by (by destruct d).
  assert (forall h1 SP1 a1 x1 b1 k1, splaying N k h1 SP1 (mk d a1 x1 b1) -> frame (nil :: N) h h1 ->
     dat !! x1 = Some k1 -> cmp k (fst k1) = dirc d -> b1 <> E -> length (nodes b1) <= f -> SP1 = SP ->
     exists h' SP' a x b kv n l r,
      (h2 ← link_chk N h1 (if d then bot (SP true) else bot (SP false)) d x1;
       next ← rd (br h2 d) x1;
       '(r, i) ← splay_loop_c nil (link_chk N) (cmpk cmp dat k) f h2 (if d then x1 else bot (SP true))
         (if d then bot (SP false) else x1) next;
       Ok (r, S i)) = Ok (h', bot (SP' true), bot (SP' false), x, S n) /\ falls (keyc k) b1 n l x r /\
      close true (SP' true) a = close true (SP true) (if d then mk d a1 x1 l else l) /\
      close false (SP' false) b = close false (SP false) (if d then r else mk d a1 x1 r) /\
      splaying N k h' SP' (T a x b) /\ frame (nil :: N) h h' /\
      dat !! x = Some kv /\ (cmp k (fst kv) = Gt -> b = E) /\ (cmp k (fst kv) = Lt -> a = E)) as Hstep.
  { intros h1 SP1 a1 x1 b1 k1 Hsp1 Hfr1 Hk1 Hc1 Hb1 Hf1 ->.
    assert (Hsp2 := Hsp1). destruct Hsp2 as ([p1 Hr1] & Hs1 & Ho1 & _ & Hl1).
    assert (x1 ∈ N) as Hx1N.
    { rewrite (order_perm _ _ _ _ (Ho1 d)), !elem_of_app, elem_of_mk. auto. }
    assert (bot (SP d) ∈ nil :: N) as Hbot.
    { destruct (bot_dsp d (SP d)) as [-> |Hb1']; [left|right].
      rewrite (order_perm _ _ _ _ (Ho1 d)), !elem_of_app. auto. }
    assert (x1 ∈ nil :: N) as Hx1N' by (by right).
    assert (safe h1 (bot (SP d)) d x1) as Hsafe.
    { destruct (bot_dsp d (SP d)) as [Hbn1|Hb1']; [by left|].
      replace x1 with (ptr (mk d a1 x1 b1)) by apply ptr_mk. apply (safe_tree _ _ _ p1); [done|].
      assert (Hnd' := Hnd). apply NoDup_cons in Hnd' as [_ Hnd'].
      rewrite (order_perm _ _ _ _ (Ho1 d)) in Hnd'.
      apply NoDup_app in Hnd' as (_ & Hdis & _). specialize (Hdis _ Hb1'). rewrite elem_of_app in Hdis. tauto. }
    rewrite Hbotd, link_chk_Ok by auto. bind.
    assert (bot (SP d) <> x1) as Hbx.
    { intros Hbx. assert (Hnd' := Hnd). apply NoDup_cons in Hnd' as [_ Hnd'].
      rewrite (order_perm _ _ _ _ (Ho1 d)), nodes_mk_perm in Hnd'.
      apply NoDup_app in Hnd' as (_ & Hdis & _).
      destruct (bot_dsp d (SP d)) as [Hb1'|Hb1'].
      - rewrite Hbx in Hb1'. apply rep_mk in Hr1 as (_ & _ & _ & ? & _). done.
      - rewrite Hbx in Hb1'. apply (Hdis x1 Hb1'). cbn. left. }
    assert (br (set_pa (set_br h1 d (bot (SP d)) x1) x1 (bot (SP d))) d !! x1 = Some (ptr b1)) as Hnext.
    { apply rep_mk in Hr1 as (_ & Hnext & _). rewrite br_set_pa, br_set_br_ne by (by right). done. }
    rewrite (rd_Ok _ _ _ Hnext). bind.
    assert (side d k x1) as Hsx1 by (by exists k1).
    assert (Hpush := splaying_push N k h1 SP d a1 x1 b1 Hnd (proj1 HN) Hsx1 Hb1 Hsp1).
    destruct (IH _ _ _ Hpush Hb1 Hf1) as (h' & SP' & a' & x' & b' & kv & n & l & r & Hrun & Hfall & Hcl & Hcr & H1 & H2 & H3 & H4 & H5).
    exists h', SP', a', x', b', kv, n, l, r. split_and!; try done.
    - unfold upd in Hrun. destruct d; cbn [Bool.eqb bot] in Hrun; rewrite Hrun; done.
    - rewrite Hcl. unfold upd. by destruct d.
    - rewrite Hcr. unfold upd. by destruct d.
    - apply (frame_trans _ _ h1); [done|]. eapply frame_trans; [|done]. by apply frame_link. }
  destruct (negb (is_eq (cmp k (fst kc))) && Bool.eqb d (is_gt (cmp k (fst kc)))) eqn:Hrot.
  - apply andb_prop in Hrot as [Hne Heqd]. apply Bool.eqb_prop in Heqd.
    assert (cmp k (fst kc) = dirc d) as Hdc.
    { rewrite Heqd. apply dirc_is_gt. intros E. by rewrite E in Hne. }
    destruct (mk_mk d b Hbne) as (b1 & y & c & ->). rewrite ptr_mk in *.
    assert (Hrb0 := Hrb). apply rep_mk in Hrb as (Hb1 & Hc & Hpy & Hy & Hrb1 & Hrc).
    rewrite (rd_Ok _ _ _ Hb1). bind.
    assert (x ∈ N) as HxN by (apply Hin, elem_of_mk; auto).
    assert (y ∈ N) as HyN by (apply Hin, elem_of_mk; right; right; apply elem_of_mk; auto).
    assert (ptr b1 ∈ nil :: N) as HbN.
    { assert (b1 = E \/ b1 <> E) as [-> |Hne'] by (destruct b1; auto); [left|right].
      apply Hin, elem_of_mk; right; right; apply elem_of_mk. right; left. by apply ptr_in. }
    assert (Hnd2 := Hnd). apply NoDup_cons in Hnd2 as [_ Hnd2].
    rewrite (order_perm _ _ _ _ (Ho d)), !nodes_mk_perm in Hnd2.
    apply NoDup_app in Hnd2 as (_ & _ & Hnd2). apply NoDup_app in Hnd2 as (Hnd2 & _ & _).
    assert (x <> y /\ x ∉ nodes b1 /\ y ∉ nodes b1) as (Hxy & Hxb1 & Hyb1).
    { apply NoDup_cons in Hnd2 as [Hx1 Hnd2]. apply NoDup_app in Hnd2 as (_ & _ & Hnd2).
      apply NoDup_cons in Hnd2 as [Hy1 _].
      rewrite elem_of_app, elem_of_cons, elem_of_app in Hx1. rewrite elem_of_app in Hy1. tauto. }
    assert (ptr b1 = nil \/ ptr b1 ∈ nodes b1) as Hpb1 by (destruct b1; [by left|right; by apply ptr_in]).
    assert (safe h x d (ptr b1)) as Hsafe1. by (by apply (safe_tree _ _ _ y)).
    rewrite link_chk_Ok by first [done | by right | exact Hl]. bind.
    assert (safe (set_pa (set_br h d x (ptr b1)) (ptr b1) x) y (negb d) x) as Hsafe2.
    { right; right. rewrite br_set_pa, negb_involutive, br_set_br_eq. intros [= Heqb].
      destruct Hpb1 as [Hpb1|Hpb1]; congruence. }
    rewrite link_chk_Ok by first [done | by right | intros z Hz; apply live_link, Hl, Hz]. bind.
    assert (Hrota := splaying_rotate N k h SP d a x b1 y c Hnd Hsp0).
    assert (Hrota0 := Hrota). destruct Hrota0 as ([p' Hr'] & _).
    apply rep_mk in Hr' as (_ & Hc' & _ & _ & _ & Hrc').
    rewrite (rd_Ok _ _ _ Hc'). bind.
    assert (frame (nil :: N) h (set_pa (set_br (set_pa (set_br h d x (ptr b1)) (ptr b1) x) (negb d) y x) x y)) as Hfr.
    { apply (frame_trans _ _ (set_pa (set_br h d x (ptr b1)) (ptr b1) x)); apply frame_link; try done; by right. }
    destruct (decide (ptr c = nil)) as [Hcn|Hcn].
    + rewrite Hcn, Nat.eqb_refl. apply (rep_ptr_nil h y) in Hcn as ->; [|done].
      eexists _, SP, (if d then mk d a x b1 else E), y, (if d then E else mk d a x b1), kc, 1, _, _.
      split; [done|]. split; [apply falls_zigzig_end; [by rewrite (keyc_Ok _ _ _ Hkx)|by rewrite (keyc_Ok _ _ _ Hkc)]|].
      split_and!; try done; rewrite ?Hdc; by destruct d.
    + rewrite (proj2 (Nat.eqb_neq _ _) Hcn).
      destruct (Hstep _ SP (mk d a x b1) y c kc Hrota Hfr Hkc Hdc)
        as (h' & SP' & a' & x' & b' & kv & n & l & r & Hrun & Hfall & Hrest).
      * by intros ->.
      * assert (length (nodes (mk d a x (mk d b1 y c))) = S (length (nodes a) + S (length (nodes b1) + length (nodes c)))) as Hlen.
        { rewrite !nodes_mk_perm. cbn. rewrite app_length. cbn. rewrite app_length. done. }
        lia.
      * done.
      * eexists h', SP', a', x', b', kv, (S n), _, _. split; [done|]. split; [|done].
        apply falls_zigzig; [by rewrite (keyc_Ok _ _ _ Hkx)|by rewrite (keyc_Ok _ _ _ Hkc)|by intros ->|done].
  - destruct (Hstep h SP a x b kx Hsp0 (frame_refl _ _) Hkx Hd Hbne)
      as (h' & SP' & a' & x' & b' & kv & n & l & r & Hrun & Hfall & Hrest); [|done|].
    { assert (length (nodes (mk d a x b)) = S (length (nodes a) + length (nodes b))) as Hlen.
      { rewrite !nodes_mk_perm. cbn. rewrite app_length. done. }
      lia. }
    eexists h', SP', a', x', b', kv, (S n), _, _. split; [done|]. split; [|done].
    apply falls_zig; [by rewrite (keyc_Ok _ _ _ Hkx)|done| |done]. rewrite (keyc_Ok _ _ _ Hkc). intros Hdc.
    rewrite Hdc in Hrot. by destruct d.
Qed.

Lemma cmp_eq_l a b c : cmp a b = Eq -> cmp a c = cmp b c.
Proof.
  intros H. assert (cmp b a = Eq) as H' by (by rewrite (tp_opp _ Hcmp), H).
  destruct (cmp b c) eqn:E1.
  - destruct (cmp a c) eqn:E2; [done|exfalso..].
    + assert (cmp c a <> Gt) as Hc.
      { apply (tp_trans _ Hcmp c b a); [rewrite (tp_opp _ Hcmp), E1|rewrite H']; done. }
      by rewrite (tp_opp _ Hcmp), E2 in Hc.
    + apply (tp_trans _ Hcmp a b c); [rewrite H|rewrite E1|]; done.
  - destruct (cmp a c) eqn:E2; [exfalso|done|exfalso].
    + assert (cmp c b <> Gt) as Hc.
      { apply (tp_trans _ Hcmp c a b); [rewrite (tp_opp _ Hcmp), E2|rewrite H]; done. }
      by rewrite (tp_opp _ Hcmp), E1 in Hc.
    + apply (tp_trans _ Hcmp a b c); [rewrite H|rewrite E1|]; done.
  - destruct (cmp a c) eqn:E2; [exfalso|exfalso|done].
    + apply (tp_trans _ Hcmp b a c); [rewrite H'|rewrite E2|]; done.
    + apply (tp_trans _ Hcmp b a c); [rewrite H'|rewrite E2|]; done.
Qed.

Lemma side_split d k x kv (l : list nat) :
  dat !! x = Some kv -> cmp k (fst kv) <> dirc (negb d) -> (forall z, z ∈ l -> kdir d z x) ->
  forall z, z ∈ l -> side d k z.
Proof.
  intros Hx Hk Hl z Hz. specialize (Hl z Hz).
  destruct (cmp k (fst kv)) eqn:E.
  - destruct d; destruct Hl as (u & v & Hu & Hv & Hlt); simplify_eq.
    + exists u. split; [done|]. rewrite (cmp_eq_l _ _ _ E). by apply (cmp_flip _ _ Lt).
    + exists v. split; [done|]. by rewrite (cmp_eq_l _ _ _ E).
  - destruct d; [done|]. apply (side_trans false k x); [by exists kv|done].
  - destruct d; [|done]. apply (side_trans true k x); [by exists kv|done].
Qed.

Lemma set_links_Ok h e q :
  live h e -> set_links h e q = Ok (set_pa (set_br (set_br h false e q) true e q) e q).
Proof.
  intros H. unfold set_links. rewrite wbr_Ok by (by apply live_br). bind.
  rewrite wbr_Ok by (by apply live_br, live_set_br). bind.
  apply wpa_Ok. rewrite !pa_set_br. by apply live_pa.
Qed.

Lemma splay_chk_c_Ok h p t k :
  rep h p t -> t <> E -> sorted (nodes t) -> live h nil ->
  exists h' a x b kv n,
    splay_by_c nil (link_chk (nodes t)) (cmpk cmp dat k) h (ptr t) = Ok (h', x, n) /\
    falls (keyc k) t n a x b /\ rep h' nil (T a x b) /\
    nodes (T a x b) = nodes t /\ frame (nil :: nodes t) h h' /\ live h' nil /\ dat !! x = Some kv /\
    (forall z, z ∈ nodes a -> side true k z) /\ (forall z, z ∈ nodes b -> side false k z).
Proof.
  intros Hr Ht Hs Hl. set (N := nodes t).
  assert (nil ∉ N) as Hnil by (by apply (rep_nil h p)).
  assert (NoDup N) as HndN by (by apply sorted_NoDup).
  unfold splay_by_c. rewrite set_links_Ok by done. bind.
  set (h0 := set_pa (set_br (set_br h false nil nil) true nil nil) nil nil).
  assert (frame (nil :: N) h h0) as Hf0.
  { unfold h0. eapply frame_trans; [|apply frame_set_pa; left].
    eapply frame_trans; apply frame_set_br; left. }
  assert (splaying N k h0 (fun _ => []) t) as Hsp.
  { split_and!; try done.
    - exists p. unfold h0. apply rep_set_pa; [done|]. by repeat (apply rep_set_br; [done|]).
    - intros d. unfold order. cbn. by rewrite app_nil_r.
    - intros d z Hz. by apply elem_of_nil in Hz.
    - intros z [-> |Hz]%elem_of_cons; unfold h0; apply live_set_pa, live_set_br, live_set_br; [done|].
      by apply (rep_live h p t). }
  assert (length (nodes t) <= S (size (lf h0))) as Hfuel.
  { destruct Hsp as ([p' Hr'] & _). apply rep_size in Hr'; [|done]. lia. }
  destruct (splay_loop_c_Ok N k _ h0 _ t Hs Hnil Hsp Ht Hfuel)
    as (h1 & SP & a & x & b & kv & n & lt & rt' & Hrun & Hfall & Hclose1 & Hclose2 & Hsp1 & Hf1 & Hx & HGt & HLt).
  cbn [bot] in Hrun. rewrite Hrun. bind. clear Hrun Hfuel Hsp.
  destruct Hsp1 as ([p' Hr1] & Hsp & Ho & Hside & Hlive).
  cbn [rep] in Hr1. destruct Hr1 as (Hxl & Hxr & Hxp & Hxn & Hra & Hrb).
  set (L := SP true). set (R := SP false).
  assert (HN : N = dsp true L ++ nodes a ++ x :: nodes b ++ rev (dsp false R)).
  { specialize (Ho true). unfold order in Ho. cbn in Ho. rewrite Ho. fold L R.
    by rewrite <- app_assoc. }
  assert (HP : NoDup (dsp true L ++ nodes a ++ x :: nodes b ++ dsp false R)).
  { rewrite HN in HndN. by rewrite <- Permutation_rev in HndN. }
  apply NoDup_app in HP as (HndL & HdL & HP).
  apply NoDup_app in HP as (Hnda & Hda & HP).
  apply NoDup_cons in HP as (Hdx & HP).
  apply NoDup_app in HP as (Hndb & Hdb & HndR).
  assert (forall z, z ∈ dsp true L \/ z ∈ nodes a \/ z = x \/ z ∈ nodes b \/ z ∈ dsp false R -> z <> nil /\ z ∈ nil :: N) as HinN.
  { intros z Hz. assert (z ∈ N).
    { rewrite HN, !elem_of_app, elem_of_cons, elem_of_app, <- Permutation_rev. tauto. }
    split; [by intros ->|by right]. }
  assert (forall u, (forall z, z ∈ nodes u -> z ∈ nodes a \/ z ∈ nodes b) -> u = E /\ ptr u = nil \/ ptr u ∈ nodes u) as Hptr.
  { intros u _. destruct u; [by left|right]. by apply ptr_in. }
  assert (Hla : ptr a = nil \/ ptr a ∈ nodes a) by (destruct a; [by left|right; by apply ptr_in]).
  assert (Hlb : ptr b = nil \/ ptr b ∈ nodes b) by (destruct b; [by left|right; by apply ptr_in]).
  assert (HbL := bot_dsp true L). assert (HbR := bot_dsp false R).
  assert (HinL : bot L ∈ nil :: N) by (destruct HbL as [-> |?]; [left|by apply HinN; auto]).
  assert (HinR : bot R ∈ nil :: N) by (destruct HbR as [-> |?]; [left|by apply HinN; auto 6]).
  assert (Hina : ptr a ∈ nil :: N) by (destruct Hla as [-> |?]; [left|by apply HinN; auto 6]).
  assert (Hinb : ptr b ∈ nil :: N) by (destruct Hlb as [-> |?]; [left|by apply HinN; auto 6]).
  assert (Hinx : x ∈ nil :: N) by (apply HinN; auto).
  assert (bot L <> x /\ bot L ∉ nodes a /\ bot L ∉ nodes b /\ bot L ∉ dsp false R) as (HLx & HLa & HLb & HLR).
  { destruct HbL as [-> |HbL].
    - split_and!; [done|by apply (rep_nil h1 x)|by apply (rep_nil h1 x)|].
      intros Hin. destruct (HinN nil) as [? _]; auto.
    - specialize (HdL _ HbL). rewrite elem_of_app, elem_of_cons, elem_of_app in HdL. tauto. }
  assert (bot R <> x /\ bot R ∉ nodes a /\ bot R ∉ nodes b /\ bot R ∉ dsp true L) as (HRx & HRa & HRb & HRL).
  { destruct HbR as [-> |HbR].
    - split_and!; [done|by apply (rep_nil h1 x)|by apply (rep_nil h1 x)|].
      intros Hin. destruct (HinN nil) as [? _]; auto.
    - split_and!.
      + intros Heq. apply Hdx. rewrite Heq in HbR. rewrite elem_of_app. auto.
      + intros Hin. apply (Hda _ Hin). rewrite elem_of_cons, elem_of_app. auto.
      + intros Hin. by apply (Hdb _ Hin).
      + intros Hin. apply (HdL _ Hin). rewrite elem_of_app, elem_of_cons, elem_of_app. auto. }
  assert (ptr a <> x /\ ptr a ∉ nodes b /\ ptr a ∉ dsp true L /\ ptr a ∉ dsp false R) as (Hax & Hab & HaL & HaR).
  { destruct Hla as [-> |Hin].
    - split_and!; [done|by apply (rep_nil h1 x)|..]; intros Hin; destruct (HinN nil) as [? _]; auto.
    - split_and!.
      + intros Heq. apply (Hda _ Hin). rewrite Heq. left.
      + intros Hin'. apply (Hda _ Hin). rewrite elem_of_cons, elem_of_app. auto.
      + intros Hin'. apply (HdL _ Hin'). rewrite elem_of_app. auto.
      + intros Hin'. apply (Hda _ Hin). rewrite elem_of_cons, elem_of_app. auto. }
  assert (ptr b <> x /\ ptr b ∉ nodes a /\ ptr b ∉ dsp true L /\ ptr b ∉ dsp false R) as (Hbx & Hba & HbL' & HbR').
  { destruct Hlb as [-> |Hin].
    - split_and!; [done|by apply (rep_nil h1 x)|..]; intros Hin; destruct (HinN nil) as [? _]; auto.
    - split_and!.
      + intros Heq. apply Hdx. rewrite Heq in Hin. rewrite elem_of_app. auto.
      + intros Hin'. apply (Hda _ Hin'). rewrite elem_of_cons, elem_of_app. auto.
      + intros Hin'. apply (HdL _ Hin'). rewrite elem_of_app, elem_of_cons, elem_of_app. auto.
      + intros Hin'. by apply (Hdb _ Hin). }
  rewrite (rd_Ok _ _ _ Hxl). bind.
  rewrite link_chk_Ok by first [done | by apply (safe_tree _ _ _ x)]. bind.
  set (h2 := set_pa (set_br h1 true (bot L) (ptr a)) (ptr a) (bot L)).
  assert (H2r : rt h2 !! x = Some (ptr b)).
  { unfold h2. rewrite rt_set_pa. change (rt ?h) with (br h true). by rewrite br_set_br_ne by (by right). }
  rewrite (rd_Ok _ _ _ H2r). bind.
  assert (Hlive2 : forall z, z ∈ nil :: N -> live h2 z) by (intros z Hz; apply live_link; auto).
  assert (rep h2 x b) as H2b by (by apply rep_set_pa; [|apply rep_set_br]).
  rewrite link_chk_Ok by first [done | by apply (safe_tree _ _ _ x)]. bind.
  set (h3 := set_pa (set_br h2 false (bot R) (ptr b)) (ptr b) (bot R)).
  assert (Hlive3 : forall z, z ∈ nil :: N -> live h3 z) by (intros z Hz; apply live_link; auto).
  (* both spines closed *)
  assert (nil ∉ dsp true L) as HnL by (intros Hin; destruct (HinN nil) as [? _]; auto).
  assert (nil ∉ dsp false R) as HnR by (intros Hin; destruct (HinN nil) as [? _]; auto 6).
  assert (spine h3 true L /\ rep h3 (bot L) a /\ br h3 true !! bot L = Some (ptr a)) as (HsL & HrA & HbrL).
  { split_and!.
    - unfold h3. apply spine_set_pa; [done|].
      apply (spine_set_other _ true); [done|]. unfold h2. apply spine_set_pa; [done|].
      apply spine_set_bot; [by constructor|apply Hsp].
    - unfold h3. apply rep_set_pa; [done|]. apply rep_set_br; [done|].
      unfold h2. apply (rep_reparent _ x); [done|]. by apply rep_set_br.
    - unfold h3, h2. rewrite !br_set_pa. rewrite br_set_br_ne by (by left). by rewrite br_set_pa, br_set_br_eq. }
  assert (spine h3 false R /\ rep h3 (bot R) b /\ br h3 false !! bot R = Some (ptr b)) as (HsR & HrB & HbrR).
  { split_and!.
    - unfold h3. apply spine_set_pa; [done|].
      apply spine_set_bot; [by constructor|]. unfold h2. apply spine_set_pa; [done|].
      apply (spine_set_other _ false); [done|]. apply Hsp.
    - unfold h3. apply (rep_reparent _ x); [done|]. apply rep_set_br; [done|].
      unfold h2. apply rep_set_pa; [done|]. by apply rep_set_br.
    - unfold h3. by rewrite br_set_pa, br_set_br_eq. }
  destruct (close_rep h3 true L a HsL HbrL HrA) as [HrtL HrepL].
  destruct (close_rep h3 false R b HsR HbrR HrB) as [HlfR HrepR].
  set (A := close true L a) in *. set (B := close false R b) in *.
  assert (HnA : nodes A = dsp true L ++ nodes a) by (apply (close_nodes true)).
  assert (HnB : nodes B = nodes b ++ rev (dsp false R)).
  { apply (ord_inj false). unfold B. rewrite close_nodes. cbn. rewrite rev_app_distr, rev_involutive. done. }
  clear HsL HsR HrA HrB HbrL HbrR.
  cbn [br] in HrtL, HlfR. rewrite (rd_Ok _ _ _ HrtL). bind.
  assert (HNAB : N = nodes A ++ x :: nodes B).
  { rewrite HnA, HnB, HN, <- !app_assoc. done. }
  assert (x ∉ nodes A /\ x ∉ nodes B /\ NoDup (nodes A) /\ NoDup (nodes B) /\ (forall z, z ∈ nodes A -> z ∉ nodes B))
    as (HxA & HxB & HndA & HndB & HdAB).
  { rewrite HNAB in HndN. apply NoDup_app in HndN as (? & Hd & [? ?]%NoDup_cons).
    split_and!; try done.
    - intros Hin. apply (Hd _ Hin). left.
    - intros z Hz Hz'. apply (Hd _ Hz). by right. }
  assert (HinA : ptr A ∈ nil :: N).
  { assert (A = E \/ A <> E) as [-> |Hne] by (destruct A; auto); [left|right].
    rewrite HNAB, elem_of_app. left. by apply ptr_in. }
  assert (HinB : ptr B ∈ nil :: N).
  { assert (B = E \/ B <> E) as [-> |Hne] by (destruct B; auto); [left|right].
    rewrite HNAB, elem_of_app. right. right. by apply ptr_in. }
  assert (HAB : ptr A ∉ nodes B).
  { assert (A = E \/ A <> E) as [-> |Hne] by (destruct A; auto); [by apply (rep_nil h3 nil)|].
    apply HdAB. by apply ptr_in. }
  assert (HBA : ptr B ∉ nodes A).
  { assert (B = E \/ B <> E) as [-> |Hne] by (destruct B; auto); [by apply (rep_nil h3 nil)|].
    intros Hin. apply (HdAB _ Hin). by apply ptr_in. }
  assert (HAx : ptr A <> x).
  { intros Heq. assert (A = E \/ A <> E) as [HAE|Hne] by (destruct A; auto).
    - rewrite HAE in Heq. done.
    - apply HxA. rewrite <- Heq. by apply ptr_in. }
  assert (HBx : ptr B <> x).
  { intros Heq. assert (B = E \/ B <> E) as [HBE|Hne] by (destruct B; auto).
    - rewrite HBE in Heq. done.
    - apply HxB. rewrite <- Heq. by apply ptr_in. }
  rewrite link_chk_Ok by first [done | by apply (safe_tree _ _ _ nil)]. bind.
  set (h4 := set_pa (set_br h3 false x (ptr A)) (ptr A) x).
  assert (Hlive4 : forall z, z ∈ nil :: N -> live h4 z) by (intros z Hz; apply live_link; auto).
  assert (H4 : lf h4 !! nil = Some (ptr B)).
  { unfold h4. rewrite lf_set_pa. change (lf ?h) with (br h false). by rewrite br_set_br_ne by (by right). }
  rewrite (rd_Ok _ _ _ H4). bind.
  assert (rep h4 nil B) as H4b by (by apply rep_set_pa; [|apply rep_set_br]).
  rewrite link_chk_Ok by first [done | by apply (safe_tree _ _ _ nil)]. bind.
  set (h5 := set_pa (set_br h4 true x (ptr B)) (ptr B) x).
  assert (Hlive5 : forall z, z ∈ nil :: N -> live h5 z) by (intros z Hz; apply live_link; auto).
  rewrite link_chk_Ok by first [done | by left | apply elem_of_list_here]. bind.
  eexists _, A, x, B, kv, n. split; [done|].
  split; [unfold A, B, L, R; rewrite Hclose1, Hclose2; exact Hfall|].
  assert (HnilA : nil ∉ nodes A) by (by apply (rep_nil h3 nil)).
  assert (HnilB : nil ∉ nodes B) by (by apply (rep_nil h3 nil)).
  split_and!; try done.
  - change (T A x B) with (mk true A x B). apply rep_mk. cbn [negb]. split_and!; try done.
    + unfold h5, h4. look. done.
    + unfold h5, h4. look. done.
    + look. done.
    + apply rep_set_pa; [done|]. apply rep_set_br; [done|].
      unfold h5. apply rep_set_pa; [done|]. apply rep_set_br; [done|].
      unfold h4. apply (rep_reparent _ nil); [done|]. by apply rep_set_br.
    + apply rep_set_pa; [done|]. apply rep_set_br; [done|].
      unfold h5. apply (rep_reparent _ nil); [done|]. apply rep_set_br; [done|].
      unfold h4. apply rep_set_pa; [done|]. by apply rep_set_br.
  - apply (frame_trans _ _ h0); [done|]. apply (frame_trans _ _ h1); [done|].
    apply (frame_trans _ _ h2); [by apply frame_link|]. apply (frame_trans _ _ h3); [by apply frame_link|].
    apply (frame_trans _ _ h4); [by apply frame_link|]. apply (frame_trans _ _ h5); [by apply frame_link|].
    apply frame_link; [left|done].
  - apply live_link, Hlive5. left.
  - destruct Hs as [Hs _]. fold N in Hs. rewrite HNAB in Hs. apply StronglySorted_app in Hs as (_ & _ & Hs).
    intros z Hz. destruct (decide (cmp k (fst kv) = Lt)) as [Hlt|Hlt].
    + rewrite HnA, (HLt Hlt), app_nil_r in Hz. by apply (Hside true).
    + apply (side_split true k x kv (nodes A)); try done. intros y Hy. apply Hs; [done|left].
  - destruct Hs as [Hs _]. fold N in Hs. rewrite HNAB in Hs. apply StronglySorted_app in Hs as (_ & Hs & _).
    apply StronglySorted_inv in Hs as [_ Hs]. rewrite Forall_forall in Hs.
    intros z Hz. destruct (decide (cmp k (fst kv) = Gt)) as [Hgt|Hgt].
    + rewrite HnB, (HGt Hgt) in Hz. cbn in Hz. rewrite <- Permutation_rev in Hz. by apply (Hside false).
    + apply (side_split false k x kv (nodes B)); try done.
Qed.

Lemma splay_chk_Ok h p t k :
  rep h p t -> t <> E -> sorted (nodes t) -> live h nil ->
  exists h' a x b kv,
    splay_by nil (link_chk (nodes t)) (cmpk cmp dat k) h (ptr t) = Ok (h', x) /\ rep h' nil (T a x b) /\
    nodes (T a x b) = nodes t /\ frame (nil :: nodes t) h h' /\ live h' nil /\ dat !! x = Some kv /\
    (forall z, z ∈ nodes a -> side true k z) /\ (forall z, z ∈ nodes b -> side false k z).
Proof.
  intros Hr Ht Hs Hl. destruct (splay_chk_c_Ok h p t k Hr Ht Hs Hl) as (h' & a & x & b & kv & n & Hrun & _ & Hrest).
  exists h', a, x, b, kv. split; [|done]. rewrite splay_by_erase. apply erase_Ok. by exists n.
Qed.

Lemma splay_c_Ok h p t k :
  rep h p t -> t <> E -> sorted (nodes t) -> live h nil ->
  exists h' a x b kv n,
    splay_by_c nil link_trees (cmpk cmp dat k) h (ptr t) = Ok (h', x, n) /\
    falls (keyc k) t n a x b /\ rep h' nil (T a x b) /\
    nodes (T a x b) = nodes t /\ frame (nil :: nodes t) h h' /\ live h' nil /\ dat !! x = Some kv /\
    (forall z, z ∈ nodes a -> side true k z) /\ (forall z, z ∈ nodes b -> side false k z).
Proof.
  intros Hr Ht Hs Hl. destruct (splay_chk_c_Ok h p t k Hr Ht Hs Hl) as (h' & a & x & b & kv & n & Hrun & Hrest).
  exists h', a, x, b, kv, n. split; [|done].
  destruct (splay_by_c_sim eq (link_chk (nodes t)) link_trees (cmpk cmp dat k) (cmpk cmp dat k)) with (h := h) (h' := h)
    (root := ptr t) (h1 := h') (x := x) (n := n) as (h1 & H1 & <-); try done.
  - by intros ? ? ->.
  - intros g ? p' d q g1 <- Hg. exists g1. by apply link_chk_inv in Hg as (_ & _ & _ & ->).
  - intros g ? g1 <- Hg. by exists g1.
Qed.

Lemma splay_Ok h p t k :
  rep h p t -> t <> E -> sorted (nodes t) -> live h nil ->
  exists h' a x b kv,
    splay cmp nil dat h (ptr t) k = Ok (h', x) /\ rep h' nil (T a x b) /\
    nodes (T a x b) = nodes t /\ frame (nil :: nodes t) h h' /\ live h' nil /\ dat !! x = Some kv /\
    (forall z, z ∈ nodes a -> side true k z) /\ (forall z, z ∈ nodes b -> side false k z).
Proof.
  intros Hr Ht Hs Hl. destruct (splay_c_Ok h p t k Hr Ht Hs Hl) as (h' & a & x & b & kv & n & Hrun & _ & Hrest).
  exists h', a, x, b, kv. split; [|done]. unfold splay. rewrite splay_by_erase. apply erase_Ok. by exists n.
Qed.

(** ** Walking *)

Lemma edge_loop_Ok h d f t p :
  rep h p t -> t <> E -> length (nodes t) <= f ->
  exists l x, ord d (nodes t) = l ++ [x] /\ edge_loop nil f h d (ptr t) = Ok x.
Proof.
  revert t p. induction f as [|f IH]; intros t p Hr Ht Hf.
  { destruct t; [done|]. cbn in Hf. rewrite app_length in Hf. cbn in Hf. lia. }
  destruct (mk_mk d t Ht) as (a & x & b & ->). apply rep_mk in Hr as (_ & Hb & _ & _ & _ & Hrb).
  rewrite nodes_mk, ptr_mk. cbn [edge_loop]. rewrite (rd_Ok _ _ _ Hb). bind.
  assert (b = E \/ b <> E) as [-> |Hne] by (destruct b; auto).
  - cbn [ptr]. rewrite Nat.eqb_refl. exists (ord d (nodes a)), x. split; [by destruct d|done].
  - destruct (Nat.eqb_spec (ptr b) nil) as [He|_].
    { by apply (rep_ptr_nil h x) in He. }
    destruct (IH b x) as (l & y & Hl & ->); [done..| |].
    { pose proof (Permutation_length (nodes_mk_perm d a x b)) as Hlen. rewrite Hlen in Hf.
      cbn in Hf. rewrite app_length in Hf. lia. }
    exists (ord d (nodes a) ++ x :: l), y. split; [|done]. rewrite Hl.
    repeat (rewrite <- ?app_assoc; cbn [app]). done.
Qed.

Lemma edge_Ok h d t p :
  rep h p t -> NoDup (nodes t) -> t <> E ->
  exists l x, ord d (nodes t) = l ++ [x] /\ edge nil h d (ptr t) = Ok x.
Proof.
  intros Hr Hnd Ht. apply (edge_loop_Ok h d _ t p); [done..|]. apply rep_size in Hr; [lia|done].
Qed.

Lemma split_unique (l1 l2 m1 m2 : list nat) n :
  NoDup (l1 ++ n :: l2) -> l1 ++ n :: l2 = m1 ++ n :: m2 -> l1 = m1 /\ l2 = m2.
Proof.
  revert m1. induction l1 as [|x l1 IH]; intros m1 Hnd He.
  - destruct m1 as [|y m1]; cbn in He; simplify_eq; [done|].
    apply NoDup_cons in Hnd as [Hn _]. exfalso. apply Hn. rewrite elem_of_app. right. left.
  - destruct m1 as [|y m1]; cbn in He; simplify_eq.
    + apply NoDup_cons in Hnd as [Hn _]. exfalso. apply Hn. rewrite elem_of_app. right. left.
    + apply NoDup_cons in Hnd as [_ Hnd]. destruct (IH m1 Hnd) as [-> ->]; done.
Qed.

Lemma mk_ind (P : tree -> Prop) d :
  P E -> (forall a x b, P a -> P b -> P (mk d a x b)) -> forall t, P t.
Proof.
  intros HE HT t. induction t as [|l IHl x r IHr]; [done|].
  destruct d; [by apply (HT l x r)|by apply (HT r x l)].
Qed.

Lemma mk_NoDup d a x b :
  NoDup (nodes (mk d a x b)) <->
  x ∉ nodes a /\ x ∉ nodes b /\ NoDup (nodes a) /\ NoDup (nodes b) /\ (forall z, z ∈ nodes a -> z ∉ nodes b).
Proof.
  rewrite (nodes_mk_perm d a x b), NoDup_cons, NoDup_app, not_elem_of_app. naive_solver.
Qed.

Lemma find_sub h p d t n :
  rep h p t -> n ∈ nodes t ->
  exists u v q a b, rep h q (mk d a n b) /\ ord d (nodes t) = u ++ ord d (nodes (mk d a n b)) ++ v.
Proof.
  revert p. pattern t; apply (mk_ind _ d); clear t; [|intros a x b IHa IHb]; intros p Hr Hn.
  { by apply elem_of_nil in Hn. }
  pose proof Hr as Hr0. apply rep_mk in Hr as (_ & _ & _ & _ & Hra & Hrb).
  apply elem_of_mk in Hn as [-> |[Hn|Hn]].
  - exists [], [], p, a, b. split; [done|]. by rewrite app_nil_r.
  - destruct (IHa x) as (u & v & q & a' & b' & Hr & Ho); [done..|].
    exists u, (v ++ x :: ord d (nodes b)), q, a', b'. split; [done|].
    rewrite nodes_mk, Ho. by rewrite <- !app_assoc.
  - destruct (IHb x) as (u & v & q & a' & b' & Hr & Ho); [done..|].
    exists (ord d (nodes a) ++ x :: u), v, q, a', b'. split; [done|].
    rewrite nodes_mk, Ho. by rewrite <- !app_assoc.
Qed.

Lemma climb_Ok h d t p n l1 l2 :
  rep h p t -> NoDup (nodes t) -> ord d (nodes t) = l1 ++ n :: l2 -> br h d !! n = Some nil ->
  exists q m, pa h !! n = Some q /\ m < length (nodes t) /\
    forall f, match l2 with
              | [] => climb nil (m + f) h d n q = climb nil f h d (ptr t) p
              | y :: _ => climb nil (S (m + f)) h d n q = Ok y
              end.
Proof.
  revert p l1 l2. pattern t; apply (mk_ind _ d); clear t; [|intros a x b IHa IHb]; intros p l1 l2 Hr Hnd Ho Hbr.
  { destruct d, l1; done. }
  pose proof Hnd as Hnd0. apply mk_NoDup in Hnd as (Hxa & Hxb & Hna & Hnb & Hdis).
  apply rep_mk in Hr as (Ha & Hb & Hp & Hx & Hra & Hrb).
  rewrite (Permutation_length (nodes_mk_perm d a x b)). cbn [length]. rewrite app_length, ptr_mk.
  pose proof Hnd0 as Hnd1. apply (ord_NoDup d) in Hnd1. rewrite Ho in Hnd1.
  assert (n ∈ nodes (mk d a x b)) as Hn.
  { apply (elem_of_ord d). rewrite Ho, elem_of_app. right. left. }
  rewrite nodes_mk in Ho.
  apply elem_of_mk in Hn as [-> |[Hn|Hn]].
  - symmetry in Ho. apply split_unique in Ho as [-> ->]; [|done].
    assert (b = E) as -> by (apply (rep_ptr_nil h x); congruence).
    exists p, 0. split_and!; [done|lia|]. destruct d; done.
  - apply (elem_of_ord d), elem_of_list_split in Hn as (m1 & m2 & Hm).
    rewrite Hm in Ho. repeat (rewrite <- app_assoc in Ho; cbn [app] in Ho).
    symmetry in Ho. apply split_unique in Ho as [-> ->]; [|done].
    destruct (IHa x m1 m2 Hra Hna Hm Hbr) as (q & m & Hq & Hlt & Hc).
    exists q, m. split_and!; [done|lia|]. intros f.
    destruct m2 as [|y m2]; cbn [app].
    + specialize (Hc (S f)). rewrite Nat.add_succ_r in Hc. rewrite Hc. cbn [climb].
      destruct (Nat.eqb_spec x nil) as [He|_]; [done|]. rewrite (rd_Ok _ _ _ Ha). bind.
      by rewrite Nat.eqb_refl.
    + apply Hc.
  - assert (ptr a <> ptr b) as Hne.
    { intros He. assert (b <> E) as HbE by (intros ->; by apply elem_of_nil in Hn).
      apply ptr_in in HbE. rewrite <- He in HbE. destruct a as [|al ay ar].
      - by apply (rep_nil h x b) in Hrb.
      - apply (Hdis ay); [apply (ptr_in (T al ay ar))|]; done. }
    apply (elem_of_ord d), elem_of_list_split in Hn as (m1 & m2 & Hm).
    rewrite Hm in Ho. rewrite app_comm_cons, app_assoc in Ho.
    symmetry in Ho. apply split_unique in Ho as [-> ->]; [|done].
    destruct (IHb x m1 m2 Hrb Hnb Hm Hbr) as (q & m & Hq & Hlt & Hc).
    exists q, (S m). split_and!; [done|lia|]. intros f.
    destruct m2 as [|y m2].
    + specialize (Hc (S f)). rewrite Nat.add_succ_r in Hc. cbn [Nat.add]. rewrite Hc. cbn [climb].
      destruct (Nat.eqb_spec x nil) as [He|_]; [done|]. rewrite (rd_Ok _ _ _ Ha). bind.
      destruct (Nat.eqb_spec (ptr a) (ptr b)) as [He|_]; [done|].
      by rewrite (rd_Ok _ _ _ Hp).
    + specialize (Hc (S f)). cbn [Nat.add]. by rewrite Nat.add_succ_r in Hc.
Qed.

Lemma tree_next_Ok h d t n l1 l2 :
  rep h nil t -> NoDup (nodes t) -> ord d (nodes t) = l1 ++ n :: l2 ->
  tree_next nil h (ptr t) d n = Ok (default nil (head l2)).
Proof.
  intros Hr Hnd Ho.
  assert (n ∈ nodes t) as Hn. { apply (elem_of_ord d). rewrite Ho, elem_of_app. right. left. }
  assert (pa h !! ptr t = Some nil) as Hpt.
  { destruct t; [by apply elem_of_nil in Hn|]. by destruct Hr as (_ & _ & ? & _). }
  unfold tree_next. rewrite (rd_Ok _ _ _ Hpt). bind. rewrite Nat.eqb_refl. cbn [oassert]. bind.
  destruct (find_sub h nil d t n Hr Hn) as (u & v & q & a & b & Hrs & Hu).
  pose proof Hnd as Hnd1. apply (ord_NoDup d) in Hnd1.
  pose proof Hrs as Hrs'. apply rep_mk in Hrs' as (_ & Hb & Hp & _ & _ & Hrb).
  rewrite (rd_Ok _ _ _ Hb). bind.
  assert (b = E \/ b <> E) as [-> |Hne] by (destruct b; auto).
  - cbn [ptr]. rewrite Nat.eqb_refl. cbn [negb].
    destruct (climb_Ok h d t nil n l1 l2 Hr Hnd Ho) as (q' & m & Hq & Hm & Hc); [done|].
    rewrite (rd_Ok _ _ _ Hq). bind. apply rep_size in Hr; [|done].
    destruct l2 as [|y l2].
    + specialize (Hc (S (size (lf h) - m))). rewrite Nat.add_succ_r in Hc.
      replace (m + (size (lf h) - m)) with (size (lf h)) in Hc by lia. rewrite Hc.
      cbn [climb]. by rewrite Nat.eqb_refl.
    + specialize (Hc (size (lf h) - m)).
      by replace (m + (size (lf h) - m)) with (size (lf h)) in Hc by lia.
  - destruct (Nat.eqb_spec (ptr b) nil) as [He|_].
    { by apply (rep_ptr_nil h n) in He. }
    cbn [negb]. rewrite nodes_mk in Hu.
    rewrite Ho in Hu, Hnd1. repeat (rewrite <- app_assoc in Hu; cbn [app] in Hu). rewrite app_assoc in Hu.
    apply split_unique in Hu as [-> ->]; [|done].
    destruct (edge_Ok h (negb d) b n) as (l & x & Hl & ->); [done| |done|].
    { apply NoDup_app in Hnd1 as (_ & _ & [_ Hnd1]%NoDup_cons). apply NoDup_app in Hnd1 as (Hnd1 & _).
      by apply ord_NoDup in Hnd1. }
    rewrite ord_negb in Hl. apply (f_equal (@rev nat)) in Hl.
    rewrite rev_involutive, rev_app_distr in Hl. by rewrite Hl.
Qed.

(** ** Validation *)

Lemma recursive_size_Ok h p t fuel :
  rep h p t -> length (nodes t) < fuel -> recursive_size nil fuel h (ptr t) = Ok (Z.of_nat (length (nodes t))).
Proof.
  revert p t. induction fuel as [|f IH]; intros p t Hr Hf; [lia|].
  destruct t as [|l x r]; cbn [recursive_size ptr].
  { by rewrite Nat.eqb_refl. }
  destruct Hr as (Hl & Hrr & _ & Hx & Hrl & Hrr'). cbn [nodes] in *. rewrite app_length in *. cbn [length] in *.
  destruct (Nat.eqb_spec x nil) as [He|_]; [done|].
  rewrite (rd_Ok _ _ _ Hrr). bind. rewrite (rd_Ok _ _ _ Hl). bind.
  rewrite (IH x r) by (done || lia). bind. rewrite (IH x l) by (done || lia). bind. f_equal. lia.
Qed.

Lemma storing_parent_Ok deref h p t fuel :
  rep h p t -> length (nodes t) < fuel -> storing_parent nil deref fuel h p (ptr t) = Ok true.
Proof.
  revert p t. induction fuel as [|f IH]; intros p t Hr Hf; [lia|].
  destruct t as [|l x r]; cbn [storing_parent ptr].
  { by rewrite Nat.eqb_refl. }
  destruct Hr as (Hl & Hrr & Hp & Hx & Hrl & Hrr'). cbn [nodes] in *. rewrite app_length in *. cbn [length] in *.
  destruct (Nat.eqb_spec x nil) as [He|_]; [done|].
  rewrite (rd_Ok _ _ _ Hp). bind. rewrite Nat.eqb_refl. cbn [negb]. rewrite (rd_Ok _ _ _ Hl). bind.
  rewrite (IH x l) by (done || lia). bind. cbn [negb].
  rewrite (rd_Ok _ _ _ Hrr). bind. apply IH; [done|lia].
Qed.

Lemma subtrees_valid_Ok isnull h p t low high fuel :
  rep h p t -> sorted (nodes t) -> length (nodes t) < fuel ->
  (forall z, z ∈ nil :: nodes t -> isnull z = false) ->
  low = nil \/ (forall z, z ∈ nodes t -> klt low z) ->
  high = nil \/ (forall z, z ∈ nodes t -> klt z high) ->
  subtrees_valid cmp nil fuel isnull dat h low (ptr t) high = Ok true.
Proof.
  revert p t low high. induction fuel as [|f IH]; intros p t low high Hr Hs Hf Hnull Hlow Hhigh; [lia|].
  destruct t as [|l x r]; cbn [subtrees_valid ptr].
  { rewrite Hnull by left. by rewrite Nat.eqb_refl. }
  rewrite Hnull by (right; apply (elem_of_mk true l x r); by left).
  destruct Hr as (Hl & Hrr & Hp & Hx & Hrl & Hrr'). cbn [nodes] in *. rewrite app_length in *. cbn [length] in *.
  destruct (Nat.eqb_spec x nil) as [He|_]; [done|].
  apply sorted_app in Hs as (Hsl & Hsr & Hlr). 
  assert (exists kx, dat !! x = Some kx) as [kx Hkx].
  { destruct Hsr as [_ Hall]. apply Forall_cons in Hall as [[? ?] _]. eauto. }
  assert ((if low =? nil then Ok true
           else kv ← value dat low; c ← cmpk cmp dat (fst kv) x;
             Ok (match c with Lt => true | _ => false end)) = Ok true) as ->.
  { destruct (Nat.eqb_spec low nil) as [He|Hne]; [done|]. destruct Hlow as [?|Hlow]; [done|].
    destruct (Hlow x) as (a & b & Ha & Hb & Hab). { rewrite elem_of_app. right. left. }
    unfold value. rewrite Ha. bind. rewrite (cmpk_Ok _ _ _ Hb). bind. by rewrite Hab. }
  bind. cbn [negb].
  assert ((if high =? nil then Ok true
           else kv ← value dat high; c ← cmpk cmp dat (fst kv) x; Ok (is_gt c)) = Ok true) as ->.
  { destruct (Nat.eqb_spec high nil) as [He|Hne]; [done|]. destruct Hhigh as [?|Hhigh]; [done|].
    destruct (Hhigh x) as (a & b & Ha & Hb & Hab). { rewrite elem_of_app. right. left. }
    unfold value. rewrite Hb. bind. rewrite (cmpk_Ok _ _ _ Ha). bind. by rewrite (cmp_flip _ _ _ Hab). }
  bind. cbn [negb]. rewrite (rd_Ok _ _ _ Hl). bind.
  destruct Hsr as [Hsr1 Hsr2]. apply StronglySorted_inv in Hsr1 as [Hsr1 Hxr]. apply Forall_cons in Hsr2 as [_ Hsr2].
  rewrite Forall_forall in Hxr.
  rewrite (IH x l low x); [bind; cbn [negb]|done|done|lia| | |].
  - rewrite (rd_Ok _ _ _ Hrr). bind. apply (IH x r x high); [done|done|lia| | |].
    + intros z Hz. apply Hnull. rewrite elem_of_cons, elem_of_app, elem_of_cons. apply elem_of_cons in Hz. tauto.
    + right. intros z Hz. by apply Hxr.
    + destruct Hhigh as [?|Hhigh]; [by left|right]. intros z Hz. apply Hhigh. rewrite elem_of_app, elem_of_cons. auto.
  - intros z Hz. apply Hnull. rewrite elem_of_cons, elem_of_app, elem_of_cons. apply elem_of_cons in Hz. tauto.
  - destruct Hlow as [?|Hlow]; [by left|right]. intros z Hz. apply Hlow. rewrite elem_of_app, elem_of_cons. auto.
  - right. intros z Hz. apply Hlr; [done|left].
Qed.
End proofs.

Ltac side_cond := first [done | congruence | by left | by left; apply negb_ne | by left; apply not_eq_sym, negb_ne
  | by right | by right; congruence | by right; apply not_eq_sym].
Ltac look :=
  repeat first
    [ rewrite br_set_pa | rewrite pa_set_br | rewrite br_set_br_eq | rewrite pa_set_pa_eq
    | rewrite br_set_br_ne by side_cond | rewrite pa_set_pa_ne by side_cond ].
