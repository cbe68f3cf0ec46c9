(** What the answer of ccc_pq_validate (src/priority_queue.c:196-212, 430-489) is
    worth. *)
From Coq Require Import Sorted.
From stdpp Require Import base numbers option gmap fin_maps fin_sets list.
From Verif Require Import Common LinkHeap PathLemmas OrderSpec PqModel PqSpec PqProofs.

Section valid.
Context {V : Type} (cmp : V -> V -> comparison) (order : comparison).
Context (TP : total_preorder cmp) (HO : order = Lt \/ order = Gt).
Implicit Types (s : pmem V) (K : kids).
Local Ltac bind := cbn [mbind outcome_bind obind].

Lemma bind_true {X} (o : outcome X) (f : X -> outcome bool) :
  (x ← o; f x) = Ok true -> exists x, o = Ok x /\ f x = Ok true.
Proof. destruct o; bind; try done. eauto. Qed.

Lemma rd_inv (m : fld) x y : rd m x = Ok y -> m !! x = Some y.
Proof. unfold rd. by destruct (m !! x) as [z|]; [intros [= ->]|]. Qed.

Lemma value_inv s x v : value s x = Ok v -> dat s !! x = Some v.
Proof. unfold value. by destruct (dat s !! x) as [z|]; [intros [= ->]|]. Qed.

Lemma order_valid (v w : V) :
  match cmp v w, wrong_order order with Lt, Lt | Gt, Gt => false | _, _ => true end = true <->
  cmp w v <> order.
Proof.
  rewrite (tp_opp _ TP w v). unfold wrong_order.
  destruct HO as [-> | ->]; by destruct (cmp w v).
Qed.

(** * In any memory *)

(** What a walk around a ring that ends well has seen of each node. *)
Definition seen s (parent : nat) (y : nat) : Prop :=
  y <> 0 /\
  (parent <> 0 -> exists v w, dat s !! y = Some v /\ dat s !! parent = Some w /\ cmp v w <> order) /\
  exists l, lc s !! y = Some l /\
    (l <> 0 -> exists f, ring_valid cmp order f s y l l = Ok true).

Lemma ring_valid_seen f : forall s parent child cur, ring_valid cmp order f s parent child cur = Ok true ->
  exists rest, path (ns s) (cur :: rest) child /\ Forall (seen s parent) (cur :: rest).
Proof.
  induction f as [|f IH]; intros s parent child cur; cbn [ring_valid]; [done|].
  destruct (Nat.eqb_spec cur 0) as [|Hc]; [done|].
  intros (cp & _ & H)%bind_true. destruct (_ && _); [done|].
  apply bind_true in H as (ok1 & _ & H). destruct ok1; [|done]. cbn [negb] in H.
  apply bind_true in H as (n & _ & H). apply bind_true in H as (np & _ & H).
  apply bind_true in H as (ok2 & _ & H). destruct ok2; [|done]. cbn [negb] in H.
  apply bind_true in H as (ok3 & H3 & H). destruct ok3; [|done]. cbn [negb] in H.
  apply bind_true in H as (l & Hl & H). apply rd_inv in Hl.
  apply bind_true in H as (ok4 & H4 & H). destruct ok4; [|done]. cbn [negb] in H.
  apply bind_true in H as (nx & Hnx & H). apply rd_inv in Hnx.
  assert (Hs : seen s parent cur).
  { split; [done|]. split.
    - intros Hp. destruct (Nat.eqb_spec parent 0); [done|].
      apply bind_true in H3 as (x & Hx & H3). apply bind_true in H3 as (y & Hy & H3).
      apply value_inv in Hx, Hy. injection H3 as H3. apply order_valid in H3. eauto.
    - exists l. split; [done|]. intros Hl0. destruct (Nat.eqb_spec l 0); [done|]. eauto. }
  destruct (Nat.eqb_spec nx child) as [->|Hne].
  - exists []. split; [done|]. by constructor.
  - destruct (IH _ _ _ _ H) as (rest & Hp & Hf). exists (nx :: rest). split; [done|]. by constructor.
Qed.

Lemma validate_front s : pq_validate cmp order s = Ok true -> forall x, reach s x ->
  x = root s \/ exists v w, dat s !! x = Some v /\ dat s !! root s = Some w /\ cmp v w <> order.
Proof.
  intros Hv. unfold pq_validate in Hv. apply bind_true in Hv as (q & _ & Hv).
  destruct (Nat.eqb_spec q 0); [|done]. cbn [negb] in Hv.
  apply bind_true in Hv as (b & Hb & Hv). destruct b; [|done]. clear Hv.
  unfold has_valid_links in Hb.
  assert (Hin : forall x, reach s x -> x <> 0 /\
    exists l, lc s !! x = Some l /\ (l <> 0 -> exists f, ring_valid cmp order f s x l l = Ok true) /\
    (x = root s \/ (exists v w, dat s !! x = Some v /\ dat s !! root s = Some w /\ cmp v w <> order) /\
      exists p c rest, p <> 0 /\ path (ns s) (c :: rest) c /\ x ∈ c :: rest /\
        Forall (seen s p) (c :: rest) /\
        (p = root s \/ exists v w, dat s !! p = Some v /\ dat s !! root s = Some w /\ cmp v w <> order))).
  2:{ intros x Hx. destruct (Hin x Hx) as (_ & l & _ & _ & [?|[? _]]); [by left|by right]. }
  assert (Hup : forall p y, p <> 0 -> seen s p y ->
    (p = root s \/ exists v w, dat s !! p = Some v /\ dat s !! root s = Some w /\ cmp v w <> order) ->
    exists v w, dat s !! y = Some v /\ dat s !! root s = Some w /\ cmp v w <> order).
  { intros p y Hp (_ & Hs & _) Hr. destruct (Hs Hp) as (v & w & Hy & Hpv & Hc).
    destruct Hr as [->|(v' & w' & Hp' & Hr & Hc')]; [eauto|]. simplify_eq.
    exists v, w'. split_and!; [done..|]. eapply not_order_trans; eauto. }
  intros x Hx. induction Hx as [Hr|p c Hp IH Hc Hc0|c d Hcr IH Hne Hd].
  - destruct (Nat.eqb_spec (root s) 0) as [|_]; [done|].
    apply ring_valid_seen in Hb as (rest & _ & Hf). apply Forall_cons in Hf as [(H0 & _ & l & Hl & Hl') _].
    split; [done|]. exists l. auto.
  - destruct IH as (Hp0 & l & Hl & Hv & Hr). rewrite Hc in Hl. injection Hl as <-.
    destruct (Hv Hc0) as (f & Hf). apply ring_valid_seen in Hf as (rest & Hpath & Hf).
    assert (Hr' : p = root s \/ exists v w, dat s !! p = Some v /\ dat s !! root s = Some w /\ cmp v w <> order)
      by (destruct Hr as [?|[? _]]; [by left|by right]).
    pose proof Hf as Hf'. apply Forall_cons in Hf' as [Hs _].
    pose proof Hs as (_ & _ & l & Hl & Hl'). split; [done|]. exists l. split; [done|]. split; [done|].
    right. split; [by apply (Hup p c)|]. exists p, c, rest. split_and!; try done. left.
  - destruct IH as (Hc0 & l & Hl & Hv & [?|(_ & p & a & rest & Hp & Hpath & Hi & Hf & Hr)]); [done|].
    assert (Hd' : d ∈ a :: rest).
    { destruct (path_next _ _ _ _ Hpath Hi) as (y & Hy & Hy'). rewrite Hd in Hy. injection Hy as <-.
      destruct Hy' as [->|?]; [left|done]. }
    pose proof (proj1 (Forall_forall _ _) Hf d Hd') as Hs.
    pose proof Hs as (Hd0 & _ & l' & Hl' & Hl''). split; [done|]. exists l'. split; [done|]. split; [done|].
    right. split; [by apply (Hup p d)|]. exists p, a, rest. done.
Qed.

(** * With the links in order *)

(** [K] lists the children of every node of one heap with root [root s], links in
    order; nothing is said about the data and the size. *)
Definition heap_links s K : Prop :=
  forest s K /\ (forall x, fin K x) /\
  (forall x, is_Some (K !! x) -> root s <> 0 /\ desc K (root s) x) /\
  (root s <> 0 -> is_Some (K !! root s) /\ ~ kid K (root s) /\ pa s !! root s = Some 0 /\
     ns s !! root s = Some (root s) /\ ps s !! root s = Some (root s)).

Definition in_order s K : Prop :=
  forall x ks k, K !! x = Some ks -> k ∈ ks -> worse cmp order (dat s) k x.

Lemma ring_valid_step f s parent child cur : cur <> 0 -> joint s parent child ->
  is_Some (dat s !! cur) -> (parent <> 0 -> is_Some (dat s !! parent)) ->
  exists b, (b = true <-> (parent <> 0 -> worse cmp order (dat s) cur parent)) /\
  ring_valid cmp order (S f) s parent child cur =
    if negb b then Ok false
    else
      l ← rd (lc s) cur;
      ok4 ← (if l =? 0 then Ok true else ring_valid cmp order f s cur l l);
      if negb ok4 then Ok false
      else nx ← rd (ns s) cur;
           if nx =? child then Ok true else ring_valid cmp order f s parent child nx.
Proof.
  intros Hc0 (cp & n & p & Hcp & Hpp & Hn1 & Hn2 & Hp1 & Hp2) [v Hv] Hpar. cbn [ring_valid].
  destruct (Nat.eqb_spec cur 0); [done|].
  rewrite (rd_Ok _ _ _ Hcp). bind.
  assert (negb (parent =? 0) && negb (cp =? parent) = false) as ->.
  { destruct (Nat.eqb_spec parent 0) as [|H0]; [done|]. destruct (Hpp H0) as [-> _]. by rewrite Nat.eqb_refl. }
  assert ((if parent =? 0 then Ok true else a ← rd (lc s) parent; b ← rd (lc s) cp; Ok (a =? b)) = Ok true) as ->.
  { destruct (Nat.eqb_spec parent 0) as [|H0]; [done|]. destruct (Hpp H0) as [-> [q Hq]].
    rewrite (rd_Ok _ _ _ Hq). bind. by rewrite Nat.eqb_refl. }
  bind. cbn [negb]. rewrite (rd_Ok _ _ _ Hn1). bind. rewrite (rd_Ok _ _ _ Hn2). bind. rewrite Nat.eqb_refl.
  rewrite (rd_Ok _ _ _ Hp1). bind. rewrite (rd_Ok _ _ _ Hp2). bind. rewrite Nat.eqb_refl. bind. cbn [negb].
  destruct (Nat.eqb_spec parent 0) as [H0|H0].
  - exists true. split; [|by bind]. done.
  - destruct (Hpar H0) as [w Hw]. rewrite (value_Ok _ _ _ Hw). bind. rewrite (value_Ok _ _ _ Hv). bind.
    eexists. split; [|reflexivity]. rewrite order_valid. split.
    + intros Hne _ v' w' Hv' Hw'. by simplify_eq.
    + intros Hwo. by apply Hwo.
Qed.

Lemma ring_valid_decides s K xs ys : forest s K -> walk K xs ys -> forall fuel parent child cur rest,
  xs = cur :: rest -> length ys <= fuel -> path (ns s) xs child -> child ∉ rest -> joint s parent child ->
  (parent <> 0 -> is_Some (dat s !! parent)) ->
  exists b, ring_valid cmp order fuel s parent child cur = Ok b /\
    (b = true <-> (parent <> 0 -> forall x, x ∈ xs -> worse cmp order (dat s) x parent) /\
                  forall x ks k, x ∈ ys -> K !! x = Some ks -> k ∈ ks -> worse cmp order (dat s) k x).
Proof.
  intros F Hw. induction Hw as [|x xs ys Hx Hw IH|x xs ks l zs ys Hx Hw1 IH1 Hw2 IH2];
    intros fuel parent child cur rest [= -> ->] Hl Hp Hn HJ Hpar; destruct fuel as [|fuel]; cbn in Hl; try lia.
  - assert (Hc0 : cur <> 0) by (intros ->; by rewrite (f_zero _ _ F) in Hx).
    destruct (f_live _ _ F cur) as (_ & _ & _ & Hv); [eauto|].
    destruct (ring_valid_step fuel s parent child cur Hc0 HJ Hv Hpar) as (b & Hb & ->).
    destruct b.
    2:{ exists false. split; [done|]. split; [done|]. intros [Ho _]. apply Hb. intros H0. apply Ho; [done|left]. }
    cbn [negb]. rewrite (rd_Ok _ _ _ (f_lc _ _ F _ _ Hx)). bind. cbn [last from_option id Nat.eqb]. bind. cbn [negb].
    destruct Hp as [Hc Hp]. rewrite (rd_Ok _ _ _ Hc). bind. destruct rest as [|y rest]; cbn [hd].
    + rewrite Nat.eqb_refl. exists true. split; [done|]. split; [|done]. intros _. split.
      * intros H0 z ->%elem_of_list_singleton. by apply Hb.
      * inversion Hw; subst. intros z us k ->%elem_of_list_singleton Hz. rewrite Hx in Hz. simplify_eq.
        by intros ?%elem_of_nil.
    + destruct (Nat.eqb_spec y child) as [->|_]; [set_solver|].
      destruct (IH fuel parent child y rest) as (b & Hr & Hb2); [done|lia|done|set_solver|done|done|].
      exists b. split; [done|]. rewrite Hb2. split.
      * intros [H1 H2]. split.
        -- intros H0 z [->|Hz]%elem_of_cons; [by apply Hb|by apply H1].
        -- intros z us k [->|Hz]%elem_of_cons Hzz; [|by eapply H2]. rewrite Hx in Hzz. simplify_eq.
           by intros ?%elem_of_nil.
      * intros [H1 H2]. split.
        -- intros H0 z Hz. apply H1; [done|by right].
        -- intros z us k Hz. apply H2. by right.
  - assert (Hc0 : cur <> 0) by (intros ->; by rewrite (f_zero _ _ F) in Hx).
    destruct (f_live _ _ F cur) as (_ & _ & _ & Hv); [eauto|].
    destruct (ring_valid_step fuel s parent child cur Hc0 HJ Hv Hpar) as (b & Hb & ->).
    destruct b.
    2:{ exists false. split; [done|]. split; [done|]. intros [Ho _]. apply Hb. intros H0. apply Ho; [done|left]. }
    cbn [negb]. rewrite app_length in Hl.
    rewrite (rd_Ok _ _ _ (f_lc _ _ F _ _ Hx)), default_last_snoc. bind.
    assert (Hl0 : l <> 0).
    { intros ->. destruct (f_in _ _ F _ _ 0 Hx) as [? H0]; [set_solver|]. rewrite (f_zero _ _ F) in H0. done. }
    destruct (Nat.eqb_spec l 0); [done|].
    assert (Hnl : l ∉ ks).
    { pose proof (f_nd _ _ F _ _ Hx) as Hnd. apply NoDup_app in Hnd as (_ & Hnd & _). intros Hin. apply (Hnd _ Hin). left. }
    destruct (IH1 fuel cur l l ks) as (b1 & -> & Hb1);
      [done|lia|apply (ring_youngest order HO); by eapply F|done|by eapply (ring_joint cmp order TP HO)|done|].
    bind. destruct b1.
    2:{ exists false. split; [done|]. split; [done|]. intros [_ Ho]. apply Hb1. split.
        - intros _ z Hz. eapply Ho; [left|done|set_solver].
        - intros z us k Hz. apply Ho. right. apply elem_of_app. by left. }
    destruct (proj1 Hb1 eq_refl) as [Ho1 Ho2]. cbn [negb]. destruct Hp as [Hc Hp].
    assert (Hcur : forall us k, K !! cur = Some us -> k ∈ us -> worse cmp order (dat s) k cur).
    { intros us k Hus Hk. rewrite Hx in Hus. injection Hus as <-. apply Ho1; [done|set_solver]. }
    rewrite (rd_Ok _ _ _ Hc). bind. destruct rest as [|y rest]; cbn [hd].
    + rewrite Nat.eqb_refl. exists true. split; [done|]. split; [|done]. intros _. split.
      * intros H0 z ->%elem_of_list_singleton. by apply Hb.
      * inversion Hw2; subst. intros z us k [->|Hz]%elem_of_cons; [apply Hcur|].
        rewrite app_nil_r in Hz. by apply Ho2.
    + destruct (Nat.eqb_spec y child) as [->|_]; [set_solver|].
      destruct (IH2 fuel parent child y rest) as (b & Hr & Hb2); [done|lia|done|set_solver|done|done|].
      exists b. split; [done|]. rewrite Hb2. split.
      * intros [H1 H2]. split.
        -- intros H0 z [->|Hz]%elem_of_cons; [by apply Hb|by apply H1].
        -- intros z us k [->|[Hz|Hz]%elem_of_app]%elem_of_cons; [apply Hcur|by apply Ho2|by apply H2].
      * intros [H1 H2]. split.
        -- intros H0 z Hz. apply H1; [done|by right].
        -- intros z us k Hz. apply H2. right. apply elem_of_app. by right.
Qed.

Lemma validate_links s K : heap_links s K ->
  exists b, pq_validate cmp order s = Ok b /\
    (b = true <-> in_order s K /\ sz s = Z.of_nat (size K)).
Proof.
  intros (F & Hfin & Hcov & HR). unfold pq_validate.
  destruct (Nat.eqb_spec (root s) 0) as [Hr|Hr].
  - bind. cbn [negb Nat.eqb]. rewrite Hr. unfold has_valid_links, traversal_size. cbn [Nat.eqb]. bind. cbn [negb].
    bind. assert (K = ∅) as ->.
    { apply map_empty. intros x. destruct (K !! x) eqn:E; [|done]. destruct (Hcov x) as [? _]; [eauto|done]. }
    eexists. split; [done|]. rewrite Z.eqb_eq, map_size_empty. split; [|intuition].
    intros <-. split; [|done]. intros x ks k Hx. by rewrite lookup_empty in Hx.
  - destruct (HR Hr) as (HK & Hnk & Hpa & Hn & Hp). rewrite (rd_Ok _ _ _ Hpa). bind. cbn [negb Nat.eqb].
    destruct (walk_exists cmp order TP HO s K (root s) F) as [ys Hwk]; [apply Hfin|done|].
    assert (Hnd : NoDup ys).
    { eapply (walk_NoDup cmp order TP HO); [done|done|done|apply NoDup_singleton|]. intros x y. set_solver. }
    assert (Hys : forall x, x ∈ ys <-> is_Some (K !! x)).
    { intros x. rewrite (walk_desc cmp order TP HO _ _ _ _ Hwk). split.
      - intros (z & ->%elem_of_list_singleton & [|q ks y Hd Hq Hy]); [done|]. by eapply F.
      - intros Hk. destruct (Hcov x Hk) as [_ Hd]. exists (root s). split; [left|done]. }
    assert (Hlen : length ys = size K).
    { rewrite <- (size_list_to_set (C:=gset nat) ys), <- size_dom by done. f_equal. apply set_eq. intros x.
      by rewrite elem_of_list_to_set, Hys, elem_of_dom. }
    assert (Hle : length ys <= size (ns s)).
    { rewrite <- (size_list_to_set (C:=gset nat) ys), <- size_dom by done. apply subseteq_size. intros x.
      rewrite elem_of_list_to_set, Hys, elem_of_dom. intros Hk. by apply F. }
    unfold has_valid_links, traversal_size. destruct (Nat.eqb_spec (root s) 0); [done|].
    assert (Hpath : path (ns s) [root s] (root s)) by done.
    destruct (ring_valid_decides s K [root s] ys F Hwk (S (size (ns s))) 0 (root s) (root s) []) as (b & -> & Hb);
      [done|lia|done|set_solver|by exists 0, (root s), (root s)|done|].
    assert (Hb' : b = true <-> in_order s K).
    { rewrite Hb. split.
      - intros [_ Ho] x ks k Hx. apply Ho; [|done]. apply Hys. eauto.
      - intros Ho. split; [done|]. intros x ks k _. apply Ho. }
    bind. destruct b; cbn [negb].
    + rewrite (ring_size_Ok cmp order TP HO s K [root s] ys F Hwk _ _ _ []); [|done|lia|done|set_solver].
      bind. eexists. split; [done|]. rewrite Z.eqb_eq, Hlen. rewrite <- Hb'. naive_solver.
    + exists false. split; [done|]. split; [done|]. intros [Ho _]. by apply Hb'.
Qed.

(** Data [D] and size [n] in place of those of [s]: what a program can do to a
    queue without touching the links. *)
Definition overwritten s (D : gmap nat V) (n : Z) : pmem V :=
  PMem (lc s) (ns s) (ps s) (pa s) D (heap s) (root s) n.

Lemma Inv_links alloc s A K : Inv cmp order alloc s A K -> worn A = false -> heap_links s K.
Proof.
  intros I Hw. split; [apply I|]. split; [apply I|]. split.
  - intros x Hx. destruct (sh_cov _ _ _ _ _ (i_shape _ _ _ _ _ _ I) x Hx) as (r & [Hr ->] & Hd). done.
  - intros Hr. destruct (i_root _ _ _ _ _ _ I Hr) as (Hpa & n & p & Hn & Hp & _ & _ & Hx).
    destruct (Hx Hw) as [-> ->]. destruct (sh_root _ _ _ _ _ (i_shape _ _ _ _ _ _ I) (root s)) as [??]; [by split|].
    done.
Qed.

Lemma overwritten_Inv alloc s A K D n : Inv cmp order alloc s A K ->
  (forall x, is_Some (D !! x) <-> is_Some (vals A !! x)) ->
  in_order (overwritten s D n) K -> n = Z.of_nat (size K) ->
  Inv cmp order alloc (overwritten s D n) (View (queue A) (top A) D (idle A) (worn A)) K.
Proof.
  intros I HD Ho ->. pose proof I as [F S HQ HT HDA HZ HL H00 HR HI HH].
  rewrite <- HDA in HD. constructor; cbn.
  - destruct F as [F1 F2 F3 F4 F5 F6 F7 F8]. split; try done. intros x Hx. destruct (F8 x Hx) as (? & ? & ? & ?).
    cbn. split_and!; try done. by apply HD.
  - destruct S as [S1 S2 S3 _]. split; done.
  - done.
  - done.
  - done.
  - f_equal. rewrite <- size_dom. f_equal. apply set_eq. intros x. by rewrite HQ, elem_of_dom.
  - intros x Hx. apply HL. by apply HD.
  - destruct (D !! 0) eqn:E; [|done]. destruct (proj1 (HD 0)) as [v' Hv']; [eauto|]. by rewrite H00 in Hv'.
  - done.
  - intros e He. rewrite HD. by apply HI.
  - done.
Qed.

Lemma in_place alloc off c : good cmp order alloc off start c ->
  exists s rs A, play cmp order alloc off pq_init c = Ok (s, rs) /\ trace cmp order alloc start c rs A /\
  (worn A = false -> forall (D : gmap nat V) (n : Z), (forall x, is_Some (D !! x) <-> is_Some (vals A !! x)) ->
    exists b, pq_validate cmp order (overwritten s D n) = Ok b /\
    (b = true -> n = Z.of_nat (size (queue A)) /\ front_of cmp order D (queue A) (pq_front s) /\
       forall c', good cmp order alloc off (View (queue A) (top A) D (idle A) false) c' ->
       exists s' rs' A', play cmp order alloc off (overwritten s D n) c' = Ok (s', rs') /\
         trace cmp order alloc (View (queue A) (top A) D (idle A) false) c' rs' A' /\ shows cmp order s' A') /\
    (b = false -> n <> Z.of_nat (size (queue A)) \/
       exists x y v w v' w', x ∈ queue A /\ y ∈ queue A /\ vals A !! x = Some v /\ vals A !! y = Some w /\
         cmp v w <> order /\ D !! x = Some v' /\ D !! y = Some w' /\ cmp v' w' = order)).
Proof.
  intros Hg. destruct (play_Ok cmp order TP HO alloc off c pq_init start ∅) as (s & rs & A & K & Hp & Ht & I).
  { by apply init_Inv. }
  { done. }
  exists s, rs, A. split; [done|]. split; [done|]. intros Hw D n HD.
  pose proof (Inv_links _ _ _ _ I Hw) as HL.
  assert (HL' : heap_links (overwritten s D n) K).
  { destruct HL as (F & H2 & H3 & H4). split; [|done].
    destruct F as [F1 F2 F3 F4 F5 F6 F7 F8]. split; try done. intros x Hx. destruct (F8 x Hx) as (? & ? & ? & ?).
    cbn. split_and!; try done. apply HD. by rewrite <- (i_dat _ _ _ _ _ _ I). }
  assert (Hsz : size (queue A) = size K).
  { rewrite <- size_dom. f_equal. apply set_eq. intros x. by rewrite (i_queue _ _ _ _ _ _ I), elem_of_dom. }
  destruct (validate_links _ _ HL') as (b & Hb & Hbt). exists b. split; [done|]. cbn [sz overwritten] in Hbt. split.
  - intros ->. destruct (proj1 Hbt eq_refl) as [Ho Hn].
    pose proof (overwritten_Inv alloc s A K D n I HD Ho Hn) as I'. rewrite Hw in I'.
    split; [by rewrite Hsz|]. split.
    + pose proof (Inv_front cmp order TP HO alloc _ _ _ I') as Hf. cbn in Hf. unfold pq_front.
      by rewrite (i_top _ _ _ _ _ _ I).
    + intros c' Hg'. destruct (play_Ok cmp order TP HO alloc off c' _ _ K I' Hg') as (s' & rs' & A' & K' & Hp' & Ht' & I2).
      exists s', rs', A'. split; [done|]. split; [done|]. by eapply (Inv_shows cmp order TP HO).
  - intros ->. destruct (decide (n = Z.of_nat (size (queue A)))) as [Hn|Hn]; [right|by left].
    assert (Hno : ~ in_order (overwritten s D n) K).
    { intros Ho. enough (false = true) by done. apply Hbt. rewrite <- Hsz. done. }
    set (bad := fun x y => match D !! x, D !! y with Some v, Some w => is_order order (cmp v w) | _, _ => false end).
    set (kd := fun x => default [] (K !! x)).
    destruct (decide (Exists (fun x => Exists (fun k => bad k x = true) (kd x)) (elements (queue A)))) as [Hex|Hne].
    2:{ exfalso. apply Hno. intros x ks k Hx Hk v w Hv Hw' Hc. apply Hne, Exists_exists. exists x.
        split; [apply elem_of_elements, (i_queue _ _ _ _ _ _ I); eauto|]. apply Exists_exists. exists k.
        unfold kd, bad. rewrite Hx. split; [done|]. cbn in Hv, Hw'. rewrite Hv, Hw'. by apply is_order_spec. }
    apply Exists_exists in Hex as (x & _ & Hex). apply Exists_exists in Hex as (k & Hk & Hbad).
    unfold kd in Hk. destruct (K !! x) as [ks|] eqn:Hx; [|by apply elem_of_nil in Hk]. cbn in Hk.
    unfold bad in Hbad. destruct (D !! k) as [v'|] eqn:Hv'; [|done]. destruct (D !! x) as [w'|] eqn:Hw'; [|done].
    apply is_order_spec in Hbad; [|done].
    destruct (proj1 (HD k)) as [v Hv]; [eauto|]. destruct (proj1 (HD x)) as [w Hwv]; [eauto|].
    exists k, x, v, w, v', w'.
    split; [apply (i_queue _ _ _ _ _ _ I); by eapply (i_forest _ _ _ _ _ _ I)|].
    split; [apply (i_queue _ _ _ _ _ _ I); eauto|]. split; [done|]. split; [done|]. split; [|done].
    eapply (sh_ord _ _ _ _ _ (i_shape _ _ _ _ _ _ I)); [done|done| |]; by rewrite (i_dat _ _ _ _ _ _ I).
Qed.

End valid.
