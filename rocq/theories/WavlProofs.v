(** WAVL trees in memory: the maintenance functions keep the tree, its order and
    its rank rule. *)
From stdpp Require Import base numbers option gmap fin_maps list.
From Verif Require Import Common LinkHeap PathLemmas OrderSpec TreeModel TreeProofs WavlModel Counting.

Local Ltac bind := cbn [mbind outcome_bind obind].

(** ** Zippers *)

(** The way from a subtree to the root: a node with the direction of the hole and
    the subtree on the other side. *)
Definition zip : Type := list (bool * nat * tree).

Fixpoint plug (Z : zip) (t : tree) : tree :=
  match Z with [] => t | (d, x, u) :: Z => plug Z (mk d u x t) end.

Fixpoint znodes (Z : zip) : list nat :=
  match Z with [] => [] | (d, x, u) :: Z => x :: nodes u ++ znodes Z end.

Lemma plug_perm Z t : nodes (plug Z t) ≡ₚ znodes Z ++ nodes t.
Proof.
  revert t. induction Z as [|[[d x] u] Z IH]; intros t; [done|]. cbn [plug znodes].
  rewrite IH, nodes_mk_perm. solve_Permutation.
Qed.
Lemma elem_of_plug Z t x : x ∈ nodes (plug Z t) <-> x ∈ znodes Z \/ x ∈ nodes t.
Proof. rewrite plug_perm, elem_of_app. done. Qed.

Lemma plug_nodes Z t u : nodes t = nodes u -> nodes (plug Z t) = nodes (plug Z u).
Proof.
  revert t u. induction Z as [|[[d x] v] Z IH]; intros t u H; [done|]. cbn [plug]. apply IH.
  apply (ord_inj d). by rewrite !nodes_mk, H.
Qed.

(** What lies before and after the hole. *)
Lemma plug_split Z : exists l r, forall t, nodes (plug Z t) = l ++ nodes t ++ r.
Proof.
  induction Z as [|[[d x] v] Z (l & r & IH)].
  - exists [], []. intros t. by rewrite app_nil_r.
  - destruct d.
    + exists (l ++ nodes v ++ [x]), r. intros t. cbn [plug]. rewrite IH. cbn [mk nodes].
      by rewrite <- !app_assoc.
    + exists l, (x :: nodes v ++ r). intros t. cbn [plug]. rewrite IH. cbn [mk nodes].
      by rewrite <- !app_assoc.
Qed.

Lemma plug_not_E Z t : t <> E -> plug Z t <> E.
Proof.
  revert t. induction Z as [|[[d x] v] Z IH]; intros t H; [done|]. cbn [plug]. apply IH, mk_not_E.
Qed.

(** Every node of a tree has a zipper. *)
Lemma find_zip t n : n ∈ nodes t -> exists Z a b, t = plug Z (T a n b).
Proof.
  intros Hn.
  enough (forall Z, exists Z' a b, plug Z t = plug Z' (T a n b)) as H.
  { destruct (H []) as (Z & a & b & He). by exists Z, a, b. }
  induction t as [|l IHl x r IHr]; intros Z; [by apply elem_of_nil in Hn|].
  apply (elem_of_mk true) in Hn as [-> |[Hn|Hn]].
  - by exists Z, l, r.
  - apply (IHl Hn ((false, x, r) :: Z)).
  - apply (IHr Hn ((true, x, l) :: Z)).
Qed.

Section zippers.
Context (nil : nat).
Notation ptr := (ptr nil).
Notation rep := (rep nil).

Definition zptr (Z : zip) : nat := match Z with [] => nil | (_, x, _) :: _ => x end.

Fixpoint zrep (h : links) (root : nat) (Z : zip) (q : nat) : Prop :=
  match Z with
  | [] => root = q
  | (d, x, u) :: Z =>
    br h d !! x = Some q /\ br h (negb d) !! x = Some (ptr u) /\ pa h !! x = Some (zptr Z) /\ x <> nil /\
    rep h x u /\ zrep h root Z x
  end.

Lemma zrep_plug h root Z t :
  zrep h root Z (ptr t) /\ rep h (zptr Z) t <-> root = ptr (plug Z t) /\ rep h nil (plug Z t).
Proof.
  revert t. induction Z as [|[[d x] u] Z IH]; intros t; [done|]. cbn [plug zrep zptr].
  rewrite <- IH, ptr_mk, rep_mk. tauto.
Qed.

Lemma zrep_frame X h h' root Z q :
  frame X h h' -> (forall z, z ∈ znodes Z -> z ∉ X) -> zrep h root Z q -> zrep h' root Z q.
Proof.
  intros Hf. revert q. induction Z as [|[[d x] u] Z IH]; intros q Hd; [done|]. cbn [znodes] in Hd.
  cbn [zrep]. intros (H1 & H2 & H3 & H4 & H5 & H6).
  assert (x ∉ X) as Hx by (apply Hd; left).
  rewrite !(frame_br X h h') by done. rewrite (frame_pa X h h') by done. split_and!; try done.
  - apply (rep_frame _ X h); [done| |done]. intros z Hz. apply Hd. right. apply elem_of_app. by left.
  - apply IH; [|done]. intros z Hz. apply Hd. right. apply elem_of_app. by right.
Qed.

Lemma zptr_in Z : zptr Z = nil \/ zptr Z ∈ znodes Z.
Proof. destruct Z as [|[[d x] u] Z]; [by left|right]. cbn. left. Qed.

(** A tree in memory, seen from a hole filled with [t]. *)
Definition zin (h : links) (root : nat) (Z : zip) (t : tree) : Prop :=
  zrep h root Z (ptr t) /\ rep h (zptr Z) t /\ NoDup (znodes Z ++ nodes t) /\ live h nil.

Lemma zin_plug h root Z t :
  zin h root Z t <-> root = ptr (plug Z t) /\ rep h nil (plug Z t) /\ NoDup (nodes (plug Z t)) /\ live h nil.
Proof. unfold zin. rewrite plug_perm. rewrite (and_assoc (zrep _ _ _ _)), zrep_plug. tauto. Qed.

Lemma zin_up h root Z d x u t : zin h root ((d, x, u) :: Z) t <-> zin h root Z (mk d u x t).
Proof. rewrite !zin_plug. done. Qed.

Lemma zin_live h root Z t x : zin h root Z t -> x ∈ znodes Z \/ x ∈ nodes t -> live h x.
Proof.
  rewrite zin_plug. intros (_ & Hr & _) Hx. eapply rep_live; [done|]. by apply elem_of_plug.
Qed.
Lemma zin_ne h root Z t x : zin h root Z t -> x ∈ znodes Z \/ x ∈ nodes t -> x <> nil.
Proof.
  rewrite zin_plug. intros (_ & Hr & _) Hx ->. eapply rep_nil; [done|]. by apply elem_of_plug.
Qed.
(** The pointer to the root of a subtree: the sentinel or a node of it. *)
Lemma ptr_cases t : ptr t = nil \/ ptr t ∈ nodes t.
Proof. destruct t; [by left|right; by apply ptr_in]. Qed.

(** ** Moving subtrees *)

(** The effect of a change of links on everything else. *)
Definition kept (X : list nat) (h h' : links) : Prop :=
  frame X h h' /\ forall z, live h z -> live h' z.

Lemma kept_refl X h : kept X h h.
Proof. by split; [apply frame_refl|]. Qed.
Lemma kept_trans X h h1 h2 : kept X h h1 -> kept X h1 h2 -> kept X h h2.
Proof. intros [? ?] [? ?]. split; [by apply (frame_trans _ _ h1)|auto]. Qed.
Lemma kept_mono X Y h h' : kept X h h' -> (forall z, z ∈ X -> z ∈ Y) -> kept Y h h'.
Proof. intros [? ?] ?. split; [by apply (frame_mono X)|done]. Qed.
Lemma kept_set_br X h d p q : p ∈ X -> kept X h (set_br h d p q).
Proof. intros. split; [by apply frame_set_br|]. intros. by apply live_set_br. Qed.
Lemma kept_set_pa X h p q : p ∈ X -> kept X h (set_pa h p q).
Proof. intros. split; [by apply frame_set_pa|]. intros. by apply live_set_pa. Qed.

Lemma child_Ok s d x q : br (wl s) d !! x = Some q -> child s d x = Ok q.
Proof. intros H. unfold child. by rewrite (rd_Ok _ _ _ H). Qed.
Lemma up_Ok s x q : pa (wl s) !! x = Some q -> up s x = Ok q.
Proof. intros H. unfold up. by rewrite (rd_Ok _ _ _ H). Qed.
Lemma wchild_Ok s d x q : live (wl s) x -> wchild s d x q = Ok (with_links s (set_br (wl s) d x q)).
Proof. intros H. unfold wchild. rewrite wbr_Ok by (by apply live_br). done. Qed.
Lemma wup_Ok s x q : live (wl s) x -> wup s x q = Ok (with_links s (set_pa (wl s) x q)).
Proof. intros H. unfold wup. rewrite wpa_Ok by (by apply live_pa). done. Qed.

Lemma zrep_hole h root Z q : zrep h root Z q -> forall d x u Z', Z = (d, x, u) :: Z' ->
  br h d !! x = Some q /\ br h (negb d) !! x = Some (ptr u).
Proof. intros H d x u Z' ->. by destruct H as (? & ? & _). Qed.

(** [old] under [p] is replaced by [new]. *)
Lemma replace_child_Ok s Z old new :
  zrep (wl s) (wroot s) Z old -> NoDup (znodes Z) -> old <> nil -> old ∉ znodes Z ->
  exists h r, replace_child nil s (zptr Z) old new = Ok (Wavl h (wp s) r) /\
    zrep h r Z new /\ kept (znodes Z) (wl s) h.
Proof.
  intros Hz Hnd Hold Hin. unfold replace_child. destruct Z as [|[[d x] u] Z]; cbn [zptr].
  - rewrite Nat.eqb_refl. eexists _, _. split; [done|]. split; [done|apply kept_refl].
  - pose proof Hz as (Hq & Hu & Hp & Hx & Hru & Hzz).
    rewrite (proj2 (Nat.eqb_neq x nil)) by done.
    assert (live (wl s) x) as Hl.
    { repeat split; [destruct d..|]; eauto. }
    assert (exists r, br (wl s) true !! x = Some r /\ (r =? old) = d) as (r & Hr & Hd).
    { destruct d; [exists old; by rewrite Nat.eqb_refl|]. exists (ptr u). split; [done|]. apply Nat.eqb_neq.
      destruct (ptr_cases u) as [-> |Hi]; [done|]. intros <-. apply Hin. cbn [znodes]. right. apply elem_of_app. by left. }
    rewrite (child_Ok _ _ _ _ Hr). bind. rewrite Hd, wchild_Ok by done.
    eexists _, _. split; [done|]. split; [|apply kept_set_br; left].
    cbn [znodes] in Hnd. apply NoDup_cons in Hnd as [Hxn Hnd]. apply not_elem_of_app in Hxn as [Hxu HxZ].
    cbn [zrep wl with_links]. rewrite br_set_br_eq, br_set_br_ne by (left; by destruct d). rewrite pa_set_br.
    split_and!; try done.
    + by apply rep_set_br.
    + apply (zrep_frame [x] (wl s)); [apply frame_set_br; left| |done].
      by intros z Hz' ->%elem_of_list_singleton.
Qed.


Lemma zin_NoDup h root Z t : zin h root Z t -> NoDup (nil :: znodes Z ++ nodes t).
Proof.
  intros Hz. apply NoDup_cons. split; [|by destruct Hz as (_ & _ & ? & _)].
  intros Hin%elem_of_app. by eapply zin_ne.
Qed.

(** The same by counting, and what can be said of the pointer to a subtree. *)
Lemma cnt_mk w d a x b : cnt w (nodes (mk d a x b)) = eqn w x + cnt w (nodes a) + cnt w (nodes b).
Proof. rewrite (cnt_perm _ _ _ (nodes_mk_perm d a x b)), cnt_cons, cnt_app. lia. Qed.
Lemma cnt_ptr t w : eqn w (ptr t) <= eqn w nil + cnt w (nodes t).
Proof. apply cnt_opt, ptr_cases. Qed.
Lemma cnt_zptr Z w : eqn w (zptr Z) <= eqn w nil + cnt w (znodes Z).
Proof. apply cnt_opt, zptr_in. Qed.

Lemma zin_cnt h root Z t : zin h root Z t -> forall w, eqn w nil + cnt w (znodes Z) + cnt w (nodes t) <= 1.
Proof. intros Hz%zin_NoDup w. rewrite cnt_NoDup in Hz. specialize (Hz w). cnt_norm. lia. Qed.
Lemma zin_intro h root Z t :
  zrep h root Z (ptr t) -> rep h (zptr Z) t ->
  (forall w, eqn w nil + cnt w (znodes Z) + cnt w (nodes t) <= 1) -> live h nil -> zin h root Z t.
Proof. intros H1 H2 H3 H4. split_and!; [done..| |done]. dj. Qed.

Lemma zin_live' h root Z t x : zin h root Z t -> 1 <= eqn x nil + cnt x (znodes Z) + cnt x (nodes t) -> live h x.
Proof.
  intros Hz H. destruct (decide (x = nil)) as [-> |Hne]; [by apply Hz|].
  rewrite (eqn_ne x nil) in H by done.
  apply (zin_live _ _ _ _ _ Hz). rewrite !cnt_in. lia.
Qed.
Lemma zin_ne' h root Z t x : zin h root Z t -> 1 <= cnt x (znodes Z) + cnt x (nodes t) -> x <> nil.
Proof. intros Hz H. apply (zin_ne _ _ _ _ _ Hz). rewrite !cnt_in. lia. Qed.

Lemma zrep_set_br h root Z q d z v : z ∉ znodes Z -> zrep h root Z q -> zrep (set_br h d z v) root Z q.
Proof.
  intros Hz. apply (zrep_frame [z]); [apply frame_set_br; left|].
  by intros y Hy ->%elem_of_list_singleton.
Qed.
Lemma zrep_set_pa h root Z q z v : z ∉ znodes Z -> zrep h root Z q -> zrep (set_pa h z v) root Z q.
Proof.
  intros Hz. apply (zrep_frame [z]); [apply frame_set_pa; left|].
  by intros y Hy ->%elem_of_list_singleton.
Qed.

Lemma kept_br X h h1 d p q : p ∈ X -> kept X h h1 -> kept X h (set_br h1 d p q).
Proof. intros Hp H. apply (kept_trans _ _ h1); [done|]. by apply kept_set_br. Qed.
Lemma kept_pa X h h1 p q : p ∈ X -> kept X h h1 -> kept X h (set_pa h1 p q).
Proof. intros Hp H. apply (kept_trans _ _ h1); [done|]. by apply kept_set_pa. Qed.
Ltac keep := repeat first [apply kept_br; [dj|] | apply kept_pa; [dj|]].

Ltac lookc :=
  repeat first
    [ rewrite br_set_pa | rewrite pa_set_br | rewrite br_set_br_eq | rewrite pa_set_pa_eq
    | rewrite br_set_br_ne by (first [left; apply negb_ne | left; apply not_eq_sym, negb_ne | right; dj | right; apply not_eq_sym; dj])
    | rewrite pa_set_pa_ne by (first [dj | apply not_eq_sym; dj]) ].
Ltac carry :=
  repeat first [apply rep_set_pa; [dj|] | apply rep_set_br; [dj|] | apply zrep_set_pa; [dj|] | apply zrep_set_br; [dj|]].

Lemma rotate_Ok s Z d A x B z C :
  zin (wl s) (wroot s) Z (mk (negb d) C z (mk d A x B)) ->
  exists h r, rotate nil s z x (ptr B) d = Ok (Wavl h (wp s) r) /\
    zin h r Z (mk d A x (mk d B z C)) /\
    kept (nil :: znodes Z ++ nodes (mk d A x (mk d B z C))) (wl s) h.
Proof.
  intros Hz. pose proof (zin_cnt _ _ _ _ Hz) as Hc.
  assert (forall y, 1 <= eqn y nil + cnt y (znodes Z ++ x :: z :: nodes A ++ nodes B ++ nodes C) -> live (wl s) y) as Hlive.
  { intros y Hy. apply (zin_live' _ _ _ _ _ Hz). rewrite !cnt_mk. cnt_norm. lia. }
  setoid_rewrite cnt_mk in Hc. setoid_rewrite cnt_mk in Hc.
  destruct Hz as (Hzr & Hrep & _ & Hln).
  rewrite ptr_mk in Hzr. apply rep_mk in Hrep as (HzC & Hzx & Hzp & Hzn & HrC & Hrx).
  rewrite negb_involutive in HzC. rewrite ptr_mk in Hzx.
  apply rep_mk in Hrx as (HxA & HxB & Hxp & Hxn & HrA & HrB).
  pose proof (cnt_ptr B) as HB. set (b := ptr B) in *.
  unfold rotate. rewrite (proj2 (Nat.eqb_neq z nil)) by done. cbn [negb oassert]. bind.
  rewrite (up_Ok _ _ _ Hzp). bind. rewrite wup_Ok by (apply Hlive; cnt_at x). bind.
  set (h1 := set_pa (wl s) x (zptr Z)).
  destruct (replace_child_Ok (with_links s h1) Z z x) as (h2 & r & -> & Hz2 & [Hf2 Hl2]).
  { cbn [wl with_links wroot]. unfold h1. by carry. }
  { dj. } { done. } { dj. }
  bind. cbn [wl with_links wp wroot] in *.
  assert (forall y, 1 <= eqn y nil + cnt y (znodes Z ++ x :: z :: nodes A ++ nodes B ++ nodes C) -> live h2 y) as Hlive2.
  { intros y Hy. apply Hl2. by apply live_set_pa, Hlive. }
  rewrite wchild_Ok by (apply Hlive2; cnt_at x). bind. cbn [wl with_links].
  rewrite wup_Ok by (apply live_set_br, Hlive2; cnt_at z). bind. cbn [wl with_links].
  rewrite wchild_Ok by (apply live_set_pa, live_set_br, Hlive2; cnt_at z). bind. cbn [wl with_links].
  rewrite wup_Ok by (apply live_set_br, live_set_pa, live_set_br, Hlive2; cnt_at b). cbn [wl with_links].
  set (h6 := set_pa _ b z).
  assert (forall y t, rep (wl s) y t -> x ∉ nodes t -> (forall w, w ∈ nodes t -> w ∉ znodes Z) -> rep h2 y t) as Hr2.
  { intros y t Ht Hxt Hd. apply (rep_frame _ (znodes Z) h1); [done..|]. by apply rep_set_pa. }
  exists h6, r. split; [done|]. split; [apply zin_intro|].
  - rewrite ptr_mk. unfold h6. carry. done.
  - apply rep_mk. rewrite ptr_mk. split_and!; try done.
    + unfold h6. lookc. rewrite (frame_br _ _ _ _ _ Hf2) by dj. unfold h1. by lookc.
    + unfold h6. lookc. done.
    + unfold h6. lookc. rewrite (frame_pa _ _ _ _ Hf2) by dj. unfold h1. by lookc.
    + unfold h6. carry. apply Hr2; [done|dj|]. intros w ?. dj.
    + apply rep_mk. split_and!; try done.
      * unfold h6. lookc. done.
      * unfold h6. lookc. rewrite (frame_br _ _ _ _ _ Hf2) by dj. unfold h1. by lookc.
      * unfold h6. lookc. done.
      * unfold h6. apply (rep_reparent _ _ x); [dj|]. carry. apply Hr2; [done|dj|]. intros w ?. dj.
      * unfold h6. carry. apply Hr2; [done|dj|]. intros w ?. dj.
  - intros w. rewrite !cnt_mk. cnt_at w.
  - unfold h6. by apply live_set_pa, live_set_br, live_set_pa, live_set_br, Hl2, live_set_pa.
  - assert (forall w, w ∈ [x; z; b; nil] ++ znodes Z -> w ∈ nil :: znodes Z ++ nodes (mk d A x (mk d B z C))) as Hsub.
    { intros w Hw. apply cnt_in. apply cnt_in in Hw. cnt_norm. rewrite !cnt_mk. specialize (HB w). lia. }
    apply (kept_mono ([x; z; b; nil] ++ znodes Z)); [|done].
    unfold h6. keep. apply (kept_trans _ _ h1); [apply kept_set_pa; dj|].
    apply (kept_mono (znodes Z)); [done|intros w ?; dj].
Qed.

Lemma double_rotate_Ok s Z d A x B y C z D :
  zin (wl s) (wroot s) Z (mk d D z (mk d (mk d C y B) x A)) ->
  exists h r, double_rotate nil s z x y d = Ok (Wavl h (wp s) r) /\
    zin h r Z (mk d (mk d D z C) y (mk d B x A)) /\
    kept (nil :: znodes Z ++ nodes (mk d (mk d D z C) y (mk d B x A))) (wl s) h.
Proof.
  intros Hz. pose proof (zin_cnt _ _ _ _ Hz) as Hc.
  assert (forall w, 1 <= eqn w nil + cnt w (znodes Z ++ x :: y :: z :: nodes A ++ nodes B ++ nodes C ++ nodes D) ->
    live (wl s) w) as Hlive.
  { intros w Hw. apply (zin_live' _ _ _ _ _ Hz). rewrite !cnt_mk. cnt_norm. lia. }
  do 3 setoid_rewrite cnt_mk in Hc.
  destruct Hz as (Hzr & Hrep & _ & Hln).
  rewrite ptr_mk in Hzr. apply rep_mk in Hrep as (HzD & Hzx & Hzp & Hzn & HrD & Hrx).
  rewrite ptr_mk in Hzx.
  apply rep_mk in Hrx as (Hxy & HxA & Hxp & Hxn & Hry & HrA). rewrite ptr_mk in Hxy.
  apply rep_mk in Hry as (HyC & HyB & Hyp & Hyn & HrC & HrB).
  pose proof (cnt_ptr B) as HB. set (b := ptr B) in *.
  pose proof (cnt_ptr C) as HC. set (c := ptr C) in *.
  unfold double_rotate. rewrite !(proj2 (Nat.eqb_neq _ nil)) by done. cbn [negb andb oassert]. bind.
  rewrite (up_Ok _ _ _ Hzp). bind. rewrite wup_Ok by (apply Hlive; cnt_at y). bind.
  set (h1 := set_pa (wl s) y (zptr Z)).
  destruct (replace_child_Ok (with_links s h1) Z z y) as (h2 & r & -> & Hz2 & [Hf2 Hl2]).
  { cbn [wl with_links wroot]. unfold h1. by carry. }
  { dj. } { done. } { dj. }
  bind. cbn [wl with_links wp wroot] in *.
  assert (forall w, 1 <= eqn w nil + cnt w (znodes Z ++ x :: y :: z :: nodes A ++ nodes B ++ nodes C ++ nodes D) ->
    live h2 w) as Hlive2.
  { intros w Hw. apply Hl2. by apply live_set_pa, Hlive. }
  assert (forall w d', w <> y -> w ∉ znodes Z -> br h2 d' !! w = br (wl s) d' !! w) as Hb2.
  { intros w d' Hw Hw'. rewrite (frame_br _ _ _ _ _ Hf2) by done. unfold h1. by rewrite br_set_pa. }
  assert (forall w, w <> y -> w ∉ znodes Z -> pa h2 !! w = pa (wl s) !! w) as Hp2.
  { intros w Hw Hw'. rewrite (frame_pa _ _ _ _ Hf2) by done. unfold h1. by rewrite pa_set_pa_ne. }
  assert (forall d', br h2 d' !! y = br (wl s) d' !! y) as Hy2.
  { intros d'. rewrite (frame_br _ _ _ _ _ Hf2) by dj. unfold h1. by rewrite br_set_pa. }
  assert (pa h2 !! y = Some (zptr Z)) as Hyp2.
  { rewrite (frame_pa _ _ _ _ Hf2) by dj. unfold h1. by lookc. }
  assert (forall y' t, rep (wl s) y' t -> y ∉ nodes t -> (forall w, w ∈ nodes t -> w ∉ znodes Z) -> rep h2 y' t) as Hr2.
  { intros y' t Ht Hxt Hd. apply (rep_frame _ (znodes Z) h1); [done..|]. by apply rep_set_pa. }
  rewrite (child_Ok _ d y b) by (cbn; by rewrite Hy2). bind.
  rewrite wchild_Ok by (apply Hlive2; cnt_at x). bind. cbn [wl with_links].
  set (h3 := set_br h2 (negb d) x b).
  rewrite (child_Ok _ d y b) by (cbn; unfold h3; lookc; by rewrite Hy2). bind.
  assert (forall w, live h2 w -> live h3 w) as Hl3 by (intros; by apply live_set_br).
  rewrite wup_Ok by (apply Hl3, Hlive2; cnt_at b). bind. cbn [wl with_links].
  set (h4 := set_pa h3 b x). assert (forall w, live h2 w -> live h4 w) as Hl4 by (intros; apply live_set_pa; auto).
  rewrite wchild_Ok by (apply Hl4, Hlive2; cnt_at y). bind. cbn [wl with_links].
  set (h5 := set_br h4 d y x). assert (forall w, live h2 w -> live h5 w) as Hl5 by (intros; apply live_set_br; auto).
  rewrite wup_Ok by (apply Hl5, Hlive2; cnt_at x). bind. cbn [wl with_links].
  set (h6 := set_pa h5 x y). assert (forall w, live h2 w -> live h6 w) as Hl6 by (intros; apply live_set_pa; auto).
  rewrite (child_Ok _ (negb d) y c) by (cbn; unfold h6, h5, h4, h3; lookc; by rewrite Hy2). bind.
  rewrite wchild_Ok by (apply Hl6, Hlive2; cnt_at z). bind. cbn [wl with_links].
  set (h7 := set_br h6 d z c). assert (forall w, live h2 w -> live h7 w) as Hl7 by (intros; apply live_set_br; auto).
  rewrite (child_Ok _ (negb d) y c) by (cbn; unfold h7, h6, h5, h4, h3; lookc; by rewrite Hy2). bind.
  rewrite wup_Ok by (apply Hl7, Hlive2; cnt_at c). bind. cbn [wl with_links].
  set (h8 := set_pa h7 c z). assert (forall w, live h2 w -> live h8 w) as Hl8 by (intros; apply live_set_pa; auto).
  rewrite wchild_Ok by (apply Hl8, Hlive2; cnt_at y). bind. cbn [wl with_links].
  set (h9 := set_br h8 (negb d) y z). assert (forall w, live h2 w -> live h9 w) as Hl9 by (intros; apply live_set_br; auto).
  rewrite wup_Ok by (apply Hl9, Hlive2; cnt_at z). cbn [wl with_links].
  set (h10 := set_pa h9 z y).
  exists h10, r. split; [done|]. split; [apply zin_intro|].
  - rewrite ptr_mk. unfold h10, h9, h8, h7, h6, h5, h4, h3. carry. done.
  - apply rep_mk. rewrite !ptr_mk. split_and!; try done.
    + unfold h10, h9. lookc. done.
    + unfold h10, h9, h8, h7, h6, h5. lookc. done.
    + unfold h10, h9, h8, h7, h6, h5, h4, h3. lookc. done.
    + apply rep_mk. split_and!; try done.
      * unfold h10, h9, h8, h7, h6, h5, h4, h3. lookc. rewrite Hb2 by dj. done.
      * unfold h10, h9, h8, h7. lookc. done.
      * unfold h10. lookc. done.
      * unfold h10, h9, h8, h7, h6, h5, h4, h3. carry. apply Hr2; [done|dj|]. intros w ?. dj.
      * unfold h10, h9. carry. unfold h8. apply (rep_reparent _ _ y); [dj|]. unfold h7, h6, h5, h4, h3.
        carry. apply Hr2; [done|dj|]. intros w ?. dj.
    + apply rep_mk. split_and!; try done.
      * unfold h10, h9, h8, h7, h6, h5, h4, h3. lookc. done.
      * unfold h10, h9, h8, h7, h6, h5, h4, h3. lookc. rewrite Hb2 by dj. done.
      * unfold h10, h9, h8, h7, h6. lookc. done.
      * unfold h10, h9, h8, h7, h6, h5. carry. unfold h4. apply (rep_reparent _ _ y); [dj|]. unfold h3.
        carry. apply Hr2; [done|dj|]. intros w ?. dj.
      * unfold h10, h9, h8, h7, h6, h5, h4, h3. carry. apply Hr2; [done|dj|]. intros w ?. dj.
  - intros w. rewrite !cnt_mk. cnt_at w.
  - unfold h10. apply live_set_pa, Hl9, Hl2. by apply live_set_pa.
  - assert (forall w, w ∈ [x; y; z; b; c; nil] ++ znodes Z ->
      w ∈ nil :: znodes Z ++ nodes (mk d (mk d D z C) y (mk d B x A))) as Hsub.
    { intros w Hw. apply cnt_in. apply cnt_in in Hw. cnt_norm. rewrite !cnt_mk. specialize (HB w). specialize (HC w). lia. }
    apply (kept_mono ([x; y; z; b; c; nil] ++ znodes Z)); [|done].
    unfold h10, h9, h8, h7, h6, h5, h4, h3. keep. apply (kept_trans _ _ h1); [apply kept_set_pa; dj|].
    apply (kept_mono (znodes Z)); [done|intros w ?; dj].
Qed.
End zippers.
