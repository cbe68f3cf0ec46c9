(** Elements join and leave the multimap's tree and rings. *)
From Coq Require Import Sorted.
From stdpp Require Import base numbers option gmap fin_maps list.
From Verif Require Import Common LinkHeap PathLemmas OrderSpec TreeModel TreeProofs SplayModel SplayProofs
  OmModel OmmModel OmmProofs.

Local Ltac bind := cbn [mbind outcome_bind obind].


Definition put (D : nat -> list nat) (n : nat) (l : list nat) : nat -> list nat :=
  fun m => if decide (m = n) then l else D m.
Lemma put_eq D n l : put D n l n = l.
Proof. unfold put. by rewrite decide_True. Qed.
Lemma put_ne D n l m : m <> n -> put D n l m = D m.
Proof. intros. unfold put. by rewrite decide_False. Qed.

Lemma within_mono D N D' N' h h' : (forall z, span D N z -> span D' N' z) -> within D N h h' -> within D' N' h h'.
Proof. intros Hm [H L]. split; [|done]. intros z Hz. apply H. intros Hs. auto. Qed.

(** ** Tree nodes *)

Lemma graft_follows D N h0 g h r e c g1 :
  follows D N h0 g h -> graft_by nil (link_chk nil N) g r e c = Ok g1 ->
  exists h1, graft_by nil mlink h r e c = Ok h1 /\ follows D N h0 g1 h1.
Proof.
  intros Hf. unfold graft_by. pose proof Hf as (Hs & _). rewrite (shadow_br D N g h (is_gt c) Hs).
  destruct (rd (br g (is_gt c)) r) as [b| |]; try done. bind.
  destruct (link_chk nil N g e _ b) as [ga| |] eqn:Ea; try done. bind.
  destruct (mlink_follows _ _ _ _ _ _ _ _ _ Hf Ea) as (ha & -> & Hfa). bind.
  destruct (link_chk nil N ga e _ r) as [gb| |] eqn:Eb; try done. bind.
  destruct (mlink_follows _ _ _ _ _ _ _ _ _ Hfa Eb) as (hb & -> & Hfb). bind.
  apply link_chk_inv in Eb as (_ & Hr & _).
  destruct (wbr gb _ r nil) as [gc| |] eqn:Ec; try done. bind.
  assert (nil ∈ nil :: N) as Hnil by left.
  destruct (follows_cut D N h0 gb hb (is_gt c) r nil gc Hfb Hr Hnil) as (hc & -> & Hfc); [right; by left|done|]. bind. by apply mlink_follows.
Qed.

Lemma detach_follows {K V} (cmp : K -> K -> comparison) (dat : gmap nat (K * V)) D N h0 g h x g1 y :
  follows D N h0 g h -> detach_by cmp nil (link_chk nil N) dat g x = Ok (g1, y) ->
  exists h1, detach_by cmp nil mlink dat h x = Ok (h1, y) /\ follows D N h0 g1 h1.
Proof.
  intros Hf. unfold detach_by. pose proof Hf as (Hs & _). pose proof Hs as (Hl & Hr & _). rewrite Hl, Hr.
  destruct (rd (lf g) x) as [l| |]; try done. bind. destruct (l =? nil).
  - destruct (rd (rt g) x) as [r| |]; try done. bind.
    destruct (link_chk nil N g nil false r) as [ga| |] eqn:Ea; try done. bind.
    destruct (mlink_follows _ _ _ _ _ _ _ _ _ Hf Ea) as (ha & -> & Hfa). bind.
    intros [= <- <-]. eauto.
  - destruct (value dat x) as [kv| |]; try done. bind.
    destruct (splay_by _ _ _ g l) as [[ga z]| |] eqn:Ea; try done. bind.
    destruct (splay_follows D N h0 g h _ (cmpk cmp dat (fst kv)) l ga z (fun z c E => E) Hf Ea) as (ha & -> & Hfa). bind.
    pose proof Hfa as ((_ & Hra & _) & _). rewrite Hra.
    destruct (rd (rt ga) x) as [r| |]; try done. bind.
    destruct (link_chk nil N ga z true r) as [gb| |] eqn:Eb; try done. bind.
    destruct (mlink_follows _ _ _ _ _ _ _ _ _ Hfa Eb) as (hb & -> & Hfb). bind.
    intros [= <- <-]. eauto.
Qed.

Lemma wf_graft h D c u x w e :
  let d := is_gt c in
  let t := mk d u x w in
  wf h t D -> fresh h t D e ->
  exists h', graft_by nil mlink h x e c = Ok h' /\ wf h' (mk d (mk d u x E) e w) D /\ within D (e :: nodes t) h h'.
Proof.
  intros d t H Hfr.
  pose proof (wf_follows h t D [e] H (NoDup_singleton e)) as Hf.
  feed specialize Hf; [by intros z ->%elem_of_list_singleton|]. cbn [app] in Hf.
  destruct (fresh_not h t D e Hfr) as (Hen & He0 & Het & HeD).
  pose proof Hf as (Hs & Ht & _).
  assert (e ∈ nil :: e :: nodes t) as Hein by (right; left).
  destruct (graft_chk_Ok nil (flat D (nodes t) h) c u x w e) as (g' & Hrun & Hr & _).
  - apply (wf_rep _ _ _ H).
  - constructor; [done|]. by destruct (wf_apart _ _ _ H) as (? & _).
  - done.
  - by apply (tidy_live _ _ _ Ht).
  - by apply Ht.
  - destruct (graft_follows _ _ _ _ _ _ _ _ _ Hf Hrun) as (h' & Hrun' & Hf').
    assert (nodes (mk d (mk d u x E) e w) ≡ₚ e :: nodes t) as Hperm.
    { rewrite nodes_mk_perm, nodes_mk_perm. unfold t. rewrite nodes_mk_perm. cbn [nodes].
      by rewrite app_nil_r. }
    exists h'. split; [done|]. split; [|by apply (follows_within _ _ _ g')].
    apply (follows_wf h g' h' _ D (e :: nodes t)); [done|done| | |].
    + rewrite Hperm. constructor; [done|]. by destruct (wf_apart _ _ _ H) as (? & _).
    + intros z. by rewrite Hperm.
    + intros n Hn. apply (wf_out _ _ _ H). intros Hin. apply Hn. rewrite Hperm. by right.
Qed.

Lemma wf_detach {K V} (cmp : K -> K -> comparison) (Hcmp : total_preorder cmp) (dat : gmap nat (K * V)) h D a x b kv :
  wf h (T a x b) D -> sorted cmp dat (nodes (T a x b)) -> dat !! x = Some kv -> D x = [] ->
  exists h' t', detach_by cmp nil mlink dat h x = Ok (h', ptr t') /\ wf h' t' D /\
    nodes t' = nodes a ++ nodes b /\ within D (nodes (T a x b)) h h'.
Proof.
  intros H Hs Hx HDx. set (t := T a x b) in *.
  pose proof (wf_follows h t D [] H NoDup_nil_2) as Hf.
  feed specialize Hf; [by intros z Hz%elem_of_nil|]. cbn [app] in Hf.
  pose proof Hf as (_ & Ht & _).
  destruct (detach_chk_Ok nil cmp Hcmp dat (flat D (nodes t) h) a x b kv) as (g' & t' & Hrun & Hr & Hn & _);
    [apply (wf_rep _ _ _ H)|done|done|apply Ht|].
  destruct (detach_follows cmp dat _ _ _ _ _ _ _ _ Hf Hrun) as (h' & Hrun' & Hf').
  exists h', t'. split; [done|]. split_and!; [|done|by apply (follows_within _ _ _ g')].
  assert (NoDup (nodes t)) as Hnd by (by destruct (wf_apart _ _ _ H) as (? & _)).
  apply (follows_wf h g' h' _ D (nodes t)); [done|done| | |].
  - rewrite Hn. unfold t in Hnd. cbn [nodes] in Hnd. rewrite Permutation_middle in Hnd || idtac.
    apply NoDup_app in Hnd as (H1 & H2 & [H3 H4]%NoDup_cons). apply NoDup_app. split_and!; try done.
    intros z Hz Hz'. apply (H2 z Hz). by right.
  - intros z. rewrite Hn. unfold t. cbn [nodes]. rewrite !elem_of_app, elem_of_cons. tauto.
  - intros n. rewrite Hn. intros Hnn. destruct (decide (n = x)) as [-> |Hne]; [done|].
    apply (wf_out _ _ _ H). unfold t. cbn [nodes]. rewrite elem_of_app in *. rewrite elem_of_cons. tauto.
Qed.

(** ** Rings *)

Lemma apart_groups N D n m x : apart N D -> n ∈ N -> m ∈ N -> n <> m -> x ∈ n :: D n -> x ∉ m :: D m.
Proof.
  intros (_ & _ & _ & _ & Hd & Hi) Hn Hm Hne [-> |Hx]%elem_of_cons [Hx'|Hx']%elem_of_cons.
  - done.
  - by destruct (Hd m n Hx') as (? & _).
  - subst. by destruct (Hd n m Hx) as (? & _).
  - apply Hne. by apply (Hi n m x).
Qed.

(** The duplicates of [y] become [l]. *)
Lemma wf_change h h' t D y l :
  wf h t D -> y ∈ nodes t ->
  (forall z, z ∈ nodes t -> lf h' !! z = lf h !! z /\ rt h' !! z = rt h !! z) ->
  (forall n x, n ∈ nodes t -> n <> y -> x ∈ n :: D n -> same h h' x) ->
  pa h' !! hd y l = pa h !! keeper D y ->
  ring h' y l -> NoDup l -> (forall x, x ∈ l -> x ∈ D y \/ ~ span D (nodes t) x /\ x <> 0) -> live h' nil ->
  wf h' t (put D y l).
Proof.
  intros H Hy Hlr Hothers Hpa Hring Hnd Hin Hlive.
  pose proof H as [Hrep _ Hrings Hout Hap]. pose proof Hap as (HndN & HnN & H0N & HD & Hd & Hi).
  assert (forall x, x ∈ l -> x ∉ nodes t /\ x <> nil /\ x <> 0) as Hl.
  { intros x Hx. destruct (Hin x Hx) as [HxD|[Hsp H0]]; [by apply (Hd y)|]. split_and!; [|by intros ->; apply Hsp; left|done].
    intros Hn. apply Hsp. right. exists x. split; [done|left]. }
  assert (forall n x, n <> y -> x ∈ D n -> x ∉ l) as Hne.
  { intros n x Hn Hx Hxl. destruct (Hin x Hxl) as [HxD|[Hsp _]]; [apply Hn; by apply (Hi n y x)|].
    destruct (decide (n ∈ nodes t)) as [Hnt|Hnt].
    - apply Hsp. right. exists n. split; [done|by right].
    - rewrite (Hout n Hnt) in Hx. by apply elem_of_nil in Hx. }
  split.
  - apply (rep_ext nil (flat D (nodes t) h)); [|done]. intros z Hz. cbn [lf rt flat].
    destruct (Hlr z Hz) as [? ?]. split_and!; [done..|]. rewrite !flat_in by done.
    destruct (decide (z = y)) as [-> |Hzy]; [by rewrite put_eq|]. rewrite put_ne by done.
    destruct (Hothers z (keeper D z) Hz Hzy) as (_ & _ & ?); [|done]. destruct (D z); cbn; [left|right; left].
  - done.
  - intros n Hn. destruct (decide (n = y)) as [-> |Hny]; [by rewrite put_eq|]. rewrite put_ne by done.
    apply (ring_ext h); [| | |auto].
    + intros x Hx. destruct (Hothers n x Hn Hny) as (? & ? & _); [by right|done].
    + intros x Hx. destruct (Hothers n x Hn Hny) as (_ & _ & ?); [|done]. right. destruct (D n); [done|by right].
    + intros _. destruct (Hothers n n Hn Hny) as (_ & _ & ?); [left|done].
  - intros n Hn. rewrite put_ne by (by intros ->). auto.
  - split_and!; try done.
    + intros n. unfold put. destruct (decide (n = y)); [done|auto].
    + intros n x. unfold put. destruct (decide (n = y)); [auto|apply Hd].
    + intros n m x. unfold put. destruct (decide (n = y)) as [-> |Hn], (decide (m = y)) as [-> |Hm]; [done|..].
      * intros Hx Hx'. exfalso. by apply (Hne m x).
      * intros Hx Hx'. exfalso. by apply (Hne n x).
      * apply Hi.
Qed.

Ltac sames := repeat first [done | eapply same_trans; [|first [apply same_set_br | apply same_set_pa]]].

Lemma wf_add h a y b D e :
  wf h (T a y b) D -> ~ span D (nodes (T a y b)) e -> e <> 0 -> live h e ->
  exists h', add_duplicate h y e nil = Ok h' /\ wf h' (T a y b) (put D y (D y ++ [e])) /\
    within D (e :: nodes (T a y b)) h h'.
Proof.
  set (t := T a y b). intros H He He0 Hle.
  pose proof (wf_follows h t D [] H NoDup_nil_2) as Hf.
  feed specialize Hf; [by intros z Hz%elem_of_nil|]. cbn [app] in Hf. destruct Hf as (Hs & Ht & _).
  assert (y ∈ nodes t) as Hy by (apply (ptr_in nil t); done).
  pose proof (wf_apart _ _ _ H) as Hap. pose proof Hap as (HndN & HnN & H0N & HD & Hd & Hi).
  assert (e <> nil /\ (forall n, n ∈ nodes t -> e ∉ n :: D n)) as [Hen HeD].
  { split; [intros ->; apply He; by left|]. intros n Hn Hin. apply He. right. eauto. }
  assert (e <> y) as Hey by (intros ->; apply (HeD y Hy); left).
  assert (forall n x, n ∈ nodes t -> n <> y -> x ∈ n :: D n -> x <> e /\ x ∉ y :: D y) as Hoth.
  { intros n x Hn Hny Hx. split; [intros ->; by apply (HeD n)|]. by apply (apart_groups (nodes t) D n y). }
  assert (live h y) as Hly by (by apply (wf_node h t D)).
  assert (span D (e :: nodes t) y /\ span D (e :: nodes t) e) as [Hspy Hspe].
  { split; apply span_in; rewrite !elem_of_cons; auto. }
  unfold add_duplicate. rewrite (has_dups_Ok D (nodes t) _ h) by (first [done|by right]). bind.
  pose proof (wf_ring _ _ _ H y Hy) as Hring.
  unfold dup. destruct (D y) as [|d r] eqn:ED; cbn [negb].
  - rewrite wpa_Ok by (by apply live_pa). bind. set (h1 := set_pa h e nil).
    rewrite wpa_Ok by (by apply live_pa, live_set_pa). bind. set (h2 := set_pa h1 y e).
    rewrite wbr_Ok by (by apply live_br, live_set_pa, live_set_pa). bind. set (h3 := set_br h2 true e e).
    rewrite wbr_Ok by (by apply live_br, live_set_br, live_set_pa, live_set_pa). set (h4 := set_br h3 false e e).
    exists h4. split; [done|]. split.
    + cbn [app]. apply (wf_change h h4 t D y [e]); try done.
      * intros z Hz. assert (e <> z) by (intros <-; apply (HeD e Hz); left).
        unfold h4, h3, h2, h1; cbn. by rewrite !lookup_insert_ne.
      * intros n x Hn Hny Hx. destruct (Hoth n x Hn Hny Hx) as [? [? _]%not_elem_of_cons].
        unfold h4, h3, h2, h1. sames.
      * rewrite ED. unfold h4, h3, h2, h1. cbn [hd]. look. symmetry.
        destruct (wf_rep _ _ _ H) as (_ & _ & Hp & _). rewrite flat_in, ED in Hp by done. done.
      * cbn. split; [by rewrite lookup_insert|]. split; [|done].
        split; cbn; by rewrite lookup_insert.
      * apply NoDup_singleton.
      * intros x ->%elem_of_list_singleton. by right.
      * unfold h4, h3, h2, h1. apply live_set_br, live_set_br, live_set_pa, live_set_pa, (wf_nil _ _ _ H).
    + unfold h4, h3, h2, h1.
      eapply within_trans; [|by apply within_set_br]. eapply within_trans; [|by apply within_set_br].
      eapply within_trans; by apply within_set_pa.
  - destruct (ring_last h y d r Hring) as (z & Hz & Hlz & Hrz).
    destruct Hring as (Hpy & Hlink & H0).
    assert (forall x, x ∈ d :: r -> span D (nodes t) x) as Hspan.
    { intros x Hx. right. exists y. split; [done|]. right. by rewrite ED. }
    assert (forall x, x ∈ d :: r -> x <> e) as Hre by (intros x Hx ->; by apply He, Hspan).
    assert (d ∈ d :: r) as Hdd by left.
    pose proof (wf_live h t D z H (Hspan z Hz)) as Hlivez. pose proof (wf_live h t D d H (Hspan d Hdd)) as Hlived.
    rewrite wpa_Ok by (by apply live_pa). bind. set (h1 := set_pa h e 0).
    rewrite (rd_Ok (pa h1) y d) by (unfold h1; cbn; by rewrite lookup_insert_ne). bind.
    rewrite (rd_Ok (lf h1) d z) by done. bind.
    rewrite wbr_Ok by (by apply live_br, live_set_pa). bind. set (h2 := set_br h1 true z e).
    rewrite wbr_Ok by (by apply live_br, live_set_br, live_set_pa). bind. set (h3 := set_br h2 false d e).
    rewrite wbr_Ok by (by apply live_br, live_set_br, live_set_br, live_set_pa). bind. set (h4 := set_br h3 true e d).
    rewrite wbr_Ok by (by apply live_br, live_set_br, live_set_br, live_set_br, live_set_pa). set (h5 := set_br h4 false e z).
    exists h5. split; [done|]. split.
    + apply (wf_change h h5 t D y ((d :: r) ++ [e])); try done.
      * intros w Hw. assert (e <> w) by (intros <-; apply (HeD e Hw); left).
        assert (forall x, x ∈ d :: r -> x <> w) as Hxw.
        { intros x Hx ->. destruct (Hd y w) as (? & _); [by rewrite ED|done]. }
        pose proof (Hxw z Hz). pose proof (Hxw d Hdd).
        unfold h5, h4, h3, h2, h1; cbn. by rewrite !lookup_insert_ne.
      * intros n x Hn Hny Hx. destruct (Hoth n x Hn Hny Hx) as [? [? Hxd]%not_elem_of_cons].
        assert (z <> x) by (by intros ->). assert (d <> x) by (intros ->; apply Hxd; left).
        unfold h5, h4, h3, h2, h1. sames.
      * rewrite ED. cbn [hd app]. unfold h5, h4, h3, h2, h1. pose proof (Hre d Hdd). look. done.
      * cbn [app ring]. pose proof (Hre d Hdd). pose proof (Hre z Hz).
        split; [unfold h5, h4, h3, h2, h1; look; done|]. split.
        -- apply (linked_app h1 d r e z).
           ++ rewrite <- ED. apply HD.
           ++ intros Hin. by apply (Hre e).
           ++ apply (linked_ext h); [done|done].
           ++ done.
        -- apply Forall_app. split; [|apply Forall_singleton; unfold h5, h4, h3, h2, h1; look; done].
           eapply Forall_impl with (P := fun x => pa h !! x = Some 0 /\ x ∈ r).
           { rewrite Forall_forall in *. auto. }
           intros x [Hx Hxr]. assert (x <> e) by (apply Hre; by right). unfold h5, h4, h3, h2, h1; look. done.
      * apply NoDup_app. split_and!; [rewrite <- ED; apply HD| |apply NoDup_singleton].
        intros x Hx ->%elem_of_list_singleton. by apply (Hre e).
      * rewrite ED. intros x [Hx|Hx]%elem_of_app; [by left|]. apply elem_of_list_singleton in Hx as ->. by right.
      * unfold h5, h4, h3, h2, h1. repeat apply live_set_br. apply live_set_pa, (wf_nil _ _ _ H).
    + assert (forall x, x ∈ d :: r -> span D (e :: nodes t) x) as Hspan'.
      { intros x Hx. right. exists y. split; [by right|]. right. by rewrite ED. }
      unfold h5, h4, h3, h2, h1.
      repeat (eapply within_trans; [|apply within_set_br; auto]). by apply within_set_pa.
Qed.

(** A duplicate other than the first leaves. *)
Lemma wf_snip h t D y d l1 x l2 p n :
  wf h t D -> y ∈ nodes t -> D y = d :: l1 ++ x :: l2 -> lf h !! x = Some p -> rt h !! x = Some n ->
  x <> y /\ p <> x /\ n <> x /\ lf h !! n = Some x /\ rt h !! p = Some x /\ live h p /\ live h n /\
  let h' := set_br (set_br h true p n) false n p in
  wf h' t (put D y (d :: l1 ++ l2)) /\ within D (nodes t) h h'.
Proof.
  intros H Hy ED Hp Hn.
  pose proof (wf_apart _ _ _ H) as Hap. pose proof Hap as (HndN & HnN & H0N & HD & Hd & Hi).
  pose proof (wf_ring _ _ _ H y Hy) as Hring. rewrite ED in Hring. destruct Hring as (Hpy & Hlink & H0).
  pose proof (HD y) as HndD. rewrite ED in HndD.
  assert (x ∈ D y) as HxD by (rewrite ED; right; rewrite elem_of_app; right; left).
  assert (x <> y) as Hxy. { intros ->. by destruct (Hd y y HxD) as (? & _). }
  change (d :: l1 ++ x :: l2) with ((d :: l1) ++ x :: l2) in *.
  assert (n = hd x (l2 ++ d :: l1)) as En by (pose proof (linked_next _ _ _ _ Hlink); congruence).
  assert (p = hd x (rev (l2 ++ d :: l1))) as Ep by (pose proof (linked_prev _ _ _ _ Hlink); congruence).
  assert (n ∈ l2 ++ d :: l1) as HnR.
  { rewrite En. destruct l2; cbn; [left|left]. }
  assert (p ∈ l2 ++ d :: l1) as HpR.
  { rewrite Ep. apply elem_of_rev. destruct (rev (l2 ++ d :: l1)) as [|w l] eqn:Er; [|left].
    apply (f_equal (@rev nat)) in Er. rewrite rev_involutive in Er. destruct l2; done. }
  assert (x ∉ l2 ++ d :: l1) as HxR.
  { intros Hin. rewrite <- Permutation_middle in HndD. apply NoDup_cons in HndD as [HndD _].
    apply HndD. rewrite elem_of_app in *. tauto. }
  assert (forall w, w ∈ l2 ++ d :: l1 -> w ∈ D y) as HRD.
  { intros w. rewrite ED, !elem_of_app, !elem_of_cons. tauto. }
  assert (forall w, w ∈ D y -> live h w) as HlD.
  { intros w Hw. apply (wf_live h t D); [done|]. right. exists y. split; [done|by right]. }
  assert (p <> x) as Hpx by (by intros ->). assert (n <> x) as Hnx by (by intros ->).
  split_and!; try done.
  - (* the successor points back *)
    destruct l2 as [|y2 l2]; cbn [app hd] in En.
    + subst n. pose proof (linked_prev h [] d (l1 ++ [x]) Hlink) as Hq. rewrite app_nil_r, rev_app_distr in Hq. done.
    + subst n. rewrite (app_comm_cons l1), (app_assoc _ [x] (y2 :: l2)) in Hlink || idtac.
      assert (linked h (((d :: l1) ++ [x]) ++ y2 :: l2)) as Hlink' by (rewrite <- app_assoc; done).
      pose proof (linked_prev _ _ _ _ Hlink') as Hq. rewrite app_assoc, rev_app_distr in Hq. done.
  - (* the predecessor points to it *)
    destruct (last_cons_inv d l1) as (zs & z & Hz & Hlast).
    rewrite Ep in *. rewrite (hd_rev_last (l2 ++ d :: l1) z x) by (rewrite last_app_cons; done).
    rewrite Hz in Hlink. rewrite <- app_assoc in Hlink. cbn [app] in Hlink.
    pose proof (linked_next _ _ _ _ Hlink) as Hq. done.
  - auto.
  - auto.
  - intros h'. split.
    + change (d :: l1 ++ l2) with ((d :: l1) ++ l2).
      apply (wf_change h h' t D y ((d :: l1) ++ l2)); try done.
      * intros w Hw. assert (forall v, v ∈ D y -> v <> w) as Hvw.
        { intros v Hv ->. by destruct (Hd y w Hv) as (? & _). }
        pose proof (Hvw p (HRD p HpR)). pose proof (Hvw n (HRD n HnR)).
        unfold h'; cbn. by rewrite !lookup_insert_ne.
      * intros m w Hm Hmy Hw. pose proof (apart_groups _ _ _ _ _ Hap Hm Hy Hmy Hw) as [_ Hwy]%not_elem_of_cons.
        assert (p <> w) by (intros ->; by apply Hwy, HRD). assert (n <> w) by (intros ->; by apply Hwy, HRD).
        unfold h'. sames.
      * cbn [app hd]. unfold h'. look. by rewrite ED.
      * cbn [app ring]. unfold h'. look. split; [done|]. split.
        -- by apply (linked_del h (d :: l1) x l2).
        -- apply Forall_app in H0 as [H01 H02]. apply Forall_cons in H02 as [_ H02]. by apply Forall_app.
      * rewrite <- Permutation_middle in HndD. by apply NoDup_cons in HndD as [_ HndD].
      * intros w Hw. left. rewrite ED. rewrite elem_of_app in *. rewrite !elem_of_cons in *. tauto.
      * unfold h'. apply live_set_br, live_set_br, (wf_nil _ _ _ H).
    + assert (forall w, w ∈ l2 ++ d :: l1 -> span D (nodes t) w) as Hsp.
      { intros w Hw. right. exists y. split; [done|right; auto]. }
      unfold h'. eapply within_trans; apply within_set_br; auto.
Qed.

(** ** The oldest element of a ring takes over its tree node *)

Lemma wf_front h h6 a y b D d r q :
  wf h (T a y b) D -> D y = d :: r ->
  (forall n x, n ∈ nodes a ++ nodes b -> x ∈ n :: D n -> same h h6 x) -> live h6 nil ->
  lf h6 !! d = Some (ptr a) -> rt h6 !! d = Some (ptr b) ->
  lf h6 !! y = Some (ptr a) -> rt h6 !! y = Some (ptr b) -> pa h6 !! y = Some d -> is_Some (pa h6 !! d) ->
  pa h6 !! hd d r = Some q -> (q = nil \/ q = d) -> (q <> nil -> r = []) -> ring h6 d r ->
  exists h7 h8, mlink h6 d false (ptr a) = Ok h7 /\ lf h6 !! d = Some (ptr a) /\
    rt h7 !! d = Some (ptr b) /\ mlink h7 d true (ptr b) = Ok h8 /\ live h8 d /\
    let h9 := if bool_decide (q = nil) then h8 else set_pa h8 d nil in
    wf h9 (T a d b) (put (put D y []) d r) /\ within D (nodes (T a y b)) h6 h9.
Proof.
  intros H ED Hsame Hlive Hld Hrd Hly Hry Hpy Hpd Hq Hqn Hqr Hring.
  set (t := T a y b) in *. set (D' := put (put D y []) d r). set (N' := d :: y :: nodes a ++ nodes b).
  pose proof (wf_apart _ _ _ H) as Hap. pose proof Hap as (HndN & HnN & H0N & HD & Hd & Hi).
  assert (y ∈ nodes t) as Hy by (apply (ptr_in nil t); done).
  assert (forall n, n ∈ nodes a ++ nodes b -> n ∈ nodes t /\ n <> y) as Hab.
  { intros n Hn. unfold t in *. cbn [nodes] in *. split.
    - rewrite elem_of_app in *. rewrite elem_of_cons. tauto.
    - intros ->. rewrite <- Permutation_middle in HndN. by apply NoDup_cons in HndN as [? _]. }
  assert (NoDup (nodes a ++ nodes b)) as Hndab.
  { unfold t in HndN. cbn [nodes] in HndN. rewrite <- Permutation_middle in HndN. by apply NoDup_cons in HndN as [_ ?]. }
  assert (nodes t ≡ₚ y :: nodes a ++ nodes b) as Hperm.
  { unfold t. cbn [nodes]. by rewrite <- Permutation_middle. }
  pose proof (HD y) as Hndr. rewrite ED in Hndr. apply NoDup_cons in Hndr as [Hdr Hndr].
  assert (forall x, x ∈ d :: r -> x ∉ nodes t /\ x <> nil /\ x <> 0) as Hdx.
  { intros x Hx. apply (Hd y). by rewrite ED. }
  destruct (Hdx d) as (Hdt & Hdn & Hd0); [left|].
  assert (d <> y) as Hdy by (by intros ->).
  assert (forall n, n ∈ nodes a ++ nodes b -> D' n = D n) as HD'.
  { intros n Hn. destruct (Hab n Hn) as [Hnt ?]. unfold D'. rewrite !put_ne; [done|done|]. by intros ->. }
  assert (D' y = []) as HDy by (unfold D'; rewrite put_ne by done; apply put_eq).
  assert (D' d = r) as HDd by (unfold D'; apply put_eq).
  assert (D' nil = []) as HDn.
  { unfold D'. assert (nil <> y) by (intros He; apply HnN; by rewrite He).
    rewrite put_ne by congruence. rewrite put_ne by done. by apply (wf_D_nil h t). }
  assert (forall n x, x ∈ D' n -> (n = d /\ x ∈ r) \/ (n <> y /\ n <> d /\ x ∈ D n)) as HD'inv.
  { intros n x. unfold D', put. destruct (decide (n = d)) as [-> |]; [auto|].
    destruct (decide (n = y)); [by intros ?%elem_of_nil|auto]. }
  assert (NoDup N') as HndN'.
  { unfold N'. constructor; [rewrite <- Hperm; done|]. by rewrite <- Hperm. }
  assert (forall z, z ∈ N' -> z = d \/ z = y \/ z ∈ nodes a ++ nodes b) as HN'.
  { intros z. unfold N'. rewrite !elem_of_cons. done. }
  assert (apart N' D') as Hap'.
  { unfold apart. split_and!; [done|..].
    - intros [?|[He|Hn]]%HN'; [congruence|by rewrite <- He in Hy|]. apply Hab in Hn as [? _]. done.
    - intros [?|[He|Hn]]%HN'; [congruence|by rewrite <- He in Hy|]. apply Hab in Hn as [? _]. done.
    - intros n. unfold D', put. destruct (decide (n = d)); [done|]. destruct (decide (n = y)); [constructor|auto].
    - intros n x Hx. destruct (HD'inv n x Hx) as [[-> Hxr]|(Hn1 & Hn2 & HxD)].
      + destruct (Hdx x) as (Hxt & Hxn & Hx0); [by right|]. split_and!; try done.
        intros [-> |[-> |Hn]]%HN'; [done|done|]. by apply Hab in Hn as [? _].
      + destruct (Hd n x HxD) as (Hxt & Hxn & Hx0). split_and!; try done.
        intros [-> |[-> |Hn]]%HN'; [|done|by apply Hab in Hn as [? _]].
        apply Hn1. apply (Hi n y d HxD). rewrite ED. left.
    - intros n m x Hx Hx'. destruct (HD'inv n x Hx) as [[-> Hxr]|(Hn1 & Hn2 & HxD)],
        (HD'inv m x Hx') as [[-> Hxr']|(Hm1 & Hm2 & HxD')]; [done|..].
      + exfalso. apply Hm1. apply (Hi m y x HxD'). rewrite ED. by right.
      + exfalso. apply Hn1. apply (Hi n y x HxD). rewrite ED. by right.
      + by apply (Hi n m x). }
  set (g6 := flat D' N' h6).
  assert (forall n, n ∈ N' -> pa g6 !! n = pa h6 !! keeper D' n) as Hg6 by (intros n; apply flat_in).
  assert (forall z, z ∈ nodes a ++ nodes b -> lf g6 !! z = lf (flat D (nodes t) h) !! z /\
    rt g6 !! z = rt (flat D (nodes t) h) !! z /\ pa g6 !! z = pa (flat D (nodes t) h) !! z) as Hg6ab.
  { intros z Hz. destruct (Hab z Hz) as [Hzt _]. destruct (Hsame z z Hz (elem_of_list_here _ _)) as (E1 & E2 & E3).
    rewrite Hg6 by (unfold N'; rewrite !elem_of_cons; auto). rewrite flat_in by done. rewrite HD' by done.
    split_and!; [done|done|]. apply (Hsame z); [done|]. destruct (D z); cbn; [left|right; left]. }
  destruct (wf_rep _ _ _ H) as (_ & _ & _ & Hyn & Hra & Hrb).
  assert (rep g6 y a) as Hra6.
  { apply (rep_ext nil (flat D (nodes t) h)); [|done]. intros z Hz. apply Hg6ab. rewrite elem_of_app. auto. }
  assert (rep g6 y b) as Hrb6.
  { apply (rep_ext nil (flat D (nodes t) h)); [|done]. intros z Hz. apply Hg6ab. rewrite elem_of_app. auto. }
  apply NoDup_app in Hndab as (Hnda & Hdis & Hndb).
  assert (forall u, u = a \/ u = b -> rep g6 y u /\ NoDup (nodes u) /\ (forall z, z ∈ nodes u -> z ∈ N') /\
    d ∉ nodes u /\ y ∉ nodes u) as Hu.
  { intros u Hu. assert (forall z, z ∈ nodes u -> z ∈ nodes a ++ nodes b) as Hin.
    { intros z Hz. rewrite elem_of_app. destruct Hu as [-> | ->]; auto. }
    split_and!.
    - by destruct Hu as [-> | ->].
    - by destruct Hu as [-> | ->].
    - intros z Hz. unfold N'. rewrite !elem_of_cons. auto.
    - intros Hz%Hin. by apply Hab in Hz as [? _].
    - intros Hz%Hin. by apply Hab in Hz as [_ ?]. }
  assert (forall u, ptr u ∈ nil :: nodes u) as Hptr.
  { intros u. assert (u = E \/ u <> E) as [-> |Hne] by (destruct u; auto); [left|right; by apply ptr_in]. }
  assert (forall u z, u = a \/ u = b -> z ∈ nil :: nodes u -> z ∈ nil :: N') as HuN.
  { intros u z Hu' [-> |Hz]%elem_of_cons; [left|right]. by apply (Hu u Hu'). }
  assert (pa g6 !! d = Some q) as Hpd6.
  { rewrite Hg6 by left. by rewrite HDd. }
  assert (pa g6 !! y = Some d) as Hpy6.
  { rewrite Hg6 by (right; left). by rewrite HDy. }
  assert (forall z p c, p = z -> lf h6 !! z = Some (ptr a) -> z ∉ nodes a -> z <> nil ->
    lf g6 !! p = Some c -> c ∈ N' -> rt g6 !! c <> Some p) as Hroot.
  { intros z p c -> Hz Hza Hzn Hpc Hc Hrc. cbn [lf g6 flat] in Hpc. assert (c = ptr a) as -> by congruence.
    pose proof (Hptr a) as [He|Hin]%elem_of_cons; [rewrite He in Hc; by destruct Hap' as (_ & ? & _)|].
    destruct (rep_closed g6 y a (ptr a) Hra6 Hin) as [_ Hcl]. destruct (Hcl true) as (c & Hcc & Hci). cbn [br] in Hcc.
    assert (c = z) as -> by congruence. by apply elem_of_cons in Hci as [?|?]. }
  assert (tidy N' g6) as Htidy.
  { split_and!.
    - destruct Hlive as (? & ? & ?). unfold live, g6. split_and!; try done.
      rewrite flat_out; [done|]. by destruct Hap' as (_ & ? & _).
    - intros n Hn. apply HN' in Hn as [-> |[-> |Hn]].
      + split; [exists q; split; [done|]; destruct Hqn as [-> | ->]; [left|right; left]|].
        intros dd. exists (ptr (if dd then b else a)). split; [by destruct dd|].
        apply (HuN (if dd then b else a)); [destruct dd; auto|apply Hptr].
      + split; [exists d; split; [done|right; left]|].
        intros dd. exists (ptr (if dd then b else a)). split; [by destruct dd|].
        apply (HuN (if dd then b else a)); [destruct dd; auto|apply Hptr].
      + assert (exists u, (u = a \/ u = b) /\ n ∈ nodes u) as (u & Hu' & Hnu).
        { apply elem_of_app in Hn as [?|?]; eauto. }
        destruct (rep_closed g6 y u n) as [(p & Hp & Hpi) Hc]; [by apply Hu|done|]. split.
        * exists p. split; [done|]. apply elem_of_cons in Hpi as [-> |Hpi]; [right; right; left|].
          right. by apply (Hu u Hu').
        * intros dd. destruct (Hc dd) as (c & ? & ?). exists c. split; [done|]. by apply (HuN u).
    - intros p c Hp Hpc Hc Hrc. apply HN' in Hp as [Hp|[Hp|Hn]].
      + apply (Hroot d p c); try done; apply (Hu a); auto.
      + apply (Hroot y p c); try done; apply (Hu a); auto.
      + assert (exists u, (u = a \/ u = b) /\ p ∈ nodes u) as (u & Hu' & Hpu).
      { apply elem_of_app in Hn as [?|?]; eauto. }
      destruct (Hu u Hu') as (Hru & Hndu & HuN' & Hdu & Hyu).
      destruct (rep_closed g6 y u p Hru Hpu) as [_ Hcl]. destruct (Hcl false) as (c' & Hcc & Hci). cbn [br] in Hcc.
      assert (c' = c) as -> by congruence.
      apply elem_of_cons in Hci as [-> |Hci]; [by destruct Hap' as (_ & ? & _)|].
      by apply (rep_no_circle g6 y u p c). }
  assert (shadow D' N' g6 h6) as Hsh.
  { unfold shadow. split_and!; try done.
    - intros z. destruct (decide (z ∈ N')) as [Hz|Hz]; [|unfold g6; by rewrite flat_out].
      pose proof (tidy_live N' g6 z Htidy (elem_of_list_further _ _ _ Hz)) as (_ & _ & Hg).
      split; [done|]. intros _. apply HN' in Hz as [-> |[-> |Hz]]; [done|by rewrite Hpy|].
      destruct (Hsame z z Hz (elem_of_list_here _ _)) as (_ & _ & ->).
      destruct (wf_node h t D z H) as [_ (_ & _ & ?)]; [by apply Hab|done].
    - intros n [-> |Hn]%elem_of_cons; [|by apply Hg6]. rewrite HDn. cbn [hd]. unfold g6.
      apply flat_out. by destruct Hap' as (_ & ? & _).
    - intros n Hn. apply HN' in Hn as [-> |[-> |Hn]]; [by rewrite HDd|by rewrite HDy|].
      rewrite HD' by done. apply (ring_ext h).
      + intros x Hx. destruct (Hsame n x Hn) as (? & ? & _); [by right|done].
      + intros x Hx. destruct (Hsame n x Hn) as (_ & _ & ?); [|done]. right. destruct (D n); [done|by right].
      + intros _. destruct (Hsame n n Hn) as (_ & _ & ?); [left|done].
      + apply (wf_ring _ _ _ H). by apply Hab. }
  assert (follows D' N' h6 g6 h6) as Hf6 by (split_and!; [done|done|apply within_refl]).
  assert (forall z, z ∈ nil :: N' -> live g6 z) as Hl6 by (intros z; by apply tidy_live).
  assert (d ∈ nil :: N') as HdN by (right; left).
  set (g7 := set_pa (set_br g6 false d (ptr a)) (ptr a) d).
  assert (link_chk nil N' g6 d false (ptr a) = Ok g7) as Hg7.
  { apply link_chk_Ok; [done|apply (HuN a); auto| |done]. apply (safe_tree nil g6 d false y a); [done|apply (Hu a); auto]. }
  destruct (mlink_follows _ _ _ _ _ _ _ _ _ Hf6 Hg7) as (h7 & Hm7 & Hf7).
  assert (ptr a <> d /\ ptr b <> d) as [Hpad Hpbd].
  { split; intros Hp; [pose proof (Hptr a) as Hin|pose proof (Hptr b) as Hin]; rewrite Hp in Hin;
      apply elem_of_cons in Hin as [?|Hin]; try done; [apply (Hu a) in Hin|apply (Hu b) in Hin]; auto. }
  assert (rep g7 d a) as Hra7.
  { apply (rep_reparent nil _ y d a Hnda). apply rep_set_br; [apply (Hu a); auto|done]. }
  assert (ptr a ∉ nodes b) as Hpab.
  { intros Hin. pose proof (Hptr a) as [He|Hin']%elem_of_cons; [|by apply (Hdis (ptr a))].
    rewrite He in Hin. apply HnN, Hab. rewrite elem_of_app. auto. }
  assert (ptr b ∉ nodes a) as Hpba.
  { intros Hin. pose proof (Hptr b) as [He|Hin']%elem_of_cons; [|by apply (Hdis (ptr b))].
    rewrite He in Hin. apply HnN, Hab. rewrite elem_of_app. auto. }
  assert (rep g7 y b) as Hrb7.
  { apply rep_set_pa; [done|]. apply rep_set_br; [apply (Hu b); auto|done]. }
  assert (forall z, z ∈ nil :: N' -> live g7 z) as Hl7 by (intros z Hz; by apply live_set_pa, live_set_br, Hl6).
  set (g8 := set_pa (set_br g7 true d (ptr b)) (ptr b) d).
  assert (link_chk nil N' g7 d true (ptr b) = Ok g8) as Hg8.
  { apply link_chk_Ok; [done|apply (HuN b); auto| |done]. apply (safe_tree nil g7 d true y b); [done|apply (Hu b); auto]. }
  destruct (mlink_follows _ _ _ _ _ _ _ _ _ Hf7 Hg8) as (h8 & Hm8 & Hf8).
  assert (rep g8 d b) as Hrb8.
  { apply (rep_reparent nil _ y d b Hndb). apply rep_set_br; [apply (Hu b); auto|done]. }
  assert (rep g8 d a) as Hra8.
  { apply rep_set_pa; [done|]. apply rep_set_br; [apply (Hu a); auto|done]. }
  exists h7, h8. split; [done|]. split; [done|]. split.
  { destruct Hf7 as ((_ & Hr7 & _) & _). rewrite Hr7. unfold g7. look. done. }
  split; [done|]. split; [apply (shadow_live D' N' g8 h8); [by destruct Hf8 as (? & _)|]; apply live_set_pa, live_set_br; auto|].
  assert (forall z, span D' N' z -> span D (nodes t) z) as Hspan.
  { intros z [-> |(n & Hn & Hz)]; [by left|]. right. apply HN' in Hn as [-> |[-> |Hn]].
    - exists y. split; [done|]. right. rewrite ED. rewrite HDd in Hz. apply elem_of_cons in Hz as [-> |?]; [left|by right].
    - rewrite HDy in Hz. apply elem_of_list_singleton in Hz as ->. exists y. split; [done|left].
    - exists n. split; [by apply Hab|]. by rewrite <- HD'. }
  assert (forall h9 g9, follows D' N' h6 g9 h9 -> rep g9 nil (T a d b) ->
    wf h9 (T a d b) D' /\ within D (nodes t) h6 h9) as Hend.
  { intros h9 g9 Hf9 Hr9. split; [|apply (within_mono D' N'); [done|by apply (follows_within _ _ _ g9)]].
    assert (nodes (T a d b) ≡ₚ d :: nodes a ++ nodes b) as Hperm' by (cbn [nodes]; by rewrite <- Permutation_middle).
    apply (follows_wf h6 g9 h9 _ D' N'); [done|done|..].
    - rewrite Hperm'. unfold N' in HndN'. apply NoDup_cons in HndN' as [HA [_ HB]%NoDup_cons].
      constructor; [|done]. intros ?. apply HA. by right.
    - intros z. rewrite Hperm'. unfold N'. rewrite !elem_of_cons. tauto.
    - intros n. rewrite Hperm'. intros [Hn1 Hn2]%not_elem_of_cons. unfold D'. rewrite put_ne by done.
      destruct (decide (n = y)) as [-> |Hny]; [apply put_eq|]. rewrite put_ne by done.
      apply (wf_out _ _ _ H). rewrite Hperm. by apply not_elem_of_cons. }
  assert (lf g8 !! d = Some (ptr a) /\ rt g8 !! d = Some (ptr b) /\ pa g8 !! d = Some q) as (E1 & E2 & E3).
  { unfold g8, g7. cbn [lf rt pa set_pa set_br].
    rewrite !lookup_insert, !lookup_insert_ne by done. split_and!; [done|done|].
    rewrite <- Hpd6. done. }
  intros h9. destruct Hqn as [-> | ->].
  - unfold h9. rewrite bool_decide_eq_true_2 by done. apply (Hend _ g8); [done|].
    cbn. split_and!; done.
  - unfold h9. rewrite bool_decide_eq_false_2 by done. rewrite (Hqr Hdn) in HDd.
    assert (keeper D' d = d) as Hkd by (by rewrite HDd).
    apply (Hend _ (set_pa g8 d nil)).
    + destruct Hf8 as (Hs8 & Ht8 & Hw8).
      assert (nil ∈ nil :: N') as Hnil by left.
      assert (d ∈ N') as HdN2 by left.
      split_and!.
      * pose proof (shadow_set_pa D' N' g8 h8 d nil) as Hsp. rewrite Hkd in Hsp. by apply Hsp.
      * by apply tidy_set_pa.
      * eapply within_trans; [exact Hw8|]. apply within_set_pa. by apply span_in.
    + refine (conj E1 (conj E2 (conj _ (conj Hdn (conj _ _))))).
      * cbn [pa set_pa]. by rewrite lookup_insert.
      * apply rep_set_pa; [apply (Hu a); auto|done].
      * apply rep_set_pa; [apply (Hu b); auto|done].
Qed.

Ltac see := cbn [lf rt pa set_br set_pa];
  repeat first [rewrite lookup_insert | rewrite lookup_insert_ne by congruence].

(** The first duplicate of the root leaves its ring. *)
Lemma wf_head h a y b D d r p n :
  let t := T a y b in
  wf h t D -> D y = d :: r -> lf h !! d = Some p -> rt h !! d = Some n ->
  y <> d /\ live h y /\ pa h !! d = Some nil /\
  (r = [] -> n = d /\ wf (set_pa h y nil) t (put D y []) /\ within D (nodes t) h (set_pa h y nil)) /\
  (r <> [] -> p <> d /\ n <> d /\ n <> y /\ live h p /\ live h n /\
    let h' := set_pa (set_pa (set_br (set_br h true p n) false n p) n nil) y n in
    wf h' t (put D y r) /\ within D (nodes t) h h').
Proof.
  intros t H ED Hp Hn.
  pose proof (wf_apart _ _ _ H) as Hap. pose proof Hap as (HndN & HnN & H0N & HD & Hd & Hi).
  assert (y ∈ nodes t) as Hy by (apply (ptr_in nil t); done).
  pose proof (wf_ring _ _ _ H y Hy) as Hring. rewrite ED in Hring. destruct Hring as (Hpy & Hlink & H0).
  pose proof (HD y) as HndD. rewrite ED in HndD. apply NoDup_cons in HndD as [Hdr HndD].
  assert (forall x, x ∈ d :: r -> x ∉ nodes t /\ x <> nil /\ x <> 0) as Hdx.
  { intros x Hx. apply (Hd y). by rewrite ED. }
  assert (forall x, x ∈ d :: r -> x <> y) as Hxy.
  { intros x Hx ->. by destruct (Hdx y Hx) as (? & _). }
  assert (forall x, x ∈ d :: r -> span D (nodes t) x) as Hspan.
  { intros x Hx. right. exists y. split; [done|]. right. by rewrite ED. }
  assert (forall x, x ∈ d :: r -> live h x) as Hlive by (intros x Hx; apply (wf_live h t D); auto).
  assert (pa h !! d = Some nil) as Hpd.
  { destruct (wf_rep _ _ _ H) as (_ & _ & Hpa & _). rewrite flat_in, ED in Hpa by done. done. }
  assert (forall m x, m ∈ nodes t -> m <> y -> x ∈ m :: D m -> x <> y /\ x ∉ d :: r) as Hoth.
  { intros m x Hm Hmy Hx. pose proof (apart_groups _ _ _ _ _ Hap Hm Hy Hmy Hx) as Hg. rewrite ED in Hg.
    by apply not_elem_of_cons in Hg. }
  assert (d <> y) as Hdy by (apply Hxy; left).
  split_and!; [done|by apply (wf_node h t D)|done|..].
  - intros ->. pose proof (linked_next h [] d [] Hlink) as Hq. cbn in Hq. split; [congruence|]. split.
    + apply (wf_change h _ t D y []); try done.
      * intros m x Hm Hmy Hx. destruct (Hoth m x Hm Hmy Hx) as [? _]. by apply same_set_pa.
      * rewrite ED. cbn. by rewrite lookup_insert.
      * intros x Hx. by apply elem_of_nil in Hx.
      * apply live_set_pa, (wf_nil _ _ _ H).
    + apply within_set_pa. right. exists y. split; [done|left].
  - intros Hr. destruct r as [|m r]; [done|].
    pose proof (linked_next h [] d (m :: r) Hlink) as Hq. cbn in Hq. assert (n = m) as -> by congruence. clear Hq.
    pose proof (linked_prev h [] d (m :: r) Hlink) as Hq. rewrite app_nil_r in Hq.
    destruct (last_cons_inv m r) as (zs & z & Hz & Hlast). rewrite (hd_rev_last _ _ d Hlast) in Hq.
    assert (z = p) as -> by congruence. clear Hq.
    assert (p ∈ m :: r) as Hpr by (rewrite Hz, elem_of_app; right; left).
    assert (m ∈ m :: r) as Hmr by left.
    assert (p <> d) as Hpd' by (by intros ->). assert (m <> d) as Hmd by (by intros ->).
    assert (m <> y) as Hmy by (apply Hxy; right; left).
    split_and!; [done|done|done|apply Hlive; by right|apply Hlive; by right|].
    intros h'. split.
    + apply (wf_change h h' t D y (m :: r)); try done.
      * intros w Hw. assert (forall v, v ∈ d :: m :: r -> v <> w) as Hvw.
        { intros v Hv ->. by destruct (Hdx w Hv) as (? & _). }
        assert (p <> w) by (apply Hvw; by right). assert (m <> w) by (apply Hvw; right; left).
        unfold h'; cbn. by rewrite !lookup_insert_ne.
      * intros v x Hv Hvy Hx. destruct (Hoth v x Hv Hvy Hx) as [? [? Hxr]%not_elem_of_cons].
        assert (p <> x) by (by intros ->). assert (m <> x) by (intros ->; apply Hxr; left).
        unfold h'. sames.
      * rewrite ED. cbn [hd]. unfold h'. see; done.
      * cbn [ring]. unfold h'. split; [see; done|]. split.
        -- apply (linked_ext (set_br (set_br h true p m) false m p)); [done|].
           apply (linked_del h [] d (m :: r)); try done.
           cbn [app]. by constructor.
        -- apply Forall_cons in H0 as [_ H0]. rewrite Forall_forall in *. intros x Hx.
           assert (x <> y) by (apply Hxy; right; by right).
           assert (x <> m). { intros ->. by apply NoDup_cons in HndD as [? _]. }
           see. auto.
      * intros x Hx. left. rewrite ED. by right.
      * unfold h'. apply live_set_pa, live_set_pa, live_set_br, live_set_br, (wf_nil _ _ _ H).
    + assert (span D (nodes t) y) as Hsy by (right; exists y; split; [done|left]).
      assert (span D (nodes t) p /\ span D (nodes t) m) as [? ?] by (split; apply Hspan; by right).
      unfold h'. eapply within_trans; [|by apply within_set_pa]. eapply within_trans; [|by apply within_set_pa].
      eapply within_trans; by apply within_set_br.
Qed.

Section state.
Context {K V : Type} (cmp : K -> K -> comparison).

Lemma pop_front_Ok (s : om K V) a y b D d r k :
  let t := T a y b in
  wf (lk s) t D -> D y = d :: r -> root s = y ->
  exists h', pop_front_dup cmp s y k = Ok (set_lk (set_root s d) h') /\
    wf h' (T a d b) (put (put D y []) d r) /\ within D (nodes t) (lk s) h'.
Proof.
  intros t H ED Hroot. set (h := lk s) in *.
  pose proof (wf_apart _ _ _ H) as Hap. pose proof Hap as (HndN & HnN & H0N & HD & Hd & Hi).
  assert (y ∈ nodes t) as Hy by (apply (ptr_in nil t); done).
  pose proof (wf_ring _ _ _ H y Hy) as Hring. rewrite ED in Hring. destruct Hring as (Hpy & Hlink & H0).
  pose proof (HD y) as HndD. rewrite ED in HndD. apply NoDup_cons in HndD as [Hdr HndD].
  assert (forall x, x ∈ d :: r -> x ∉ nodes t /\ x <> nil /\ x <> 0) as Hdx.
  { intros x Hx. apply (Hd y). by rewrite ED. }
  assert (forall x, x ∈ d :: r -> x <> y) as Hxy.
  { intros x Hx ->. by destruct (Hdx y Hx) as (? & _). }
  assert (forall x, x ∈ d :: r -> span D (nodes t) x) as Hspan.
  { intros x Hx. right. exists y. split; [done|]. right. by rewrite ED. }
  assert (forall x, x ∈ d :: r -> live h x) as Hlive by (intros x Hx; apply (wf_live h t D); auto).
  destruct (wf_rep _ _ _ H) as (Hly & Hry & Hpa & _). rewrite flat_in, ED in Hpa by done. cbn [hd] in Hpa.
  cbn [lf rt flat] in Hly, Hry.
  assert (d ∈ d :: r) as Hdd by left. assert (d <> y) as Hdy by auto.
  assert (d <> nil) as Hdn by (by apply Hdx).
  assert (forall m x, m ∈ nodes a ++ nodes b -> x ∈ m :: D m -> x <> y /\ x ∉ d :: r) as Hoth.
  { intros m x Hm Hx. assert (m ∈ nodes t /\ m <> y) as [Hmt Hmy].
    { unfold t in *. cbn [nodes] in *. split.
      - rewrite elem_of_app in *. rewrite elem_of_cons. tauto.
      - intros ->. rewrite <- Permutation_middle in HndN. by apply NoDup_cons in HndN as [? _]. }
    pose proof (apart_groups _ _ _ _ _ Hap Hmt Hy Hmy Hx) as Hg. rewrite ED in Hg. by apply not_elem_of_cons in Hg. }
  assert (live h nil) as Hlnil by apply (wf_nil _ _ _ H).
  unfold pop_front_dup. change (lk s) with h. rewrite (rd_Ok _ _ _ Hpy). bind. rewrite (rd_Ok _ _ _ Hpa). bind.
  rewrite Hroot, Nat.eqb_refl. bind. change (lk (set_root s d)) with h.
  destruct r as [|n r].
  - pose proof (linked_next h [] d [] Hlink) as Hn. pose proof (linked_prev h [] d [] Hlink) as Hp. cbn in Hn, Hp.
    rewrite (rd_Ok _ _ _ Hn). bind. rewrite (rd_Ok _ _ _ Hp). bind. rewrite (rd_Ok _ _ _ Hn). bind.
    pose proof (Hlive d Hdd) as Hld.
    rewrite wbr_Ok by (by apply live_br). bind. set (h1 := set_br h false d d).
    assert (live h1 d) as Hl1 by (by apply live_set_br).
    rewrite wpa_Ok by (by apply live_pa). bind. set (h2 := set_pa h1 d nil).
    assert (live h2 d) as Hl2 by (by apply live_set_pa).
    rewrite wbr_Ok by (by apply live_br). bind. set (h3 := set_br h2 true d d).
    assert (live h3 d) as Hl3 by (by apply live_set_br).
    rewrite (rd_Ok (lf h3) y (ptr a)) by (unfold h3, h2, h1; see; done). bind.
    rewrite wbr_Ok by (by apply live_br). bind. set (h4 := set_br h3 false d (ptr a)).
    assert (live h4 d) as Hl4 by (by apply live_set_br).
    rewrite (rd_Ok (rt h4) y (ptr b)) by (unfold h4, h3, h2, h1; see; done). bind.
    rewrite wbr_Ok by (by apply live_br). bind. set (h5 := set_br h4 true d (ptr b)).
    assert (live h5 d) as Hl5 by (by apply live_set_br).
    rewrite wpa_Ok by (by apply live_pa). bind. set (h6 := set_pa h5 d d).
    destruct (wf_front h h6 a y b D d [] d) as (h7 & h8 & Hm7 & E1 & E2 & Hm8 & Hl8 & Hwf & Hw); try done.
    + intros m x Hm Hx. destruct (Hoth m x Hm Hx) as [? [? _]%not_elem_of_cons].
      unfold h6, h5, h4, h3, h2, h1. sames.
    + unfold h6, h5, h4, h3, h2, h1. repeat first [apply live_set_br|apply live_set_pa]. done.
    + unfold h6, h5, h4, h3, h2, h1; see; done.
    + unfold h6, h5, h4, h3, h2, h1; see; done.
    + unfold h6, h5, h4, h3, h2, h1; see; done.
    + unfold h6, h5, h4, h3, h2, h1; see; done.
    + unfold h6, h5, h4, h3, h2, h1; see; done.
    + unfold h6; see; eauto.
    + unfold h6; see; done.
    + by right.
    + rewrite (rd_Ok _ _ _ E1). bind. rewrite Hm7. bind. rewrite (rd_Ok _ _ _ E2). bind. rewrite Hm8. bind.
      rewrite Nat.eqb_refl. rewrite wpa_Ok by (by apply live_pa). bind.
      rewrite bool_decide_eq_false_2 in Hwf, Hw by done.
      eexists. split; [done|]. split; [done|].
      eapply within_trans; [|exact Hw]. unfold h6, h5, h4, h3, h2, h1.
      repeat (eapply within_trans; [|first [apply within_set_br; by apply Hspan | apply within_set_pa; by apply Hspan]]).
      apply within_refl.
  - pose proof (linked_next h [] d (n :: r) Hlink) as Hn. cbn in Hn.
    pose proof (linked_prev h [] d (n :: r) Hlink) as Hp. rewrite app_nil_r in Hp.
    destruct (last_cons_inv n r) as (zs & z & Hz & Hlast). rewrite (hd_rev_last _ _ d Hlast) in Hp.
    assert (z ∈ n :: r) as Hzr by (rewrite Hz, elem_of_app; right; left).
    assert (n ∈ n :: r) as Hnr by left.
    assert (z <> d) as Hzd by (by intros ->). assert (n <> d) as Hnd' by (by intros ->).
    assert (n <> y) as Hny by (apply Hxy; right; left). assert (z <> y) as Hzy by (apply Hxy; by right).
    pose proof (linked_next h [d] n r Hlink) as Hnn.
    assert (hd n (r ++ [d]) <> n) as Hnext.
    { apply NoDup_cons in HndD as [HndD _]. destruct r as [|m r]; cbn; [done|]. intros ->. apply HndD. left. }
    rewrite (rd_Ok _ _ _ Hn). bind. rewrite (rd_Ok _ _ _ Hp). bind. rewrite (rd_Ok _ _ _ Hnn). bind.
    assert (live h n) as Hln by (apply Hlive; right; left). assert (live h z) as Hlz by (apply Hlive; by right).
    pose proof (Hlive d Hdd) as Hld.
    rewrite wbr_Ok by (by apply live_br). bind. set (h1 := set_br h false n z).
    assert (forall w, live h w -> live h1 w) as Hl1 by (intros w; apply live_set_br).
    rewrite wpa_Ok by (apply live_pa; auto). bind. set (h2 := set_pa h1 n nil).
    assert (forall w, live h w -> live h2 w) as Hl2 by (intros w Hw; apply live_set_pa; auto).
    rewrite wbr_Ok by (apply live_br; auto). bind. set (h3 := set_br h2 true z n).
    assert (forall w, live h w -> live h3 w) as Hl3 by (intros w Hw; apply live_set_br; auto).
    rewrite (rd_Ok (lf h3) y (ptr a)) by (unfold h3, h2, h1; see; done). bind.
    rewrite wbr_Ok by (apply live_br; auto). bind. set (h4 := set_br h3 false d (ptr a)).
    assert (forall w, live h w -> live h4 w) as Hl4 by (intros w Hw; apply live_set_br; auto).
    rewrite (rd_Ok (rt h4) y (ptr b)) by (unfold h4, h3, h2, h1; see; done). bind.
    rewrite wbr_Ok by (apply live_br; auto). bind. set (h5 := set_br h4 true d (ptr b)).
    assert (forall w, live h w -> live h5 w) as Hl5 by (intros w Hw; apply live_set_br; auto).
    rewrite wpa_Ok by (apply live_pa; auto). bind. set (h6 := set_pa h5 d n).
    assert (forall w, live h w -> live h6 w) as Hl6 by (intros w Hw; apply live_set_pa; auto).
    destruct (wf_front h h6 a y b D d (n :: r) nil) as (h7 & h8 & Hm7 & E1 & E2 & Hm8 & Hl8 & Hwf & Hw); try done.
    + intros m x Hm Hx. destruct (Hoth m x Hm Hx) as [? [? Hxr]%not_elem_of_cons].
      assert (n <> x) by (intros ->; apply Hxr; left). assert (z <> x) by (by intros ->).
      unfold h6, h5, h4, h3, h2, h1. sames.
    + auto.
    + unfold h6, h5, h4, h3, h2, h1; see; done.
    + unfold h6, h5, h4, h3, h2, h1; see; done.
    + unfold h6, h5, h4, h3, h2, h1; see; done.
    + unfold h6, h5, h4, h3, h2, h1; see; done.
    + unfold h6, h5, h4, h3, h2, h1; see; done.
    + unfold h6; see; eauto.
    + cbn [hd]. unfold h6, h5, h4, h3, h2, h1; see; done.
    + by left.
    + cbn [ring]. split; [unfold h6; see; done|]. split.
      * pose proof (linked_del h [] d (n :: r) z n) as Hdel. cbn [app] in Hdel.
        apply (linked_ext (set_br (set_br h true z n) false n z)); [|apply Hdel; try done; by constructor].
        intros x Hx. assert (d <> x) by (by intros ->). unfold h6, h5, h4, h3, h2, h1. cbn.
        by rewrite !(lookup_insert_ne _ d) by done.
      * apply Forall_cons in H0 as [_ H0]. rewrite Forall_forall in *. intros x Hx.
        assert (x <> n). { intros ->. by apply NoDup_cons in HndD as [? _]. }
        assert (x <> d). { intros ->. apply Hdr. by right. }
        unfold h6, h5, h4, h3, h2, h1. see. auto.
    + rewrite (rd_Ok _ _ _ E1). bind. rewrite Hm7. bind. rewrite (rd_Ok _ _ _ E2). bind. rewrite Hm8. bind.
      rewrite (proj2 (Nat.eqb_neq _ _) Hnext). bind.
      rewrite bool_decide_eq_true_2 in Hwf, Hw by done.
      eexists. split; [done|]. split; [done|].
      assert (span D (nodes t) n /\ span D (nodes t) z) as [Hsn Hsz] by (split; apply Hspan; by right).
      eapply within_trans; [|exact Hw]. unfold h6, h5, h4, h3, h2, h1.
      repeat (eapply within_trans; [|first [apply within_set_br; by auto | apply within_set_pa; by auto]]).
      apply within_refl.
Qed.
End state.
