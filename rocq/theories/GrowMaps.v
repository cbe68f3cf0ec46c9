(** The slots moved by the growth of the flat ordered maps over a history. *)
From stdpp Require Import base numbers option gmap list.
From Verif Require Import Common MapSpec OrderSpec FlatOps FlatSpec FlatModel TickModel GrowModel GrowSpec Grow.
From Verif Require FomModel FrmModel FomProofs FrmProofs FomHistories FrmHistories SplayProofs WavlProofs WavlRemove.

Section flat.
Context {K V : Type} (alloc : bool) (seal : flat K V -> outcome (flat K V)).
Context {H : Type} (find : flat K V -> K -> outcome (flat K V * option nat * H)).
Context (link : flat K V -> H -> nat -> outcome (flat K V * option nat)).
Context (contains : flat K V -> K -> outcome (flat K V * bool)).
Context (remove : flat K V -> user K V -> outcome (flat K V * fent * cell K V)).
Context (remove_at : flat K V -> nat -> outcome (flat K V * nat)).
Context (range : flat K V -> bool -> K -> K -> outcome (flat K V * option nat * option nat)).
Context (clear : flat K V -> bool -> outcome (flat K V * result * list (nat * (K * V)))).
Context (validate : flat K V -> outcome bool).
Notation step_c := (map_step_c alloc seal find link contains remove remove_at range clear validate).
Notation step := (flat_step alloc seal find link contains remove remove_at range clear validate).
Notation run_c := (map_run_c alloc seal find link contains remove remove_at range clear validate).
Notation run := (flat_run alloc seal find link contains remove remove_at range clear validate).
Implicit Types s : flat K V.

(** Erasure. *)
Lemma map_back_erase s ans : untick (map_alloc_back_c alloc s ans) = Ok (buf_alloc_back alloc s ans).
Proof.
  unfold map_alloc_back_c, buf_alloc_back. destruct (_ =? _); [|done]. destruct alloc; [|done]. by destruct ans.
Qed.
Lemma alloc_back_erase s ans : untick (alloc_back_c alloc seal s ans) = alloc_back alloc seal s ans.
Proof.
  unfold alloc_back_c, alloc_back. destruct (sz s =? 0); [|apply map_back_erase].
  rewrite untick_bind, map_back_erase. cbn [mbind outcome_bind obind].
  destruct (buf_alloc_back alloc s ans) as [s1 [i|]]; [|done].
  rewrite untick_obind. apply bind_ext; [done|]. intros s2. apply map_back_erase.
Qed.
Lemma insert_erase s h u ans : untick (maybe_alloc_insert_c alloc seal link s h u ans) = maybe_alloc_insert alloc seal link s h u ans.
Proof.
  unfold maybe_alloc_insert_c, maybe_alloc_insert. rewrite untick_bind, alloc_back_erase. apply bind_ext; [done|].
  intros [s1 [i|]]; [|done]. by rewrite untick_plain.
Qed.
Lemma literal_erase s h u ans : untick (literal_insert_c alloc seal link s h u ans) = literal_insert alloc seal link s h u ans.
Proof.
  unfold literal_insert_c, literal_insert. rewrite untick_bind, alloc_back_erase. apply bind_ext; [done|].
  intros [s1 [i|]]; [|done]. by rewrite untick_plain.
Qed.
Local Ltac er := repeat first
  [ done
  | rewrite untick_plain
  | rewrite insert_erase
  | rewrite literal_erase
  | rewrite untick_bind
  | rewrite untick_obind
  | apply bind_ext; [try done|]; [intros ?]
  | apply bind_ext; [|intros ?]
  | case_match ].
Lemma map_step_erase s o : untick (step_c s o) = step s o.
Proof.
  destruct o; cbn [map_step_c]; try apply untick_plain; cbn [flat_step];
    unfold insert_c, try_insert_c, insert_or_assign_c, or_insert_c, insert_entry_c, or_insert_w_c, insert_entry_w_c,
      try_insert_w_c, insert_or_assign_w_c, flat_insert, flat_try_insert, flat_insert_or_assign, flat_or_insert, flat_insert_entry,
      flat_or_insert_w, flat_insert_entry_w, flat_try_insert_w, flat_insert_or_assign_w; er.
Qed.
Lemma map_run_erase os : forall s, untick (run_c s os) = run s os.
Proof.
  induction os as [|o os IH]; intros s; [done|]. cbn [map_run_c flat_run]. rewrite untick_bind, map_step_erase.
  apply bind_ext; [done|]. intros [s1 r]. rewrite untick_bind, IH. apply bind_ext; [done|]. by intros [].
Qed.

(** A call moves the slots only if the capacity changes. *)
Context (seal_cap : forall s s', seal s = Ok s' -> cap s' = cap s /\ sz s' = sz s).
Context (find_cap : forall s k s' o h, find s k = Ok (s', o, h) -> cap s' = cap s).
Context (link_cap : forall s h n s' o, link s h n = Ok (s', o) -> cap s' = cap s).
Definition billed s s' (n : nat) : Prop := cap s' = cap s /\ n = 0 \/ alloc = true /\ cap s <> cap s' /\ n = cap s.

Lemma write_cap s i c s' : write s i c = Ok s' -> cap s' = cap s.
Proof. unfold write. intros E. apply WordSame.bind_Ok in E as (? & _ & [= <-]). done. Qed.
Lemma back_billed s ans s' o n : map_alloc_back_c alloc s ans = Ok (s', o, n) ->
  (cap s' = cap s /\ n = 0 \/
   alloc = true /\ sz s = cap s /\ cap s' = (if cap s =? 0 then 8 else cap s * 2) /\ n = cap s) /\
  (o <> None -> sz s' = S (sz s)).
Proof.
  unfold map_alloc_back_c. destruct (Nat.eqb_spec (sz s) (cap s)) as [E|E].
  - destruct alloc; [|intros [= <- <- <-]; split; [by left|done]]. destruct ans as [junk|]; [|intros [= <- <- <-]; split; [by left|done]].
    intros [= <- <- <-]. cbn [cap set_sz grow sz]. split; [|done]. right. by split_and!.
  - intros [= <- <- <-]. cbn [cap set_sz sz]. by auto.
Qed.
Lemma doubled c : c <> (if c =? 0 then 8 else c * 2).
Proof. destruct (Nat.eqb_spec c 0); lia. Qed.
Lemma alloc_billed s ans s' o n : alloc_back_c alloc seal s ans = Ok (s', o, n) -> billed s s' n.
Proof.
  assert (forall s1 s2 o n, map_alloc_back_c alloc s1 ans = Ok (s2, o, n) -> billed s1 s2 n) as Hone.
  { intros s1 s2 o1 n1 X. apply back_billed in X as [[X|(X1 & X2 & X3 & X4)] _]; [by left|]. right.
    rewrite X3. split_and!; try done. apply doubled. }
  unfold alloc_back_c. destruct (Nat.eqb_spec (sz s) 0) as [E|E]; [|apply Hone].
  intros X. apply tbind_Ok in X as ([s1 [i|]] & k1 & k2 & X1 & X & ->).
  - apply back_billed in X1 as [B1 B2]. pose proof (B2 ltac:(done)) as B3. apply WordSame.bind_Ok in X as (s2 & Hse & X).
    apply seal_cap in Hse as [C1 C2]. apply back_billed in X as [D _]. unfold billed.
    destruct B1 as [(B1 & ->)|(B1 & B5 & B6 & ->)].
    + rewrite C1, B1 in D. destruct D as [D|(D1 & D2 & D3 & ->)]; [left; lia|right]. rewrite D3. split_and!; try done. apply doubled.
    + rewrite <- B5, E in B6. cbn in B6. destruct D as [(D1 & ->)|(D1 & D2 & _)]; [|lia]. right. split_and!; try done; lia.
  - injection X as <- <- <-. rewrite Nat.add_0_r. by apply Hone in X1.
Qed.
Lemma insert_billed s h u ans s' o n : maybe_alloc_insert_c alloc seal link s h u ans = Ok (s', o, n) -> billed s s' n.
Proof.
  intros X. apply tbind_Ok in X as ([s1 [i|]] & k1 & k2 & X1 & X & ->); apply alloc_billed in X1.
  - apply plain_Ok in X as [X ->]. apply WordSame.bind_Ok in X as (s2 & W & X). apply write_cap in W. apply link_cap in X.
    unfold billed in *. by rewrite Nat.add_0_r, X, W.
  - injection X as <- <- <-. by rewrite Nat.add_0_r.
Qed.
Lemma literal_billed s h u ans s' o n : literal_insert_c alloc seal link s h u ans = Ok (s', o, n) -> billed s s' n.
Proof.
  intros X. apply tbind_Ok in X as ([s1 [i|]] & k1 & k2 & X1 & X & ->); apply alloc_billed in X1.
  - apply plain_Ok in X as [X ->]. apply WordSame.bind_Ok in X as (s2 & W & X). apply WordSame.bind_Ok in X as ([s3 o3] & L & [= <- <-]).
    apply write_cap in W. apply link_cap in L. unfold billed in *. by rewrite Nat.add_0_r, L, W.
  - injection X as <- <- <-. by rewrite Nat.add_0_r.
Qed.
Definition cheap s s' (n : nat) : Prop := n = 0 \/ billed s s' n.
Lemma cheap_find s s1 s' n : cap s1 = cap s -> billed s1 s' n -> cheap s s' n.
Proof. unfold cheap, billed. intros ->. auto. Qed.

Local Ltac peel := repeat match goal with
  | X : tbind _ _ = Ok _ |- _ => apply tbind_Ok in X as ([] & ? & ? & ? & X & ->)
  | X : (_ ← _; _) = Ok _ |- _ => apply WordSame.bind_Ok in X as (? & ? & X)
  | X : Ok _ = Ok _ |- _ => first [injection X as <- <- <-|injection X as <- <-]
  | X : plain _ = Ok _ |- _ => apply plain_Ok in X as [? ->]
  | X : context [match ?x with _ => _ end] |- _ => destruct x
  end.
Lemma step_cheap s o s' r n : step_c s o = Ok (s', r, n) -> cheap s s' n.
Proof.
  intros X. destruct o; cbn [map_step_c] in X; try (apply plain_Ok in X as [_ ->]; by left);
   unfold insert_c, try_insert_c, insert_or_assign_c, or_insert_c, insert_entry_c, or_insert_w_c, insert_entry_w_c,
      try_insert_w_c, insert_or_assign_w_c, flat_entry in X.
  all: peel; repeat match goal with E : 0 = ?x |- _ => subst x end; cbn [te hint] in *; rewrite ?Nat.add_0_r; try (by left).
  all: eapply cheap_find; [eapply find_cap; eassumption|].
  all: first [eapply insert_billed; eassumption|eapply literal_billed; eassumption].
Qed.

(** One call as the user sees it: what was saved pays for the growth. *)
Context (cmp : K -> K -> comparison) (c : fcontract).
Implicit Types A : fview K V.
Definition roomy A : Prop := count A = 0 \/ count A < room A.
Definition put_by A : nat := if room A =? 0 then 0 else 2 * count A + 1 - room A.
Definition bill A A' : nat := if room A' =? room A then 0 else room A.

Lemma added_pays A l1 l2 kv ans p A' : roomy A -> elems (fv A) = l1 ++ l2 -> fadded c A l1 l2 kv ans p A' ->
  roomy A' /\ bill A A' + put_by A' <= 2 + put_by A.
Proof.
  intros Hr He Ha. assert (forall r, count (pushed A l1 l2 kv r) = S (count A)) as Hc.
  { intros r. unfold count, pushed. cbn. rewrite He, !app_length. cbn. lia. }
  destruct Ha; unfold roomy, bill, put_by in *; rewrite ?Hc; cbn [room pushed].
  - split; [lia|]. rewrite Nat.eqb_refl. destruct (Nat.eqb_spec (room A) 0); lia.
  - destruct (Nat.eqb_spec (room A) 0) as [Z|Z].
    + rewrite Z. cbn. lia.
    + destruct (Nat.eqb_spec (2 * room A) (room A)); [lia|]. destruct (Nat.eqb_spec (2 * room A) 0); lia.
  - rewrite Nat.eqb_refl. split; [done|]. lia.
Qed.
Lemma same_pays A A' : roomy A -> room A' = room A -> count A' <= count A -> roomy A' /\ bill A A' + put_by A' <= put_by A.
Proof.
  unfold roomy, bill, put_by. intros Hr -> Hc. rewrite Nat.eqb_refl. split; [lia|]. destruct (room A =? 0); lia.
Qed.
Lemma call_pays A o r A' : roomy A -> fcall cmp c A o r A' -> roomy A' /\ bill A A' + put_by A' <= 2 * adds o + put_by A.
Proof.
  intros Hr Hc.
  assert (room A' = room A -> count A' <= count A -> roomy A' /\ bill A A' + put_by A' <= 2 * adds o + put_by A) as Hs.
  { intros H1 H2. destruct (same_pays A A' Hr H1 H2). split; [done|lia]. }
  destruct Hc; try (apply Hs; [done|]; try done).
  all: try (match goal with X : absent_at _ _ _ _ _ |- _ => destruct X as (X & _) end; cbn [adds]; eapply added_pays; eassumption).
  all: unfold count, fremoved, put in *; cbn in *; try lia.
  all: match goal with X : present_at _ _ _ _ _ _ |- _ => destruct X as (X & _); rewrite X end;
    rewrite map_length, !app_length; cbn; lia.
Qed.

Context (R : flat K V -> fview K V -> Prop) (R_cap : forall s A, R s A -> cap s = room A).
Context (R_step : forall s A o r A', R s A -> fcall cmp c A o r A' -> exists s' r', step s o = Ok (s', r') /\ fagree r r' /\ R s' A').
Lemma run_pays os : forall s A rs A', R s A -> roomy A -> fcalls cmp c A os rs A' ->
  exists s' rs' n, run_c s os = Ok (s', rs', n) /\ Forall2 fagree rs rs' /\ R s' A' /\
    n + put_by A' <= 2 * total adds os + put_by A /\ (alloc = false -> n = 0).
Proof.
  induction os as [|o os IH]; intros s A rs A' HR Hr Hc; inversion Hc as [|? ? r A1 ? rs1 ? H1 H2]; subst.
  { exists s, [], 0. cbn [map_run_c total]. split_and!; try done. }
  destruct (R_step s A o r A1 HR H1) as (s1 & r1 & E1 & Hg & HR1). rewrite <- map_step_erase in E1. apply untick_Ok in E1 as [n1 E1].
  destruct (call_pays A o r A1 Hr H1) as (Hr1 & Hb).
  destruct (IH s1 A1 rs1 A' HR1 Hr1 H2) as (s2 & rs2 & n2 & E2 & Hf & HR2 & Hn & Ha).
  exists s2, (r1 :: rs2), (n1 + (n2 + 0)). cbn [map_run_c total]. rewrite E1. cbn [tbind mbind outcome_bind obind]. rewrite E2.
  cbn [tbind mbind outcome_bind obind].
  assert (n1 <= bill A A1 /\ (alloc = false -> n1 = 0)) as [Hn1 Ha1].
  { apply step_cheap in E1. unfold bill. rewrite <- (R_cap s A HR), <- (R_cap s1 A1 HR1).
    destruct E1 as [->|[(E & ->)|(E1 & E & ->)]]; [split; [lia|done]|split; [lia|done]|].
    split; [|congruence]. destruct (Nat.eqb_spec (cap s1) (cap s)); [congruence|lia]. }
  split_and!; try done; [by constructor|lia|]. intros H0. rewrite (Ha H0), (Ha1 H0). done.
Qed.
Lemma history_pays m s rs os A' : R s (fstart m) -> fcalls cmp c (fstart m) os rs A' ->
  exists s' rs' n, run_c s os = Ok (s', rs', n) /\ Forall2 fagree rs rs' /\ n <= 2 * total adds os /\ (alloc = false -> n = 0).
Proof.
  intros HR Hc. destruct (run_pays os s _ rs A' HR (or_introl eq_refl) Hc) as (s' & rs' & n & H1 & H2 & _ & H3 & H4).
  exists s', rs', n. split_and!; try done. unfold put_by in H3. cbn [count fstart fv room elems length] in H3.
  destruct (Nat.eqb_spec m 0); lia.
Qed.
End flat.

Lemma R_caps {K V} cmp good (s : flat K V) A : FlatProofs.repr cmp good s A -> cap s = room A.
Proof. by intros (t & _ & [((? & _) & _)|(((? & _) & _) & _)]). Qed.

Section maps.
Context {K V : Type} (cmp : K -> K -> comparison) (Hcmp : total_preorder cmp) (alloc : bool).

Lemma splay_cap (s : flat K V) root k s' r : FomModel.splay_f cmp s root k = Ok (s', r) -> cap s' = cap s.
Proof. intros X. by apply WordSame.bind_Ok in X as ([h r1] & _ & [= <- <-]). Qed.
Lemma fom_find_cap (s : flat K V) k s' o h : FomModel.fom_find cmp s k = Ok (s', o, h) -> cap s' = cap s.
Proof.
  unfold FomModel.fom_find. destruct (_ =? 0); [by intros [= <- <- <-]|]. intros X.
  apply WordSame.bind_Ok in X as ([s1 r1] & X1 & X). apply splay_cap in X1.
  apply WordSame.bind_Ok in X as (q & _ & X). destruct (TreeModel.is_eq q); by injection X as <- <- <-.
Qed.
Lemma fom_link_cap (s : flat K V) h n s' o : FomModel.fom_link cmp s h n = Ok (s', o) -> cap s' = cap s.
Proof.
  intros X. apply WordSame.bind_Ok in X as (g & _ & X). destruct (_ =? 2); [by injection X as <- <-|].
  apply WordSame.bind_Ok in X as (kv & _ & X). apply WordSame.bind_Ok in X as ([s1 r1] & X1 & X). apply splay_cap in X1.
  apply WordSame.bind_Ok in X as (q & _ & X). destruct (TreeModel.is_eq q); [by injection X as <- <-|].
  apply WordSame.bind_Ok in X as (g1 & _ & X). by injection X as <- <-.
Qed.
Lemma frm_find_cap (s : flat K V) k s' o h : FrmModel.frm_find cmp s k = Ok (s', o, h) -> cap s' = cap s.
Proof. intros X. by apply WordSame.bind_Ok in X as (q & _ & [= <- <- <-]). Qed.
Lemma frm_link_cap (s : flat K V) h n s' o : FrmModel.frm_link s h n = Ok (s', o) -> cap s' = cap s.
Proof. intros X. by apply WordSame.bind_Ok in X as (q & _ & [= <- <-]). Qed.

Lemma fom_grows n junk (ops : list (flat_op K V)) rs A : fcalls cmp (FomProofs.fom_contract alloc) (fstart n) ops rs A ->
  exists s rs' k, fom_run_c cmp alloc (flat_init n junk) ops = Ok (s, rs', k) /\ Forall2 fagree rs rs' /\
    k <= 2 * total adds ops /\ (alloc = false -> k = 0).
Proof.
  apply (history_pays alloc FomModel.fom_seal (FomModel.fom_find cmp) (FomModel.fom_link cmp) _ _ _ _ _ _) with (R := FlatProofs.repr cmp FomProofs.tree_ok).
  - intros s s' X. by apply WordSame.fom_seal_sizes in X as [? ?].
  - apply fom_find_cap.
  - apply fom_link_cap.
  - apply R_caps.
  - intros s B o r B' HR Hc. destruct (FomProofs.fom_run_Ok cmp Hcmp alloc s B [o] [r] B' HR) as (s' & rs' & H1 & H2 & H3).
    { econstructor; [done|constructor]. }
    unfold FomModel.fom_run in H1. cbn [flat_run] in H1. apply WordSame.bind_Ok in H1 as ([s1 r1] & H1 & [= <- <-]).
    exists s1, r1. split; [done|]. split; [|done]. by apply Forall2_cons in H2 as [? _].
  - apply FlatProofs.repr_init.
Qed.
Lemma frm_grows n junk (ops : list (flat_op K V)) rs A : fcalls cmp (FrmProofs.frm_contract alloc) (fstart n) ops rs A ->
  exists s rs' k, frm_run_c cmp alloc (flat_init n junk) ops = Ok (s, rs', k) /\ Forall2 fagree rs rs' /\
    k <= 2 * total adds ops /\ (alloc = false -> k = 0).
Proof.
  apply (history_pays alloc FrmModel.frm_seal (FrmModel.frm_find cmp) FrmModel.frm_link _ _ _ _ _ _) with (R := FlatProofs.repr cmp (WavlRank.wavl_ok 0)).
  - intros s s' X. by apply WordSame.frm_seal_sizes in X as [? ?].
  - apply frm_find_cap.
  - apply frm_link_cap.
  - apply R_caps.
  - intros s B o r B' HR Hc. destruct (FrmProofs.frm_run_Ok cmp Hcmp alloc s B [o] [r] B' HR) as (s' & rs' & H1 & H2 & H3).
    { econstructor; [done|constructor]. }
    unfold FrmModel.frm_run in H1. cbn [flat_run] in H1. apply WordSame.bind_Ok in H1 as ([s1 r1] & H1 & [= <- <-]).
    exists s1, r1. split; [done|]. split; [|done]. by apply Forall2_cons in H2 as [? _].
  - apply FlatProofs.repr_init.
Qed.
End maps.
