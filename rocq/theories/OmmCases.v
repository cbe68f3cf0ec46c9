(** The specification of the multimap can be computed, and what follows from its
    histories: equal keys in order of arrival, ranges, draining, clearing. *)
From Coq Require Import Sorting.Sorted.
From stdpp Require Import base numbers option gmap fin_maps list sorting.
From Verif Require Import Common LinkHeap PathLemmas OrderSpec TreeModel TreeProofs SplayModel MapOps OmModel OmmOps OmmModel
  OmmSpec OmmProofs OmmRings OmmGroups OmmWalk OmmCalls OmmHistories.

Local Ltac bind := cbn [mbind outcome_bind obind].

(** ** The specification, computed *)

Fixpoint cut (p : nat -> bool) (l : list nat) : option (list nat * nat * list nat) :=
  match l with
  | [] => None
  | x :: l =>
    if p x then Some ([], x, l)
    else match cut p l with Some (l1, y, l2) => Some (x :: l1, y, l2) | None => None end
  end.

Lemma cut_Some p l l1 x l2 : cut p l = Some (l1, x, l2) -> l = l1 ++ x :: l2 /\ p x = true /\ Forall (fun y => p y = false) l1.
Proof.
  revert l1. induction l as [|y l IH]; intros l1 H; cbn in H; [done|].
  destruct (p y) eqn:E; [by simplify_eq|]. destruct (cut p l) as [[[m1 z] m2]|]; [|done]. simplify_eq.
  destruct (IH m1 eq_refl) as (-> & ? & ?). split_and!; [done|done|]. by constructor.
Qed.
Lemma cut_None p l : cut p l = None -> Forall (fun y => p y = false) l.
Proof.
  induction l as [|y l IH]; intros H; cbn in H; [done|].
  destruct (p y) eqn:E; [done|]. destruct (cut p l) as [[[m1 z] m2]|]; [done|]. constructor; auto.
Qed.

Section spec.
Context {K V : Type} (cmp : K -> K -> comparison) (c : contract).
Implicit Types (A : view K V).

Definition keyed_b A (o : comparison) (k : K) (x : nat) : bool :=
  match vals A !! x with Some kv => cmp_is (cmp k (fst kv)) o | None => false end.
Lemma keyed_b_spec A o k x : keyed_b A o k x = true <-> keyed cmp A o k x.
Proof.
  unfold keyed_b, keyed. destruct (vals A !! x) as [kv|].
  - split; [intros H; exists kv; split; [done|]; by destruct (cmp k (fst kv)), o|].
    intros (kv' & [= <-] & <-). by destruct (cmp k (fst kv)).
  - split; [done|]. by intros (? & ? & _).
Qed.
Lemma keyed_b_not A o k x : keyed_b A o k x = false <-> ~ keyed cmp A o k x.
Proof. rewrite <- keyed_b_spec. by destruct (keyed_b A o k x). Qed.

Global Instance keyed_dec A o k x : Decision (keyed cmp A o k x).
Proof. destruct (keyed_b A o k x) eqn:E; [left; by apply keyed_b_spec|right; by apply keyed_b_not]. Defined.

Definition find_b A (k : K) : option (list nat * nat * list nat) := cut (keyed_b A Eq k) (queue A).
Lemma find_b_Some A k l1 x l2 : find_b A k = Some (l1, x, l2) -> present cmp A k l1 x l2.
Proof.
  intros (Hq & Hx & Hl)%cut_Some. split_and!; [done|by apply keyed_b_spec|].
  apply (Forall_impl _ _ _ Hl). intros y. apply keyed_b_not.
Qed.
Lemma find_b_None A k : find_b A k = None -> absent cmp A k.
Proof. intros Hl%cut_None. apply (Forall_impl _ _ _ Hl). intros y. apply keyed_b_not. Qed.

Definition extreme_b A (d : bool) : option (list nat * nat * list nat) :=
  let o := if d then Gt else Lt in
  let last x := match vals A !! x with
    | Some kx => forallb (fun y => keyed_b A o (fst kx) y || keyed_b A Eq (fst kx) y) (queue A)
    | None => false end in
  match cut last (queue A) with
  | Some (l1, x, l2) =>
    match vals A !! x with
    | Some kx => if forallb (keyed_b A o (fst kx)) l1 then Some (l1, x, l2) else None
    | None => None
    end
  | None => None
  end.
Lemma extreme_b_Some A d l1 x l2 : extreme_b A d = Some (l1, x, l2) -> extreme cmp A d l1 x l2.
Proof.
  unfold extreme_b. destruct (cut _ _) as [[[m1 y] m2]|] eqn:E; [|done]. apply cut_Some in E as (Hq & Hy & _).
  destruct (vals A !! y) as [ky|] eqn:Ey; [|done]. destruct (forallb _ m1) eqn:E1; [|done]. intros [= <- <- <-].
  split; [done|]. exists ky. split; [done|]. rewrite forallb_forall in E1, Hy. split; apply Forall_forall; intros z Hz.
  - apply keyed_b_spec, E1. by apply elem_of_list_In.
  - assert (z ∈ queue A) as Hin by (rewrite Hq, elem_of_app; right; by right).
    apply elem_of_list_In, Hy, orb_true_iff in Hin as [Hin|Hin]; [left|right]; by apply keyed_b_spec.
Qed.

(** Sorting by insertion; that the result is a listing is then checked. *)
Fixpoint put_in A (d : bool) (x : nat) (l : list nat) : list nat :=
  match l with
  | [] => [x]
  | y :: l' =>
    match vals A !! y with
    | Some ky => if keyed_b A (if d then Gt else Lt) (fst ky) x then x :: l else y :: put_in A d x l'
    | None => x :: l
    end
  end.
Definition order A (d : bool) : list nat := fold_left (fun l x => put_in A d x l) (queue A) [].
Lemma put_in_perm A d x l : put_in A d x l ≡ₚ x :: l.
Proof.
  induction l as [|y l IH]; [done|]. cbn [put_in]. destruct (vals A !! y); [|done]. destruct (keyed_b _ _ _ _); [done|].
  rewrite IH. constructor.
Qed.
Lemma order_perm A d : order A d ≡ₚ queue A.
Proof.
  unfold order. cut (forall q l, fold_left (fun l x => put_in A d x l) q l ≡ₚ l ++ q).
  { intros H. rewrite (H (queue A) []). done. }
  induction q as [|x q IH]; intros l; cbn [fold_left]; [by rewrite app_nil_r|]. rewrite IH, put_in_perm.
  by rewrite <- Permutation_middle.
Qed.

Definition before_b (q : list nat) (x y : nat) : bool :=
  match cut (Nat.eqb x) q with Some (_, _, l2) => bool_decide (y ∈ l2) | None => false end.
Lemma before_b_spec q x y : before_b q x y = true -> [x; y] `sublist_of` q.
Proof.
  unfold before_b. destruct (cut _ q) as [[[l1 z] l2]|] eqn:E; [|done]. apply cut_Some in E as (-> & <-%Nat.eqb_eq & _).
  intros (m1 & m2 & ->)%bool_decide_eq_true%elem_of_list_split. apply sublist_pair. by exists l1, m1, m2.
Qed.
Definition listed_b A (d : bool) (x y : nat) : bool :=
  match vals A !! x with
  | Some kx => keyed_b A (if d then Lt else Gt) (fst kx) y || keyed_b A Eq (fst kx) y && before_b (queue A) x y
  | None => false
  end.
Fixpoint listing_b A (d : bool) (l : list nat) : bool :=
  match l with [] => true | x :: l => forallb (listed_b A d x) l && listing_b A d l end.
Definition listing_c A (d : bool) : option (list nat) :=
  let l := order A d in if listing_b A d l then Some l else None.
Lemma listing_c_Some A d l : listing_c A d = Some l -> listing cmp A d l.
Proof.
  unfold listing_c. destruct (listing_b A d (order A d)) eqn:E; [|done]. intros [= <-]. split; [apply order_perm|].
  revert E. generalize (order A d). induction l as [|x l IH]; cbn [listing_b]; intros E; [constructor|].
  apply andb_prop in E as [E1 E2]. constructor; [auto|]. rewrite forallb_forall in E1. apply Forall_forall. intros y Hy.
  apply elem_of_list_In, E1 in Hy. unfold listed_b in Hy. destruct (vals A !! x) as [kx|]; [|done].
  apply orb_true_iff in Hy as [Hy|[Hy Hb]%andb_prop]; apply keyed_b_spec in Hy as (ky & Hky & Hc); exists kx, ky.
  - split_and!; [done|done|]. left. by destruct d.
  - split_and!; [done|done|]. right. split; [done|]. by apply before_b_spec.
Qed.

Definition first_b (p : nat -> bool) (l : list nat) : nat := hd 0 (List.filter p l).
Lemma first_b_spec (P : nat -> Prop) p l : (forall z, p z = true <-> P z) -> first P l (first_b p l).
Proof.
  intros H. unfold first_b. induction l as [|x l IH]; [constructor|]. cbn. destruct (p x) eqn:E.
  - apply first_here. by apply H.
  - apply first_later; [|done]. rewrite <- H. by rewrite E.
Qed.

Definition data_b A (l : list nat) : option (list (nat * (K * V))) := mapM (fun x => kv ← vals A !! x; Some (x, kv)) l.
Lemma data_b_Some A l ps : data_b A l = Some ps -> with_data A l ps.
Proof.
  unfold data_b. rewrite mapM_Some. unfold with_data. induction 1 as [|x p l ps Hx _ [IH1 IH2]]; [done|].
  destruct (vals A !! x) as [kv|] eqn:E; [|done]. cbn in Hx. simplify_eq. cbn. split; [by f_equal|]. by constructor.
Qed.

Definition unused_b A (p : nat) : bool :=
  negb (p =? 0) && negb (p =? 1) && match vals A !! p with None => true | Some _ => false end.
Lemma unused_b_spec A p : unused_b A p = true -> unused A p.
Proof.
  unfold unused_b. intros [[H0%negb_true_iff H1%negb_true_iff]%andb_prop H]%andb_prop.
  apply Nat.eqb_neq in H0, H1. split_and!; [done|done|]. by destruct (vals A !! p).
Qed.

Definition arrive A (copy : bool) (e ans : nat) (kv : K * V) : option (nat * view K V) :=
  if copy then
    if ans =? 0 then Some (0, A) else if unused_b A ans then Some (ans, push (obtain A ans kv) ans) else None
  else if negb (bool_decide (e ∈ queue A)) && (negb (allocates c) || bool_decide (e ∈ mem A))
  then Some (e, push A e) else None.
Lemma arrive_Some A copy e ans kv p A' : arrive A copy e ans kv = Some (p, A') -> arrives c copy A e ans kv p A'.
Proof.
  unfold arrive. destruct copy.
  - destruct (Nat.eqb_spec ans 0) as [-> |Hne]; [intros [= <- <-]; by apply arrives_refused|].
    destruct (unused_b A ans) eqn:E; [|done]. intros [= <- <-]. apply arrives_copy; [done|]. by apply unused_b_spec.
  - destruct (_ && _) eqn:E; [|done]. intros [= <- <-]. apply andb_prop in E as [E1%negb_true_iff E2].
    apply arrives_own; [done|by apply bool_decide_eq_false in E1|]. intros Ha. rewrite Ha in E2. by apply bool_decide_eq_true in E2.
Qed.
Definition make A (ans : nat) (kv : K * V) : option (nat * view K V) :=
  if allocates c && negb (ans =? 0)
  then if unused_b A ans then Some (ans, push (obtain A ans kv) ans) else None
  else Some (0, A).
Lemma make_Some A ans kv p A' : make A ans kv = Some (p, A') -> made c A ans kv p A'.
Proof.
  unfold make. destruct (allocates c && negb (ans =? 0)) eqn:E.
  - apply andb_prop in E as [E _]. destruct (unused_b A ans) eqn:Eu; [|done]. intros [= <- <-]. apply made_new; [done|].
    by apply unused_b_spec.
  - intros [= <- <-]. apply made_refused. apply andb_false_iff in E as [E|E%negb_false_iff]; [by left|right]. by apply Nat.eqb_eq.
Qed.

Definition inside_b A (o : comparison) (a : K) (z : nat) : bool := keyed_b A o a z || keyed_b A Eq a z.

Definition exec A (o : mm_op K V) : option (mm_res K V * view K V) :=
  match o with
  | ONew e k v l r p b =>
    if unused_b A e then Some (OPtr e, if b then obtain A e (k, v) else set_val A e (k, v)) else None
  | OContains k =>
    match find_b A k with
    | Some _ => Some (OBool true, A)
    | None => if ask_empty c || negb (bool_decide (queue A = [])) then Some (OBool false, A) else None
    end
  | OGet k => match find_b A k with Some (_, x, _) => Some (OPtr x, A) | None => Some (OPtr 0, A) end
  | OInsert e ans =>
    kv ← vals A !! e;
    if allocates c && (ans =? 0) then Some (OEnt false true 0, A)
    else
      '(p, A') ← arrive A (allocates c) e ans kv;
      if p =? 0 then None
      else Some (OEnt (match find_b A (fst kv) with Some _ => true | None => false end) false p, A')
  | OTryInsert e ans =>
    kv ← vals A !! e;
    match find_b A (fst kv) with
    | Some (_, x, _) => Some (OEnt true false x, A)
    | None => '(p, A') ← arrive A (copying c) e ans kv; Some (OEnt false (refused p) p, A')
    end
  | OAssign e ans =>
    kv ← vals A !! e;
    match find_b A (fst kv) with
    | Some (_, x, _) => if bool_decide (e ∈ queue A) then None else Some (OEnt true false x, set_val A x kv)
    | None => '(p, A') ← arrive A (copying c) e ans kv; Some (OEnt false (refused p) p, A')
    end
  | ORemove e =>
    kv ← vals A !! e;
    match find_b A (fst kv) with
    | Some (l1, x, l2) =>
      if allocates c then
        if bool_decide (e ∈ queue A) then None
        else old ← vals A !! x; Some (OEnt true false e, set_val (leaves c A l1 x l2) e old)
      else Some (OEnt true false x, leaves c A l1 x l2)
    | None => Some (OEnt false false 0, A)
    end
  | OEntry k => match find_b A k with Some (_, x, _) => Some (OEnt true false x, A) | None => Some (OEnt false false 0, A) end
  | OOrInsert k e ans =>
    match find_b A k with
    | Some (_, x, _) => Some (OPtr x, A)
    | None => kv ← vals A !! e; '(p, A') ← arrive A (copying c) e ans kv; Some (OPtr p, A')
    end
  | OInsertEntry k e ans => kv ← vals A !! e; '(p, A') ← arrive A (copying c) e ans kv; Some (OPtr p, A')
  | OAndModify k f =>
    match find_b A k with
    | Some (_, x, _) => kv ← vals A !! x; Some (OPtr x, set_val A x (fst kv, f (snd kv)))
    | None => Some (OPtr 0, A)
    end
  | ORemoveEntry k =>
    match find_b A k with
    | Some (l1, x, l2) => Some (OEnt true false (if allocates c then 0 else x), leaves c A l1 x l2)
    | None => Some (OEnt false false 0, A)
    end
  | OOrInsertW k k' v ans =>
    match find_b A k with
    | Some (_, x, _) => Some (OPtr x, A)
    | None => '(p, A') ← make A ans (k', v); Some (OPtr p, A')
    end
  | OInsertEntryW k k' v ans => '(p, A') ← make A ans (k', v); Some (OPtr p, A')
  | OTryInsertW k v ans =>
    match find_b A k with
    | Some (_, x, _) => Some (OEnt true false x, A)
    | None => '(p, A') ← make A ans (k, v); Some (OEnt false (refused p || macro_err c) p, A')
    end
  | OAssignW k v ans =>
    match find_b A k with
    | Some (_, x, _) => Some (OEnt true false x, set_val A x (k, v))
    | None => '(p, A') ← make A ans (k, v); Some (OEnt false (refused p || macro_err c) p, A')
    end
  | OMax =>
    if bool_decide (queue A = []) then if end_absent c then Some (OPtr 0, A) else None
    else '(_, x, _) ← extreme_b A true; Some (OPtr x, A)
  | OMin =>
    if bool_decide (queue A = []) then if end_absent c then Some (OPtr 0, A) else None
    else '(_, x, _) ← extreme_b A false; Some (OPtr x, A)
  | OPopMax =>
    if bool_decide (queue A = []) then Some (OResult INPUT_ERR, A)
    else '(l1, x, l2) ← extreme_b A true; Some (OResult OK, leaves c A l1 x l2)
  | OPopMin =>
    if bool_decide (queue A = []) then Some (OResult INPUT_ERR, A)
    else if negb (allocates c) || min_frees c
    then '(l1, x, l2) ← extreme_b A false; Some (OResult OK, leaves c A l1 x l2) else None
  | OExtract e =>
    if bool_decide (queue A = []) then _ ← vals A !! e; Some (OPtr 0, A)
    else '(l1, x, l2) ← cut (Nat.eqb e) (queue A); Some (OPtr e, set_queue A (l1 ++ l2))
  | OUpdate e f =>
    if bool_decide (queue A = []) then _ ← vals A !! e; Some (OBool false, A)
    else
      '(l1, x, l2) ← cut (Nat.eqb e) (queue A);
      kv ← vals A !! e;
      Some (OBool true, push (set_val (set_queue A (l1 ++ l2)) e (f kv)) e)
  | OBegin => l ← listing_c A false; Some (OPtr (hd 0 l), A)
  | ORBegin => l ← listing_c A true; Some (OPtr (hd 0 l), A)
  | ONext e => l ← listing_c A false; '(_, _, l2) ← cut (Nat.eqb e) l; Some (OPtr (hd 0 l2), A)
  | ORNext e => l ← listing_c A true; '(_, _, l2) ← cut (Nat.eqb e) l; Some (OPtr (hd 0 l2), A)
  | ORange a b =>
    l ← listing_c A false; Some (OPair (first_b (inside_b A Gt a) l) (first_b (keyed_b A Gt b) l), A)
  | ORRange a b =>
    l ← listing_c A true; Some (OPair (first_b (inside_b A Lt a) l) (first_b (keyed_b A Lt b) l), A)
  | OClear fn =>
    l ← listing_c A true; ps ← data_b A l;
    Some (ODestroyed OK (if fn then ps else []),
      if allocates c then View [] (foldr delete (vals A) l) (mem A ∖ list_to_set l) else set_queue A [])
  | OSize => Some (ONum (Z.of_nat (length (queue A))), A)
  | OIsEmpty => Some (OBool (length (queue A) =? 0), A)
  | OValidate => Some (OBool true, A)
  end.

Lemma inside_b_spec A o a z : inside_b A o a z = true <-> keyed cmp A o a z \/ keyed cmp A Eq a z.
Proof. unfold inside_b. rewrite orb_true_iff. by rewrite !keyed_b_spec. Qed.

Local Ltac crack :=
  repeat match goal with
  | H : None = Some _ |- _ => discriminate H
  | H : Some _ = Some _ |- _ => injection H as <- <-
  | H : _ ≫= _ = Some _ |- _ => apply bind_Some in H as (? & ? & H)
  | H : context [match find_b ?A ?k with _ => _ end] |- _ =>
      let E := fresh "E" in destruct (find_b A k) as [[[? ?] ?]|] eqn:E; [apply find_b_Some in E|apply find_b_None in E]
  | H : (let '(_, _) := ?x in _) = Some _ |- _ => destruct x
  | H : arrive _ _ _ _ _ = Some (_, _) |- _ => apply arrive_Some in H
  | H : make _ _ _ = Some (_, _) |- _ => apply make_Some in H
  | H : extreme_b _ _ = Some (_, _, _) |- _ => apply extreme_b_Some in H
  | H : listing_c _ _ = Some _ |- _ => apply listing_c_Some in H
  | H : data_b _ _ = Some _ |- _ => apply data_b_Some in H
  | H : cut (Nat.eqb _) _ = Some (_, _, _) |- _ => apply cut_Some in H as (? & <-%Nat.eqb_eq & _)
  | H : (if bool_decide ?P then _ else _) = Some _ |- _ => destruct (bool_decide_reflect P)
  end.

Lemma exec_sound A o r A' : exec A o = Some (r, A') -> call cmp c A o r A'.
Proof.
  destruct o; cbn [exec]; intros H.
  - destruct (unused_b A e) eqn:E; [|done]. apply unused_b_spec in E. crack. by constructor.
  - crack; [by eapply call_contains_yes|]. destruct (ask_empty c || _) eqn:E1; [|done]. crack. apply call_contains_no; [done|].
    apply orb_true_iff in E1 as [?|E1%negb_true_iff]; [by left|right]. by apply bool_decide_eq_false in E1.
  - crack; [by eapply call_get_yes|by apply call_get_no].
  - apply bind_Some in H as (kv & Hkv & H). destruct (allocates c && (ans =? 0)) eqn:E.
    { apply andb_prop in E as [? ?%Nat.eqb_eq]. crack. by eapply call_insert_refused. }
    apply bind_Some in H as ([p A1] & Ha & H). apply arrive_Some in Ha. destruct (Nat.eqb_spec p 0); [done|]. crack.
    destruct (find_b A (fst kv)) as [[[? ?] ?]|] eqn:E'; [apply find_b_Some in E'|apply find_b_None in E'].
    + by eapply call_insert_old.
    + by eapply call_insert_new.
  - crack; [by eapply call_try_old|by eapply call_try_new].
  - crack; [by eapply call_assign_old|by eapply call_assign_new].
  - apply bind_Some in H as (kv & Hkv & H).
    destruct (find_b A (fst kv)) as [[[? ?] ?]|] eqn:E; [apply find_b_Some in E|apply find_b_None in E].
    + destruct (allocates c) eqn:Ea; crack; [by eapply call_remove_free|by eapply call_remove_own].
    + crack. by eapply call_remove_no.
  - crack; [by eapply call_entry_yes|by apply call_entry_no].
  - crack; [by eapply call_or_insert_old|by eapply call_or_insert_new].
  - crack. by eapply call_insert_entry.
  - crack; [by eapply call_modify_yes|by apply call_modify_no].
  - crack; [by eapply call_remove_entry_yes|by apply call_remove_entry_no].
  - crack; [by eapply call_or_insert_w_old|by apply call_or_insert_w_new].
  - crack. by apply call_insert_entry_w.
  - crack; [by eapply call_try_w_old|by apply call_try_w_new].
  - crack; [by eapply call_assign_w_old|by apply call_assign_w_new].
  - crack; [destruct (end_absent c) eqn:Ee; [|done]; crack; by apply call_max_empty|by eapply call_max].
  - crack; [destruct (end_absent c) eqn:Ee; [|done]; crack; by apply call_min_empty|by eapply call_min].
  - crack; [by apply call_pop_max_empty|by eapply call_pop_max].
  - destruct (bool_decide_reflect (queue A = [])); [crack; by apply call_pop_min_empty|].
    destruct (negb (allocates c) || min_frees c) eqn:E; [|done]. crack. eapply call_pop_min; [done|].
    apply orb_true_iff in E as [?%negb_true_iff|?]; auto.
  - crack; [by eapply call_extract_empty|by eapply call_extract].
  - crack; [by eapply call_update_empty|by eapply call_update].
  - crack. by apply call_begin.
  - crack. by apply call_rbegin.
  - crack. subst. by eapply call_next.
  - crack. subst. by eapply call_rnext.
  - crack. eapply call_range; [done|apply first_b_spec..]; intros z; [apply inside_b_spec|apply keyed_b_spec].
  - crack. eapply call_rrange; [done|apply first_b_spec..]; intros z; [apply inside_b_spec|apply keyed_b_spec].
  - crack. by apply call_clear.
  - crack. apply call_size.
  - crack. apply call_is_empty.
  - crack. apply call_validate.
Qed.

Fixpoint execs A (os : list (mm_op K V)) : option (list (mm_res K V) * view K V) :=
  match os with
  | [] => Some ([], A)
  | o :: os =>
    match exec A o with
    | Some (r, A1) => match execs A1 os with Some (rs, A2) => Some (r :: rs, A2) | None => None end
    | None => None
    end
  end.
Lemma execs_sound A os rs A' : execs A os = Some (rs, A') -> calls cmp c A os rs A'.
Proof.
  revert A rs. induction os as [|o os IH]; intros A rs H; cbn in H; [simplify_eq; constructor|].
  destruct (exec A o) as [[r A1]|] eqn:E; [|done]. destruct (execs A1 os) as [[rs1 A2]|] eqn:E'; [|done]. simplify_eq.
  econstructor; [by apply exec_sound|by apply IH].
Qed.
Lemma permitted os : (match execs start os with Some _ => true | None => false end) = true ->
  exists rs A, calls cmp c start os rs A.
Proof. destruct (execs start os) as [[rs A]|] eqn:E; [|done]. intros _. exists rs, A. by apply execs_sound. Qed.
End spec.

(** ** What histories show *)

Section histories.
Context {K V : Type} (cmp : K -> K -> comparison) (Hcmp : total_preorder cmp) (alloc : bool) (off : nat).
Implicit Types (s : om K V) (A : view K V).
Notation c := (kept alloc off).
Notation repr := (repr cmp alloc).
Notation run := (omm_run cmp alloc off om_init).

Lemma history_repr ops rs A : calls cmp c start ops rs A -> exists s, run ops = Ok (s, rs) /\ repr s A.
Proof. intros Hc. apply (run_Ok cmp Hcmp alloc off om_init start); [apply repr_init|done]. Qed.

Theorem history_covers ops rs A k : calls cmp c start ops rs A -> absent cmp A k \/ exists l1 x l2, present cmp A k l1 x l2.
Proof. intros Hc. destruct (history_repr ops rs A Hc) as (s & _ & Hr). by apply (present_or_absent cmp Hcmp alloc s). Qed.

(** Filtering a listing by key gives the order of arrival. *)
Lemma queue_sublists (q : list nat) : StronglySorted (fun x y => [x; y] `sublist_of` q) q.
Proof.
  cut (forall l, l `suffix_of` q -> StronglySorted (fun x y => [x; y] `sublist_of` q) l); [intros H; by apply H|].
  induction l as [|x l IH]; intros [m Hm]; constructor.
  - apply IH. exists (m ++ [x]). rewrite Hm. by rewrite <- app_assoc.
  - apply Forall_forall. intros y (l1 & l2 & ->)%elem_of_list_split. rewrite Hm. apply sublist_pair. by exists m, l1, l2.
Qed.
Lemma StronglySorted_filter {X} (R : X -> X -> Prop) (P : X -> Prop) `{!forall x, Decision (P x)} l :
  StronglySorted R l -> StronglySorted (fun x y => P x /\ P y /\ R x y) (filter P l).
Proof.
  induction 1 as [|x l Hl IH Hall]; [constructor|]. rewrite filter_cons. case_decide as Hx; [|done].
  constructor; [done|]. rewrite Forall_forall in Hall |- *. intros y [Hy Hin]%elem_of_list_filter. auto.
Qed.
Lemma listing_filter A d l k : NoDup (queue A) -> listing cmp A d l ->
  filter (keyed cmp A Eq k) l = filter (keyed cmp A Eq k) (queue A).
Proof.
  intros Hnd [Hp Hs].
  apply (StronglySorted_filter _ (keyed cmp A Eq k)) in Hs.
  assert (AntiSymm (=) (fun x y => [x; y] `sublist_of` queue A)) as Hanti.
  { intros x y Hxy Hyx. exfalso. by apply (sublist_pair_asym x y (queue A)). }
  apply (StronglySorted_unique (fun x y => [x; y] `sublist_of` queue A)).
  - revert Hs. generalize (filter (keyed cmp A Eq k) l). induction 1 as [|x m Hm IH Hall]; constructor; [done|].
    rewrite Forall_forall in Hall |- *. intros y Hy. destruct (Hall y Hy) as ((kx & Hkx & Hcx) & (ky & Hky & Hcy) & a & b & Ha & Hb & Hab).
    simplify_eq. rewrite (cmp_eq_l cmp Hcmp _ _ _ Hcx) in Hcy. rewrite Hcy in Hab. destruct d, Hab as [?|[_ ?]]; done.
  - pose proof (StronglySorted_filter _ (keyed cmp A Eq k) _ (queue_sublists (queue A))) as Hq.
    revert Hq. generalize (filter (keyed cmp A Eq k) (queue A)). induction 1 as [|x m Hm IH Hall]; constructor; [done|].
    rewrite Forall_forall in Hall |- *. intros y Hy. by destruct (Hall y Hy) as (_ & _ & ?).
  - by rewrite Hp.
Qed.

Lemma with_data_sorted A d l ps : listing cmp A d l -> with_data A l ps ->
  StronglySorted (fun p q => cmp (fst (snd p)) (fst (snd q)) <> (if d then Gt else Lt)) ps.
Proof.
  intros [_ Hs] [<- HF]. induction ps as [|p ps IH]; [constructor|]. cbn [map] in Hs.
  apply StronglySorted_inv in Hs as [Hs Hall]. apply Forall_cons in HF as [Hp HF]. constructor; [auto|].
  rewrite Forall_forall in Hall. rewrite Forall_forall in HF. apply Forall_forall. intros q Hq.
  destruct (Hall (fst q)) as (a & b & Ha & Hb & Hab); [apply elem_of_list_fmap; by exists q|].
  specialize (HF q Hq). cbn in HF. assert (a = snd p) as -> by congruence. assert (b = snd q) as -> by congruence.
  destruct d, Hab as [->|[-> _]]; done.
Qed.

(** Walks: each element once with its data, keys in order, equal keys in order of
    arrival. *)
Theorem history_walk ops rs A d : calls cmp c start ops rs A ->
  exists s ps, run ops = Ok (s, rs) /\ omm_iter s d = Ok ps /\ map fst ps ≡ₚ queue A /\
    Forall (fun p => vals A !! fst p = Some (snd p)) ps /\
    StronglySorted (fun p q => cmp (fst (snd p)) (fst (snd q)) <> (if d then Gt else Lt)) ps /\
    forall k, filter (keyed cmp A Eq k) (map fst ps) = filter (keyed cmp A Eq k) (queue A).
Proof.
  intros Hc. destruct (history_repr ops rs A Hc) as (s & Hrun & Hr). destruct (repr_listing cmp Hcmp alloc s A d Hr) as (l & ps & Hl & Hps).
  exists s, ps. split_and!; [done|by apply (iter_Ok cmp Hcmp alloc s A d l)|destruct Hps as [-> _]; apply Hl|apply Hps| |].
  - by apply (with_data_sorted A d l).
  - intros k. destruct Hps as [-> _]. apply (listing_filter A d l k); [|done]. by apply (repr_NoDup cmp alloc s).
Qed.

(** [z] lies between [a] and [b]. *)
Definition between A (a b : K) (z : nat) : Prop :=
  exists kv, vals A !! z = Some kv /\ cmp a (fst kv) <> Gt /\ cmp (fst kv) b <> Gt.

Lemma split_up {X} (R : X -> X -> Prop) (P : X -> Prop) `{!forall x, Decision (P x)} l :
  StronglySorted R l -> (forall x y, R x y -> P x -> P y) ->
  exists l1 l2, l = l1 ++ l2 /\ Forall (fun z => ~ P z) l1 /\ Forall P l2.
Proof.
  intros Hs Hup. induction Hs as [|x l Hs (l1 & l2 & -> & H1 & H2) Hall]; [by exists [], []|].
  destruct (decide (P x)) as [Hx|Hx].
  - exists [], (x :: l1 ++ l2). split_and!; [done|constructor|]. constructor; [done|].
    rewrite Forall_forall in Hall |- *. intros y Hy. by apply (Hup x); [apply Hall|].
  - exists (x :: l1), l2. split_and!; [done|by constructor|done].
Qed.
Lemma first_app (P : nat -> Prop) l1 l2 : Forall (fun z => ~ P z) l1 -> Forall P l2 -> first P (l1 ++ l2) (hd 0 l2).
Proof.
  induction 1 as [|x l1 Hx H1 IH]; intros H2; cbn [app]; [|by apply first_later; auto].
  destruct H2 as [|x l2 Hx H2]; [constructor|by apply first_here].
Qed.

Lemma keyed_up A d a x y : before cmp A d x y -> keyed cmp A (dirc (negb d)) a x -> keyed cmp A (dirc (negb d)) a y.
Proof.
  intros (kx & ky & Hx & Hy & Hxy) (kx' & Hx' & Hc). simplify_eq. exists ky. split; [done|].
  destruct Hxy as [Hxy|[Hxy _]]; [|by rewrite <- (cmp_eq_r cmp Hcmp _ _ a Hxy)]. destruct d; cbn in *.
  - by apply (cmp_lt_trans cmp Hcmp _ (fst kx)).
  - apply (cmp_flip cmp Hcmp) in Hc, Hxy. cbn in *. apply (cmp_flip cmp Hcmp _ _ Lt). by apply (cmp_lt_trans cmp Hcmp _ (fst kx)).
Qed.
Lemma keyed_eq_up A d a x y : before cmp A d x y -> keyed cmp A Eq a x -> keyed cmp A (dirc (negb d)) a y \/ keyed cmp A Eq a y.
Proof.
  intros (kx & ky & Hx & Hy & Hxy) (kx' & Hx' & Hc). simplify_eq.
  destruct Hxy as [Hxy|[Hxy _]]; rewrite <- (cmp_eq_l cmp Hcmp _ _ _ Hc) in Hxy; [left|right]; exists ky; [by destruct d|done].
Qed.

(** A range delimits exactly the elements between its bounds. *)
Theorem history_range ops rs A (d : bool) a b : calls cmp c start ops rs A -> (if d then cmp a b else cmp b a) <> Gt ->
  exists s ps s' l1 l2 l3, run ops = Ok (s, rs) /\ omm_iter s d = Ok ps /\ map fst ps = l1 ++ l2 ++ l3 /\
    omm_range cmp s d a b = Ok (s', (hd 0 (l2 ++ l3), hd 0 l3)) /\ omm_iter s' d = Ok ps /\
    Forall (keyed cmp A (if d then Gt else Lt) a) l1 /\
    Forall (if d then between A a b else between A b a) l2 /\
    Forall (keyed cmp A (if d then Lt else Gt) b) l3.
Proof.
  intros Hc Hab. destruct (history_repr ops rs A Hc) as (s & Hrun & Hr).
  destruct (repr_listing cmp Hcmp alloc s A d Hr) as (l & ps & Hl & Hps). pose proof Hl as [Hperm Hs].
  assert (forall z, z ∈ l -> exists kv, vals A !! z = Some kv) as Hdat.
  { intros z Hz. apply (repr_data cmp alloc s A z Hr). by rewrite <- Hperm. }
  change (StronglySorted (before cmp A d) l) in Hs.
  destruct (split_up (before cmp A d) (fun z => keyed cmp A (dirc (negb d)) a z \/ keyed cmp A Eq a z) l Hs)
    as (l1 & m & -> & H1 & Hm).
  { intros x y Hxy [Hx|Hx]; [left; by apply (keyed_up A d a x)|by apply (keyed_eq_up A d a x)]. }
  pose proof Hs as Hs'. apply StronglySorted_app in Hs' as (_ & Hsm & _).
  destruct (split_up (before cmp A d) (keyed cmp A (dirc (negb d)) b) m Hsm) as (l2 & l3 & -> & H2 & H3).
  { intros x y. apply keyed_up. }
  assert (Forall (fun z => ~ keyed cmp A (dirc (negb d)) b z) l1) as H1b.
  { rewrite Forall_forall in H1 |- *. intros z Hz (kz & Hkz & Hcz). apply (H1 z Hz). left. exists kz. split; [done|].
    destruct d; cbn in *.
    - destruct (cmp a b) eqn:E; [by rewrite (cmp_eq_l cmp Hcmp _ _ _ E)|by apply (cmp_lt_trans cmp Hcmp _ b)|done].
    - apply (cmp_flip cmp Hcmp) in Hcz. cbn in Hcz. apply (cmp_flip cmp Hcmp _ _ Lt).
      destruct (cmp b a) eqn:E; [by rewrite <- (cmp_eq_r cmp Hcmp _ _ _ E)|by apply (cmp_lt_trans cmp Hcmp _ b)|done]. }
  destruct (range_Ok cmp Hcmp alloc s A d a b (l1 ++ l2 ++ l3) (hd 0 (l2 ++ l3)) (hd 0 l3) Hr Hl) as (s' & Hran & Hr').
  { by apply first_app. }
  { rewrite app_assoc. apply first_app; [by apply Forall_app|done]. }
  exists s, ps, s', l1, l2, l3. split_and!; [done|by apply (iter_Ok cmp Hcmp alloc s A d (l1 ++ l2 ++ l3))|apply Hps|done
    |by apply (iter_Ok cmp Hcmp alloc s' A d (l1 ++ l2 ++ l3))|..].
  - rewrite Forall_forall in H1 |- *. intros z Hz. destruct (Hdat z) as [kz Hkz]; [rewrite elem_of_app; by left|].
    exists kz. split; [done|]. specialize (H1 z Hz).
    destruct (cmp a (fst kz)) eqn:E; [exfalso; apply H1; right; by exists kz|..]; destruct d; try done;
      exfalso; apply H1; left; by exists kz.
  - apply Forall_app in Hm as [Hm _]. rewrite Forall_forall in H2, Hm |- *. intros z Hz.
    specialize (H2 z Hz). specialize (Hm z Hz). cbn in Hm.
    destruct (Hdat z) as [kz Hkz]; [rewrite !elem_of_app; right; by left|].
    assert (cmp a (fst kz) = dirc (negb d) \/ cmp a (fst kz) = Eq) as Hca.
    { destruct Hm as [(kz' & ? & ?)|(kz' & ? & ?)]; simplify_eq; auto. }
    assert (cmp b (fst kz) <> dirc (negb d)) as Hcb by (intros ?; apply H2; by exists kz).
    destruct d; exists kz; (split; [done|]).
    + split; [destruct Hca as [->| ->]; done|]. rewrite (tp_opp _ Hcmp). by destruct (cmp b (fst kz)).
    + split; [done|]. rewrite (tp_opp _ Hcmp). destruct Hca as [->| ->]; done.
  - by destruct d.
Qed.

(** Used as a priority queue the map gives its elements in the order of the walk. *)
Theorem history_drain ops rs A d : calls cmp c start ops rs A -> d = true \/ alloc = false \/ off = 0 ->
  exists s s' ps, run ops = Ok (s, rs) /\ omm_drain cmp alloc off s d = Ok (s', ps) /\ omm_iter s (negb d) = Ok ps /\
    map fst ps ≡ₚ queue A /\ Forall (fun p => vals A !! fst p = Some (snd p)) ps /\
    StronglySorted (fun p q => cmp (fst (snd p)) (fst (snd q)) <> (if d then Lt else Gt)) ps /\
    (forall k, filter (keyed cmp A Eq k) (map fst ps) = filter (keyed cmp A Eq k) (queue A)) /\
    omm_size s' = Ok 0%Z.
Proof.
  intros Hc Hd. destruct (history_walk ops rs A (negb d) Hc) as (s & ps & Hrun & Hit & Hp & HF & Hs & Hk).
  destruct (listing_exists cmp Hcmp alloc off ops rs A (negb d) Hc) as (l & ps' & Hl & Hps').
  destruct (drains_Ok cmp Hcmp alloc off ops rs A d l ps' Hc Hl Hps' Hd) as (s1 & s' & Hrun1 & Hdr & Hsz).
  assert (s1 = s) as -> by congruence.
  destruct (history_repr ops rs A Hc) as (s2 & Hrun2 & Hr). assert (s2 = s) as -> by congruence.
  pose proof (iter_Ok cmp Hcmp alloc s A (negb d) l ps' Hr Hl Hps') as Hit'. assert (ps' = ps) as -> by congruence.
  exists s, s', ps. split_and!; try done.
  - destruct d; exact Hs.
  - unfold omm_size. by rewrite Hsz.
Qed.

(** Max and min are where the walks begin. *)
Theorem history_end ops rs A d : calls cmp c start ops rs A -> queue A <> [] ->
  exists s s' x l1 l2, run ops = Ok (s, rs) /\ omm_end s d = Ok (s', x) /\ extreme cmp A d l1 x l2 /\
    omm_begin s (negb d) = Ok x.
Proof.
  intros Hc Hne. destruct (history_repr ops rs A Hc) as (s & Hrun & Hr).
  destruct (repr_listing cmp Hcmp alloc s A (negb d) Hr) as (l & ps & Hl & _).
  destruct l as [|x l]; [exfalso; by apply Hne, (listing_nil cmp A (negb d) [] Hl)|].
  destruct (listing_extreme cmp A d x l) as (l1 & l2 & Hx & _ & _); [by apply (repr_NoDup cmp alloc s)| |done|].
  { intros z. by apply (repr_data cmp alloc s). }
  destruct (end_Ok cmp Hcmp alloc s A d l1 x l2 Hr Hx) as (s' & a & D & Hend & _).
  exists s, s', x, l1, l2. split_and!; [done..|]. by rewrite (begin_Ok cmp Hcmp alloc s A (negb d) (x :: l) Hr Hl).
Qed.

Lemma foldr_delete_in {X} (m : gmap nat X) l x : x ∈ l -> foldr delete m l !! x = None.
Proof.
  induction l as [|y l IH]; [by intros ?%elem_of_nil|]. intros Hx. cbn [foldr]. destruct (decide (x = y)) as [-> |Hne].
  - apply lookup_delete.
  - rewrite lookup_delete_ne by done. apply IH. by apply elem_of_cons in Hx as [?|?].
Qed.
Lemma foldr_delete_out {X} (m : gmap nat X) l x : x ∉ l -> foldr delete m l !! x = m !! x.
Proof.
  induction l as [|y l IH]; [done|]. intros [Hy Hx]%not_elem_of_cons. cbn [foldr]. rewrite lookup_delete_ne by done. auto.
Qed.

Theorem history_clear ops rs A (fn : bool) : calls cmp c start ops rs A ->
  exists s ps s', run ops = Ok (s, rs) /\ omm_iter s true = Ok ps /\
    omm_clear cmp alloc s fn = Ok (s', if fn then ps else []) /\
    omm_size s' = Ok 0%Z /\ omm_is_empty s' = true /\ omm_iter s' true = Ok [] /\ omm_validate cmp s' = Ok true /\
    (forall x, x ∈ map fst ps -> dat s' !! x = if alloc then None else dat s !! x) /\
    (forall x, x ∉ map fst ps -> dat s' !! x = dat s !! x) /\
    heap s' = (if alloc then heap s ∖ list_to_set (map fst ps) else heap s).
Proof.
  intros Hc. destruct (history_repr ops rs A Hc) as (s & Hrun & Hr).
  destruct (repr_listing cmp Hcmp alloc s A true Hr) as (l & ps & Hl & Hps).
  destruct (clear_Ok cmp Hcmp alloc off s A fn l ps (S (Z.to_nat (sz s))) Hr Hl Hps) as (s' & Hcl & Hr').
  { rewrite (repr_sz cmp alloc s A Hr), (proj1 Hl). lia. }
  assert (queue (emptied alloc A l) = []) as Hq by (unfold emptied; by destruct alloc).
  assert (dat s = vals A /\ heap s = mem A) as [Ed Eh] by (destruct Hr as [(? & ? & H) _]; split; apply H).
  assert (dat s' = vals (emptied alloc A l) /\ heap s' = mem (emptied alloc A l)) as [Ed' Eh']
    by (destruct Hr' as [(? & ? & H) _]; split; apply H).
  assert (sz s' = 0%Z) as Hsz by (by rewrite (repr_sz cmp alloc s' _ Hr'), Hq).
  exists s, ps, s'. split_and!; try done.
  - by apply (iter_Ok cmp Hcmp alloc s A true l).
  - unfold omm_size. by rewrite Hsz.
  - unfold omm_is_empty, mempty. by rewrite Hsz.
  - apply (iter_Ok cmp Hcmp alloc s' (emptied alloc A l) true []); [done| |done]. split; [by rewrite Hq|constructor].
  - by apply (validate_Ok cmp Hcmp alloc s' (emptied alloc A l)).
  - intros x Hx. rewrite Ed', Ed. destruct Hps as [Hfst _]. rewrite Hfst in Hx. unfold emptied. destruct alloc; [|done].
    cbn [vals]. by apply foldr_delete_in.
  - intros x Hx. rewrite Ed', Ed. destruct Hps as [Hfst _]. rewrite Hfst in Hx. unfold emptied. destruct alloc; [|done].
    cbn [vals]. by apply foldr_delete_out.
  - rewrite Eh', Eh. destruct Hps as [-> _]. unfold emptied. by destruct alloc.
Qed.
End histories.
