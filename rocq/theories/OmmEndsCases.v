(** Sequences of calls on the ordered multimap about the key at an end, found by
    computation: for the examples. *)
From stdpp Require Import base numbers option gmap fin_maps list.
From Verif Require Import Common OrderSpec OmmOps OmmSpec OmmCases OmmEndsSpec.

Section cases.
Context {K V : Type} (cmp : K -> K -> comparison) (c : contract).
Implicit Types (A : view K V).

Definition at_key_b (d : bool) (k : K) A (o : mm_op K V) : bool :=
  match o with
  | OMax | OPopMax => d
  | OMin | OPopMin => negb d
  | OGet k' => match cmp k k' with Eq => true | _ => false end
  | OInsert e ans => keyed_b cmp A Eq k e && (negb (allocates c) || negb (ans =? 0))
  | _ => false
  end.
Lemma at_key_b_spec d k A o : at_key_b d k A o = true -> at_key cmp c d k A o.
Proof.
  destruct o; cbn; try done; try by destruct d.
  - by destruct (cmp k _).
  - intros [H1 H2]%andb_true_iff. split; [by apply keyed_b_spec|]. intros Ha. rewrite Ha in H2. cbn in H2.
    by destruct (Nat.eqb_spec ans 0).
Qed.

Fixpoint steadies (d : bool) (k : K) A (os : list (mm_op K V)) : option (list (mm_res K V) * view K V) :=
  match os with
  | [] => Some ([], A)
  | o :: os =>
    match exec cmp c A o with
    | Some (r, A1) =>
      if at_key_b d k A o && existsb (keyed_b cmp A1 Eq k) (queue A1)
      then match steadies d k A1 os with Some (rs, A2) => Some (r :: rs, A2) | None => None end
      else None
    | None => None
    end
  end.
Lemma steadies_sound d k A os rs A' : steadies d k A os = Some (rs, A') -> steady cmp c d k A os rs A'.
Proof.
  revert A rs. induction os as [|o os IH]; intros A rs; cbn; [intros [= <- <-]; constructor|].
  destruct (exec cmp c A o) as [[r A1]|] eqn:He; [|done]. destruct (_ && _) eqn:Hb; [|done].
  destruct (steadies d k A1 os) as [[rs' A2]|] eqn:Hs; [|done]. intros [= <- <-].
  apply andb_true_iff in Hb as [Hat Hex]. apply existsb_exists in Hex as (y & Hy & Hk).
  eapply steady_cons; [by apply exec_sound|by apply at_key_b_spec| |by apply IH].
  exists y. split; [by apply elem_of_list_In|by apply keyed_b_spec].
Qed.

Definition ending_ok (d : bool) (before os : list (mm_op K V)) : bool :=
  match execs cmp c start before with
  | Some (_, A) =>
    match extreme_b cmp A d with
    | Some (_, x, _) => match vals A !! x with
                        | Some kx => match steadies d (fst kx) A os with Some _ => true | None => false end
                        | None => false end
    | None => false
    end
  | None => false
  end.
Lemma ending_exists d before os : total_preorder cmp -> ending_ok d before os = true ->
  exists rs A l1 x kx l2 rs' A', calls cmp c start before rs A /\ extreme cmp A d l1 x l2 /\ vals A !! x = Some kx /\
    steady cmp c d (fst kx) A os rs' A'.
Proof.
  intros Hcmp. unfold ending_ok. destruct (execs cmp c start before) as [[rs A]|] eqn:H1; [|done].
  destruct (extreme_b cmp A d) as [[[l1 x] l2]|] eqn:H2; [|done]. destruct (vals A !! x) as [kx|] eqn:H3; [|done].
  destruct (steadies d (fst kx) A os) as [[rs' A']|] eqn:H4; [|done]. intros _.
  exists rs, A, l1, x, kx, l2, rs', A'. split; [by apply execs_sound|]. split; [by apply extreme_b_Some|]. split; [done|].
  by apply steadies_sound.
Qed.
End cases.
