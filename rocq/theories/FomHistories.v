(** Whole histories of the flat ordered map. *)
From Coq Require Import Sorting.Sorted.
From stdpp Require Import base numbers option gmap fin_maps list.
From Verif Require Import Common LinkHeap PathLemmas OrderSpec Counting MapOps MapSpec TreeModel TreeProofs MapProofs MapCases
  SplayModel SplayProofs WavlModel WavlProofs WavlRank WavlRemove WavlNode WavlFrame OmProofs FlatOps FlatSpec FlatModel FlatProofs FlatCalls
  FlatCases FomModel FomProofs.

Local Ltac bind := cbn [mbind outcome_bind obind].

Section histories.
Context {K V : Type} (cmp : K -> K -> comparison) (Hcmp : total_preorder cmp).
Notation kept := fom_contract.
Implicit Types (ops : list (flat_op K V)) (A : fview K V) (s : flat K V).

Lemma fom_history_repr (alloc : bool) n junk ops rs A :
  fcalls cmp (kept alloc) (fstart n) ops rs A ->
  exists s rs', fom_run cmp alloc (flat_init n junk) ops = Ok (s, rs') /\ Forall2 fagree rs rs' /\ repr cmp tree_ok s A.
Proof.
  apply (fhistory_repr cmp Hcmp (kept alloc) tree_ok fom_seal fom_tree _ _ fom_hint (fom_finds cmp Hcmp) _ _ _ _ _ _ (fom_calls cmp Hcmp alloc)).
Qed.
Lemma fom_history (alloc : bool) n junk ops rs A :
  fcalls cmp (kept alloc) (fstart n) ops rs A ->
  exists s rs', fom_run cmp alloc (flat_init n junk) ops = Ok (s, rs') /\ Forall2 fagree rs rs' /\
    fshown A (flat_size s) (flat_capacity s) (flat_iter s true) (flat_iter s false) (fom_validate cmp s).
Proof.
  apply (fhistory cmp Hcmp (kept alloc) tree_ok fom_seal fom_tree _ _ fom_hint (fom_finds cmp Hcmp) _ _ _ _ _ _ (fom_calls cmp Hcmp alloc)).
Qed.
Lemma fom_covers (alloc : bool) n ops rs A k :
  fcalls cmp (kept alloc) (fstart n) ops rs A ->
  (exists l1 x l2, present_at cmp A k l1 x l2) \/ (exists l1 l2, absent_at cmp A k l1 l2).
Proof.
  apply (fhistory_covers cmp Hcmp (kept alloc) tree_ok fom_seal fom_tree _ _ fom_hint (fom_finds cmp Hcmp) _ _ _ _ _ _ (fom_calls cmp Hcmp alloc)).
Qed.
Lemma fom_walk (alloc : bool) n junk ops rs A :
  fcalls cmp (kept alloc) (fstart n) ops rs A ->
  exists s rs' ps, fom_run cmp alloc (flat_init n junk) ops = Ok (s, rs') /\
    flat_iter s true = Ok ps /\ flat_iter s false = Ok (rev ps) /\
    map fst ps = elems (fv A) /\ Forall (fun p => vals (fv A) !! fst p = Some (snd p)) ps /\
    StronglySorted (fun p q => cmp (fst (snd p)) (fst (snd q)) = Lt) ps.
Proof.
  apply (fhistory_walk cmp Hcmp (kept alloc) tree_ok fom_seal fom_tree _ _ fom_hint (fom_finds cmp Hcmp) _ _ _ _ _ _ (fom_calls cmp Hcmp alloc)).
Qed.
Lemma fom_ranges (alloc : bool) n junk ops rs A a b :
  fcalls cmp (kept alloc) (fstart n) ops rs A -> cmp a b <> Gt ->
  exists s rs' s' l1 l2 l3, fom_run cmp alloc (flat_init n junk) ops = Ok (s, rs') /\ elems (fv A) = l1 ++ l2 ++ l3 /\
    fom_range cmp s true a b = Ok (s', bound A (hd 0 (l2 ++ l3)), bound A (hd 0 l3)) /\
    Forall (keyed cmp (fv A) Gt a) l1 /\ Forall (inside cmp (fv A) a b) l2 /\ Forall (keyed cmp (fv A) Lt b) l3.
Proof.
  apply (fhistory_range cmp Hcmp (kept alloc) tree_ok fom_seal fom_tree _ _ fom_hint (fom_finds cmp Hcmp) _ _ _ _ _ _ (fom_calls cmp Hcmp alloc)).
Qed.
Lemma fom_rranges (alloc : bool) n junk ops rs A a b :
  fcalls cmp (kept alloc) (fstart n) ops rs A -> cmp b a <> Gt ->
  exists s rs' s' l1 l2 l3, fom_run cmp alloc (flat_init n junk) ops = Ok (s, rs') /\ rev (elems (fv A)) = l1 ++ l2 ++ l3 /\
    fom_range cmp s false a b = Ok (s', bound A (hd 0 (l2 ++ l3)), bound A (hd 0 l3)) /\
    Forall (keyed cmp (fv A) Lt a) l1 /\ Forall (inside cmp (fv A) b a) l2 /\ Forall (keyed cmp (fv A) Gt b) l3.
Proof.
  apply (fhistory_rrange cmp Hcmp (kept alloc) tree_ok fom_seal fom_tree _ _ fom_hint (fom_finds cmp Hcmp) _ _ _ _ _ _ (fom_calls cmp Hcmp alloc)).
Qed.
Lemma fom_others (alloc : bool) n junk ops rs A nd kv k' :
  fcalls cmp (kept alloc) (fstart n) ops rs A -> cmp (fst kv) k' <> Eq ->
  exists s rs' p r q, fom_run cmp alloc (flat_init n junk) (ops ++ [FGet k'; FRemove (nd, kv); FGet k']) =
      Ok (s, rs' ++ [XPtr p; r; XPtr q]) /\ Forall2 fagree rs rs' /\ option_map snd p = option_map snd q.
Proof.
  apply (fhistory_others cmp Hcmp (kept alloc) tree_ok fom_seal fom_tree _ _ fom_hint (fom_finds cmp Hcmp) _ _ _ _ _ _ (fom_calls cmp Hcmp alloc)).
Qed.
Lemma fom_free (alloc fn : bool) n junk ops rs A :
  fcalls cmp (kept alloc) (fstart n) ops rs A -> fn = false \/ used A = true ->
  exists s rs' ps s' l, fom_run cmp alloc (flat_init n junk) ops = Ok (s, rs') /\ flat_iter s true = Ok ps /\
    flat_clear_and_free alloc s fn = Ok (s', if alloc then OK else NO_ALLOC, l) /\ l ≡ₚ (if fn then ps else []) /\
    flat_size s' = flat_size s /\ flat_begin s' true = Ok 0 /\ flat_capacity s' = if alloc then 0 else flat_capacity s.
Proof.
  apply (fhistory_free cmp Hcmp (kept alloc) tree_ok fom_seal fom_tree _ _ fom_hint (fom_finds cmp Hcmp) _ _ _ _ _ _ (fom_calls cmp Hcmp alloc)).
Qed.

Lemma fom_refused (alloc : bool) n junk ops rs A nd kv ans l1 l2 o :
  fcalls cmp (kept alloc) (fstart n) ops rs A -> absent_at cmp A (fst kv) l1 l2 -> room A < S (S (count A)) ->
  alloc = false \/ ans = None -> o ∈ [FInsert (nd, kv) ans; FTryInsert (nd, kv) ans; FAssign (nd, kv) ans] ->
  exists s rs' ps s', fom_run cmp alloc (flat_init n junk) ops = Ok (s, rs') /\ flat_iter s true = Ok ps /\
    fom_run cmp alloc s [o] = Ok (s', [XEnt false true None (Some kv)]) /\
    flat_iter s' true = Ok ps /\ flat_size s' = flat_size s /\ flat_capacity s' = flat_capacity s.
Proof.
  apply (fhistory_refused cmp Hcmp (kept alloc) tree_ok fom_seal fom_tree _ _ fom_hint (fom_finds cmp Hcmp) _ _ _ _ _ _ (fom_calls cmp Hcmp alloc)).
Qed.

(** A copy shows the elements of the source and behaves like it from then on. *)
Lemma fom_copied (alloc alloc' fn : bool) n n' junk junk' ans ops ops' rs rs' A B more ms C :
  fcalls cmp (kept alloc) (fstart n) ops rs A -> fcalls cmp (kept alloc') (fstart n') ops' rs' B ->
  room A <= room B \/ fn = true /\ is_Some ans ->
  fcalls cmp (kept alloc') (FView (fv A) (room A `max` room B) (used A)) more ms C ->
  exists s qs d qs' d' d'' ms',
    fom_run cmp alloc (flat_init n junk) ops = Ok (s, qs) /\ fom_run cmp alloc' (flat_init n' junk') ops' = Ok (d, qs') /\
    flat_copy d s fn ans = (d', OK) /\ flat_size d' = flat_size s /\ flat_iter d' true = flat_iter s true /\
    flat_iter d' false = flat_iter s false /\ fom_validate cmp d' = Ok true /\
    fom_run cmp alloc' d' more = Ok (d'', ms') /\ Forall2 fagree ms ms' /\
    fshown C (flat_size d'') (flat_capacity d'') (flat_iter d'' true) (flat_iter d'' false) (fom_validate cmp d'').
Proof.
  intros Hc Hc' Hok Hm. destruct (fom_history_repr alloc n junk ops rs A Hc) as (s & qs & Hs & _ & Hrs).
  destruct (fom_history_repr alloc' n' junk' ops' rs' B Hc') as (d & qs' & Hd & _ & Hrd).
  destruct (copy_Ok cmp Hcmp tree_ok fom_seal fom_tree d B s A fn ans Hrd Hrs Hok) as (d' & Hcp & Hr').
  destruct (fom_run_Ok cmp Hcmp alloc' d' _ more ms C Hr' Hm) as (d'' & ms' & Hrun & Hag & Hr'').
  destruct (fom_shows_Ok cmp Hcmp alloc s A Hrs) as (Hs1 & _ & _ & ps & Hps & HF & Hf1 & Hf2).
  destruct (fom_shows_Ok cmp Hcmp alloc' d' _ Hr') as (Hd1 & _ & Hv & ps' & Hps' & HF' & Hf1' & Hf2').
  assert (ps' = ps) as ->.
  { cbn in Hps', HF'. rewrite <- Hps in Hps'. clear -HF HF' Hps'. revert ps' HF' Hps'.
    induction HF as [|[x kv] ps Hx HF IH]; intros [|[x' kv'] ps'] HF' Hps'; try done.
    apply Forall_cons in HF' as [Hx' HF']. cbn in *. injection Hps' as -> ?. rewrite (IH ps') by done. congruence. }
  exists s, qs, d, qs', d', d'', ms'. split_and!; try done; [by rewrite Hd1, Hs1|congruence|congruence|..];
    by apply (fom_shows_Ok cmp Hcmp alloc').
Qed.
End histories.
