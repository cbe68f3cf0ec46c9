(** Whole histories of the flat realtime ordered map. *)
From Coq Require Import Sorting.Sorted.
From stdpp Require Import base numbers option gmap fin_maps list.
From Verif Require Import Common LinkHeap PathLemmas OrderSpec Counting MapOps MapSpec TreeModel TreeProofs MapProofs MapCases
  WavlModel WavlProofs WavlRank WavlRemove WavlNode WavlFrame OmProofs FlatOps FlatSpec FlatModel FlatProofs FlatCalls
  FlatCases FrmModel FrmProofs.

Local Ltac bind := cbn [mbind outcome_bind obind].

(** [x] is an element of the tree [m] links below the root. *)
Inductive under (s : wavl) : nat -> nat -> Prop :=
  | under_root : wroot s <> 0 -> under s 0 (wroot s)
  | under_child m x d y : under s m x -> br (wl s) d !! x = Some y -> y <> 0 -> under s (S m) y.

Section histories.
Context {K V : Type} (cmp : K -> K -> comparison) (Hcmp : total_preorder cmp).
Notation kept := frm_contract.
Implicit Types (ops : list (flat_op K V)) (A : fview K V) (s : flat K V).

Lemma frm_history_repr (alloc : bool) n junk ops rs A :
  fcalls cmp (kept alloc) (fstart n) ops rs A ->
  exists s rs', frm_run cmp alloc (flat_init n junk) ops = Ok (s, rs') /\ Forall2 fagree rs rs' /\ repr cmp wavl_ok s A.
Proof.
  apply (fhistory_repr cmp Hcmp (kept alloc) wavl_ok frm_seal frm_tree _ _ hint_ok (frm_finds cmp Hcmp) _ _ _ _ _ _ (frm_calls cmp Hcmp alloc)).
Qed.
Lemma frm_history (alloc : bool) n junk ops rs A :
  fcalls cmp (kept alloc) (fstart n) ops rs A ->
  exists s rs', frm_run cmp alloc (flat_init n junk) ops = Ok (s, rs') /\ Forall2 fagree rs rs' /\
    fshown A (flat_size s) (flat_capacity s) (flat_iter s true) (flat_iter s false) (frm_validate cmp s).
Proof.
  apply (fhistory cmp Hcmp (kept alloc) wavl_ok frm_seal frm_tree _ _ hint_ok (frm_finds cmp Hcmp) _ _ _ _ _ _ (frm_calls cmp Hcmp alloc)).
Qed.
Lemma frm_covers (alloc : bool) n ops rs A k :
  fcalls cmp (kept alloc) (fstart n) ops rs A ->
  (exists l1 x l2, present_at cmp A k l1 x l2) \/ (exists l1 l2, absent_at cmp A k l1 l2).
Proof.
  apply (fhistory_covers cmp Hcmp (kept alloc) wavl_ok frm_seal frm_tree _ _ hint_ok (frm_finds cmp Hcmp) _ _ _ _ _ _ (frm_calls cmp Hcmp alloc)).
Qed.
Lemma frm_walk (alloc : bool) n junk ops rs A :
  fcalls cmp (kept alloc) (fstart n) ops rs A ->
  exists s rs' ps, frm_run cmp alloc (flat_init n junk) ops = Ok (s, rs') /\
    flat_iter s true = Ok ps /\ flat_iter s false = Ok (rev ps) /\
    map fst ps = elems (fv A) /\ Forall (fun p => vals (fv A) !! fst p = Some (snd p)) ps /\
    StronglySorted (fun p q => cmp (fst (snd p)) (fst (snd q)) = Lt) ps.
Proof.
  apply (fhistory_walk cmp Hcmp (kept alloc) wavl_ok frm_seal frm_tree _ _ hint_ok (frm_finds cmp Hcmp) _ _ _ _ _ _ (frm_calls cmp Hcmp alloc)).
Qed.
Lemma frm_ranges (alloc : bool) n junk ops rs A a b :
  fcalls cmp (kept alloc) (fstart n) ops rs A -> cmp a b <> Gt ->
  exists s rs' s' l1 l2 l3, frm_run cmp alloc (flat_init n junk) ops = Ok (s, rs') /\ elems (fv A) = l1 ++ l2 ++ l3 /\
    frm_range cmp s true a b = Ok (s', bound A (hd 0 (l2 ++ l3)), bound A (hd 0 l3)) /\
    Forall (keyed cmp (fv A) Gt a) l1 /\ Forall (inside cmp (fv A) a b) l2 /\ Forall (keyed cmp (fv A) Lt b) l3.
Proof.
  apply (fhistory_range cmp Hcmp (kept alloc) wavl_ok frm_seal frm_tree _ _ hint_ok (frm_finds cmp Hcmp) _ _ _ _ _ _ (frm_calls cmp Hcmp alloc)).
Qed.
Lemma frm_rranges (alloc : bool) n junk ops rs A a b :
  fcalls cmp (kept alloc) (fstart n) ops rs A -> cmp b a <> Gt ->
  exists s rs' s' l1 l2 l3, frm_run cmp alloc (flat_init n junk) ops = Ok (s, rs') /\ rev (elems (fv A)) = l1 ++ l2 ++ l3 /\
    frm_range cmp s false a b = Ok (s', bound A (hd 0 (l2 ++ l3)), bound A (hd 0 l3)) /\
    Forall (keyed cmp (fv A) Lt a) l1 /\ Forall (inside cmp (fv A) b a) l2 /\ Forall (keyed cmp (fv A) Gt b) l3.
Proof.
  apply (fhistory_rrange cmp Hcmp (kept alloc) wavl_ok frm_seal frm_tree _ _ hint_ok (frm_finds cmp Hcmp) _ _ _ _ _ _ (frm_calls cmp Hcmp alloc)).
Qed.
Lemma frm_others (alloc : bool) n junk ops rs A nd kv k' :
  fcalls cmp (kept alloc) (fstart n) ops rs A -> cmp (fst kv) k' <> Eq ->
  exists s rs' p r q, frm_run cmp alloc (flat_init n junk) (ops ++ [FGet k'; FRemove (nd, kv); FGet k']) =
      Ok (s, rs' ++ [XPtr p; r; XPtr q]) /\ Forall2 fagree rs rs' /\ option_map snd p = option_map snd q.
Proof.
  apply (fhistory_others cmp Hcmp (kept alloc) wavl_ok frm_seal frm_tree _ _ hint_ok (frm_finds cmp Hcmp) _ _ _ _ _ _ (frm_calls cmp Hcmp alloc)).
Qed.
Lemma frm_free (alloc fn : bool) n junk ops rs A :
  fcalls cmp (kept alloc) (fstart n) ops rs A -> fn = false \/ used A = true ->
  exists s rs' ps s' l, frm_run cmp alloc (flat_init n junk) ops = Ok (s, rs') /\ flat_iter s true = Ok ps /\
    flat_clear_and_free alloc s fn = Ok (s', if alloc then OK else NO_ALLOC, l) /\ l ≡ₚ (if fn then ps else []) /\
    flat_size s' = flat_size s /\ flat_begin s' true = Ok 0 /\ flat_capacity s' = if alloc then 0 else flat_capacity s.
Proof.
  apply (fhistory_free cmp Hcmp (kept alloc) wavl_ok frm_seal frm_tree _ _ hint_ok (frm_finds cmp Hcmp) _ _ _ _ _ _ (frm_calls cmp Hcmp alloc)).
Qed.

Lemma frm_refused (alloc : bool) n junk ops rs A nd kv ans l1 l2 o :
  fcalls cmp (kept alloc) (fstart n) ops rs A -> absent_at cmp A (fst kv) l1 l2 -> room A < S (S (count A)) ->
  alloc = false \/ ans = None -> o ∈ [FInsert (nd, kv) ans; FTryInsert (nd, kv) ans; FAssign (nd, kv) ans] ->
  exists s rs' ps s', frm_run cmp alloc (flat_init n junk) ops = Ok (s, rs') /\ flat_iter s true = Ok ps /\
    frm_run cmp alloc s [o] = Ok (s', [XEnt false true None (Some kv)]) /\
    flat_iter s' true = Ok ps /\ flat_size s' = flat_size s /\ flat_capacity s' = flat_capacity s.
Proof.
  apply (fhistory_refused cmp Hcmp (kept alloc) wavl_ok frm_seal frm_tree _ _ hint_ok (frm_finds cmp Hcmp) _ _ _ _ _ _ (frm_calls cmp Hcmp alloc)).
Qed.

(** A copy shows the elements of the source and behaves like it from then on. *)
Lemma frm_copied (alloc alloc' fn : bool) n n' junk junk' ans ops ops' rs rs' A B more ms C :
  fcalls cmp (kept alloc) (fstart n) ops rs A -> fcalls cmp (kept alloc') (fstart n') ops' rs' B ->
  room A <= room B \/ fn = true /\ is_Some ans ->
  fcalls cmp (kept alloc') (FView (fv A) (room A `max` room B) (used A)) more ms C ->
  exists s qs d qs' d' d'' ms',
    frm_run cmp alloc (flat_init n junk) ops = Ok (s, qs) /\ frm_run cmp alloc' (flat_init n' junk') ops' = Ok (d, qs') /\
    flat_copy d s fn ans = (d', OK) /\ flat_size d' = flat_size s /\ flat_iter d' true = flat_iter s true /\
    flat_iter d' false = flat_iter s false /\ frm_validate cmp d' = Ok true /\
    frm_run cmp alloc' d' more = Ok (d'', ms') /\ Forall2 fagree ms ms' /\
    fshown C (flat_size d'') (flat_capacity d'') (flat_iter d'' true) (flat_iter d'' false) (frm_validate cmp d'').
Proof.
  intros Hc Hc' Hok Hm. destruct (frm_history_repr alloc n junk ops rs A Hc) as (s & qs & Hs & _ & Hrs).
  destruct (frm_history_repr alloc' n' junk' ops' rs' B Hc') as (d & qs' & Hd & _ & Hrd).
  destruct (copy_Ok cmp Hcmp wavl_ok frm_seal frm_tree d B s A fn ans Hrd Hrs Hok) as (d' & Hcp & Hr').
  destruct (frm_run_Ok cmp Hcmp alloc' d' _ more ms C Hr' Hm) as (d'' & ms' & Hrun & Hag & Hr'').
  destruct (frm_shows_Ok cmp Hcmp alloc s A Hrs) as (Hs1 & _ & _ & ps & Hps & HF & Hf1 & Hf2).
  destruct (frm_shows_Ok cmp Hcmp alloc' d' _ Hr') as (Hd1 & _ & Hv & ps' & Hps' & HF' & Hf1' & Hf2').
  assert (ps' = ps) as ->.
  { cbn in Hps', HF'. rewrite <- Hps in Hps'. clear -HF HF' Hps'. revert ps' HF' Hps'.
    induction HF as [|[x kv] ps Hx HF IH]; intros [|[x' kv'] ps'] HF' Hps'; try done.
    apply Forall_cons in HF' as [Hx' HF']. cbn in *. injection Hps' as -> ?. rewrite (IH ps') by done. congruence. }
  exists s, qs, d, qs', d', d'', ms'. split_and!; try done; [by rewrite Hd1, Hs1|congruence|congruence|..];
    by apply (frm_shows_Ok cmp Hcmp alloc').
Qed.

(** ** Balance *)

Lemma under_height s (t : tree) m x :
  wroot (tr s) = ptr 0 t -> rep 0 (wl (tr s)) 0 t -> under (tr s) m x ->
  exists Q a b, t = plug Q (T a x b) /\ length Q = m.
Proof.
  intros Hroot Hrep. induction 1 as [Hne|m x d y Hb IH Hy Hne].
  - rewrite Hroot in *. destruct t as [|a x b]; [done|]. by exists [], a, b.
  - destruct IH as (Q & a & b & -> & <-).
    assert (root_of : ptr 0 (plug Q (T a x b)) = ptr 0 (plug Q (T a x b))) by done.
    destruct (proj2 (zrep_plug 0 (wl (tr s)) _ Q (T a x b)) (conj root_of Hrep)) as [_ Hr].
    destruct Hr as (Hl & Hrt & _). destruct d; cbn [br] in Hy.
    + assert (y = ptr 0 b) as -> by congruence. destruct b as [|b1 z b2]; [done|].
      by exists ((true, x, a) :: Q), b1, b2.
    + assert (y = ptr 0 a) as -> by congruence. destruct a as [|a1 z a2]; [done|].
      by exists ((false, x, b) :: Q), a1, a2.
Qed.

Lemma frm_log s A t : reprT cmp wavl_ok s A t -> 2 ^ height t <= S (count A) * S (count A).
Proof.
  intros Hr. pose proof (reprT_nodes cmp wavl_ok s A t Hr) as Hn. unfold count. rewrite <- Hn.
  destruct Hr as [_ [(_ & _ & _ & -> & _)|((_ & _ & _ & (_ & _ & n & Hok) & _) & _)]]; [done|].
  by apply (ok_log _ _ _ Hok).
Qed.

Lemma frm_depth (alloc : bool) n junk ops rs A :
  fcalls cmp (kept alloc) (fstart n) ops rs A ->
  exists s rs', frm_run cmp alloc (flat_init n junk) ops = Ok (s, rs') /\
    forall m x, under (tr s) m x -> 2 ^ S m <= S (count A) * S (count A).
Proof.
  intros Hc. destruct (frm_history_repr alloc n junk ops rs A Hc) as (s & rs' & Hrun & _ & [t Hr]).
  exists s, rs'. split; [done|]. intros m x Hb.
  assert (exists Q a b, t = plug Q (T a x b) /\ length Q = m) as (Q & a & b & Ht & Hlen).
  { destruct Hr as [_ [(_ & _ & _ & _ & _ & Hroot)|Hrdy]].
    - exfalso. induction Hb as [H0|]; done.
    - destruct (ready_rep cmp wavl_ok frm_seal frm_tree s A t Hrdy) as (Hroot & Hrep & _). by apply (under_height s). }
  etrans; [|by apply (frm_log s A t)]. apply Nat.pow_le_mono_r; [done|].
  pose proof (plug_height Q (T a x b)) as Hh. rewrite <- Ht in Hh. cbn [height] in Hh. lia.
Qed.

Lemma floop_mono f f' (dat : gmap nat (K * V)) h k p x c q :
  f <= f' -> find_loop 0 cmp f dat h k p x c = Ok q -> find_loop 0 cmp f' dat h k p x c = Ok q.
Proof.
  revert f' p x c. induction f as [|f IH]; intros f' p x c Hle; [done|]. destruct f' as [|f']; [lia|].
  cbn [find_loop]. destruct (x =? 0); [done|]. destruct (cmpk cmp dat k x) as [o| |]; bind; try done.
  destruct (is_eq o); [done|]. destruct (rd (br h (is_gt o)) x) as [n| |]; bind; try done. apply IH. lia.
Qed.

Lemma frm_search (alloc : bool) n junk ops rs A k f :
  fcalls cmp (kept alloc) (fstart n) ops rs A ->
  S (count A) * S (count A) < 2 ^ S f ->
  exists s rs', frm_run cmp alloc (flat_init n junk) ops = Ok (s, rs') /\
    find_loop 0 cmp (S f) (dat s) (wl (tr s)) k 0 (wroot (tr s)) None = search cmp s k /\
    exists p, search cmp s k = Ok p.
Proof.
  intros Hc Hf. destruct (frm_history_repr alloc n junk ops rs A Hc) as (s & rs' & Hrun & _ & [t Ht]).
  exists s, rs'. split; [done|].
  assert (height t < S f) as Hh.
  { pose proof (frm_log s A t Ht). apply (Nat.pow_lt_mono_r_iff 2); lia. }
  assert (exists p, find_loop 0 cmp (S f) (dat s) (wl (tr s)) k 0 (wroot (tr s)) None = Ok p) as [p Hp].
  { destruct (loop_cases cmp Hcmp s A t k (S f) Ht Hh) as [(x & l1 & l2 & -> & _)|(Q & l & r & -> & _)]; by eauto. }
  assert (exists q, search cmp s k = Ok q) as [q Hq].
  { destruct (search_cases cmp Hcmp s A t k Ht) as [(x & l1 & l2 & -> & _)|(Q & l & r & -> & _)]; by eauto. }
  rewrite Hp, Hq. split; [|by eauto]. unfold search, tree_find in Hq.
  destruct (Nat.le_ge_cases (S f) (budget (Z.of_nat (sz s - 1)))) as [Hle|Hle].
  - by rewrite (floop_mono _ _ _ _ _ _ _ _ _ Hle Hp) in Hq.
  - by rewrite (floop_mono _ _ _ _ _ _ _ _ _ Hle Hq) in Hp.
Qed.

(** The element that moves to the freed slot keeps its parity, as do the others. *)
Lemma frm_parity (alloc : bool) n junk ops rs A k l1 x l2 :
  fcalls cmp (kept alloc) (fstart n) ops rs A -> present_at cmp A k l1 x l2 ->
  exists s rs' w s', frm_run cmp alloc (flat_init n junk) ops = Ok (s, rs') /\
    unlink 0 (budget (Z.of_nat (flat_size s))) (tr s) x = Ok w /\ remove_fixup s x = Ok (s', count A) /\
    forall y, y ∈ l1 ++ l2 -> is_Some (wp w !! y) /\ wp (tr s') !! moved (count A) x y = wp w !! y.
Proof.
  intros Hc (He & old & Hold & _). destruct (frm_history_repr alloc n junk ops rs A Hc) as (s & rs' & Hrun & _ & [t Hr]).
  destruct (remove_fixup_parity cmp Hcmp s A t l1 x l2 old Hr He Hold) as (s' & nd & Hrm & [t' Hr'] & _ & w & Hw & Hp).
  exists s, rs', w, s'. split; [done|]. split; [done|]. split; [done|]. intros y Hy. split; [|by apply Hp].
  rewrite <- (Hp y Hy). assert (moved (count A) x y ∈ elems (fv (fremoved A l1 x l2))) as Hin by (cbn; by apply elem_of_list_fmap_1).
  destruct (reprT_born cmp wavl_ok s' _ t' _ Hr' Hin) as ((_ & _ & _ & Hg & Hn) & _).
  apply (wavl_ok_alive (tr s') t'); [done|]. by rewrite Hn.
Qed.
End histories.
