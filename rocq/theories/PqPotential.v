(** The potential of a pairing heap. The heap is a forest given by the list of
    children of every node, oldest first. Instead of a sum of logarithms the
    potential is a product of sizes, so that [n] comparisons that are paid for
    make it smaller by a factor of [2 ^ n]. *)
From Coq Require Import Arith.
From stdpp Require Import base numbers option gmap fin_maps fin_sets list.
From Verif Require Import Common.

Notation kids := (gmap nat (list nat)).

Definition kid (K : kids) (x : nat) : Prop := exists p ks, K !! p = Some ks /\ x ∈ ks.

Inductive desc (K : kids) (r : nat) : nat -> Prop :=
  | desc_refl : desc K r r
  | desc_kid p ks x : desc K r p -> K !! p = Some ks -> x ∈ ks -> desc K r x.

(** [row K S ks w E]: the siblings [ks] and all below them have weight [w], and
    they are [E - S] elements. Each element counts with the number of elements
    below it and in the trees of its older siblings, itself included; before the
    first sibling stand [S] elements. *)
Inductive row (K : kids) : nat -> list nat -> nat -> nat -> Prop :=
  | row_nil S : row K S [] 1 S
  | row_cons S c cs ks T w w' E : K !! c = Some cs -> row K 0 cs w T ->
      row K (S + T + 1) ks w' E -> row K S (c :: ks) (w * (S + T + 1) * w') E.

(** The tree at [x] has [n] elements below [x]. *)
Definition tree (K : kids) (x n w : nat) : Prop := exists ks, K !! x = Some ks /\ row K 0 ks w n.

Definition heavy (K : kids) (r m w : nat) : Prop :=
  (r = 0 /\ m = 0 /\ w = 1) \/ (exists n, r <> 0 /\ m = n + 1 /\ tree K r n w).

Lemma row_le K S ks w E : row K S ks w E -> S <= E.
Proof. induction 1; lia. Qed.
Lemma row_pos K S ks w E : row K S ks w E -> 1 <= w.
Proof. induction 1; [lia|]. nia. Qed.
Lemma tree_pos K x n w : tree K x n w -> 1 <= w.
Proof. intros (ks & _ & H). by eapply row_pos. Qed.
Lemma heavy_pos K r m w : heavy K r m w -> 1 <= w.
Proof. intros [(_ & _ & ->)|(n & _ & _ & H)]; [lia|by eapply tree_pos]. Qed.

Lemma row_app K xs ys S w E : row K S (xs ++ ys) w E <->
  exists w1 E1 w2, row K S xs w1 E1 /\ row K E1 ys w2 E /\ w = w1 * w2.
Proof.
  revert S w. induction xs as [|x xs IH]; intros S w; cbn.
  - split.
    + intros H. exists 1, S, w. split_and!; [constructor|done|lia].
    + intros (w1 & E1 & w2 & H1 & H2 & ->). inversion H1; subst. by rewrite Nat.mul_1_l.
  - split.
    + intros H. inversion H as [|? ? cs ? T u u' ? Hc Hcs Hr]; subst. apply IH in Hr as (w1 & E1 & w2 & H1 & H2 & ->).
      exists (u * (S + T + 1) * w1), E1, w2. split_and!; [by econstructor|done|ring].
    + intros (w1 & E1 & w2 & H1 & H2 & ->). inversion H1 as [|? ? cs ? T u u' ? Hc Hcs Hr]; subst.
      replace (u * (S + T + 1) * u' * w2) with (u * (S + T + 1) * (u' * w2)) by ring.
      econstructor; [done|done|]. apply IH. eauto 10.
Qed.

Lemma row_single K S x n w : tree K x n w -> row K S [x] (w * (S + n + 1)) (S + n + 1).
Proof.
  intros (ks & Hx & Hr). replace (w * (S + n + 1)) with (w * (S + n + 1) * 1) by ring.
  econstructor; [done|done|constructor].
Qed.
Lemma row_single_inv K S x w E : row K S [x] w E -> exists n u, tree K x n u /\ w = u * (S + n + 1) /\ E = S + n + 1.
Proof.
  intros H. inversion H as [|? ? cs ? T u u' ? Hc Hcs Hr]; subst. inversion Hr; subst.
  exists T, u. split_and!; [by exists cs|ring|done].
Qed.

(** Fewer elements to the left weigh less. *)
Lemma row_shift K S ks w E d : row K (S + d) ks w E -> exists w' E', row K S ks w' E' /\ w' <= w /\ E = E' + d.
Proof.
  intros H. remember (S + d) as S0 eqn:HS. revert S HS.
  induction H as [S0|S0 c cs ks T w w' E Hc Hcs _ Hr IH]; intros S ->.
  - exists 1, S. split_and!; [constructor|lia|lia].
  - destruct (IH (S + T + 1)) as (u & E' & H1 & H2 & ->); [lia|].
    exists (w * (S + T + 1) * u), E'. split_and!; [by econstructor| |done].
    apply Nat.mul_le_mono; [|done]. apply Nat.mul_le_mono; lia.
Qed.

Lemma row_less K S S' ks w E : S' <= S -> row K S ks w E -> exists w' E', row K S' ks w' E' /\ w' <= w /\ E' + (S - S') = E.
Proof.
  intros HS H. replace S with (S' + (S - S')) in H by lia. destruct (row_shift _ _ _ _ _ _ H) as (w' & E' & H1 & H2 & H3).
  exists w', E'. split_and!; [done|done|lia].
Qed.

(** Changes elsewhere do not matter. *)
Lemma row_frame K K' p : ~ kid K p -> (forall x, x <> p -> K' !! x = K !! x) ->
  forall S ks w E, p ∉ ks -> row K S ks w E -> row K' S ks w E.
Proof.
  intros Hp HK S ks w E Hks H. induction H as [S|S c cs ks T w w' E Hc Hcs IH1 Hr IH2]; [constructor|].
  apply not_elem_of_cons in Hks as [Hpc Hks]. econstructor; [by rewrite HK|apply IH1|by apply IH2].
  intros Hin. apply Hp. by exists c, cs.
Qed.
Lemma tree_frame K K' p x n w : ~ kid K p -> (forall x, x <> p -> K' !! x = K !! x) -> x <> p -> tree K x n w -> tree K' x n w.
Proof.
  intros Hp HK Hx (ks & Hks & Hr). exists ks. split; [by rewrite HK|]. eapply row_frame; [done|done| |done].
  intros Hin. apply Hp. by exists x, ks.
Qed.
Lemma heavy_frame K K' p r m w : ~ kid K p -> (forall x, x <> p -> K' !! x = K !! x) -> r <> p -> heavy K r m w -> heavy K' r m w.
Proof. intros Hp HK Hx [H|(n & H0 & H1 & Ht)]; [by left|right]. exists n. split_and!; [done|done|by eapply tree_frame]. Qed.
Lemma row_sub K K' S ks w E : (forall x xs, K !! x = Some xs -> K' !! x = Some xs) -> row K S ks w E -> row K' S ks w E.
Proof. intros HK. induction 1; [constructor|]. econstructor; eauto. Qed.
Lemma heavy_sub K K' r m w : (forall x xs, K !! x = Some xs -> K' !! x = Some xs) -> heavy K r m w -> heavy K' r m w.
Proof.
  intros HK [H|(n & H0 & H1 & ks & Hks & Ht)]; [by left|right]. exists n. split_and!; [done|done|]. exists ks.
  split; [by apply HK|by eapply row_sub].
Qed.
Lemma tree_inv K x ks n w : K !! x = Some ks -> tree K x n w -> row K 0 ks w n.
Proof. intros Hx (ks' & Hx' & H). congruence. Qed.

(** * Linking two trees *)

Definition meets (K : kids) (a b w l : nat) (K' : kids) : Prop :=
  (w = a /\ l = b \/ w = b /\ l = a) /\ exists ks, K !! w = Some ks /\ K' = <[w := ks ++ [l]]> K.

Lemma meets_tree K a b w l K' na wa nb wb : meets K a b w l K' -> a <> b -> ~ kid K a -> ~ kid K b ->
  tree K a na wa -> tree K b nb wb -> tree K' w (na + nb + 1) (wa * wb * (na + nb + 1)).
Proof.
  intros (Hwl & ks & Hw & ->) Hab Ha Hb Ta Tb.
  assert (exists nw ww nl wl, tree K w nw ww /\ tree K l nl wl /\ nw + nl = na + nb /\ ww * wl = wa * wb /\ w <> l /\ ~ kid K w)
    as (nw & ww & nl & wl & Tw & Tl & Hn & Hww & Hne & Hkw).
  { destruct Hwl as [[-> ->]|[-> ->]]; [exists na, wa, nb, wb|exists nb, wb, na, wa]; split_and!; try done; lia. }
  rewrite <- Hn, <- Hww. exists (ks ++ [l]). split; [by rewrite lookup_insert|].
  assert (HK : forall x, x <> w -> <[w:=ks ++ [l]]> K !! x = K !! x) by (intros; by rewrite lookup_insert_ne).
  apply row_app. exists ww, nw, (wl * (nw + nl + 1)). split_and!; [|by apply row_single; eapply tree_frame|ring].
  eapply row_frame; [done|done| |by eapply tree_inv]. intros Hin. apply Hkw. by exists w, ks.
Qed.

Lemma meets_other K a b w l K' x n u : meets K a b w l K' -> ~ kid K a -> ~ kid K b -> x <> a -> x <> b ->
  tree K x n u -> tree K' x n u.
Proof.
  intros (Hwl & ks & Hw & ->) Ha Hb Hxa Hxb. apply (tree_frame _ _ w).
  - by destruct Hwl as [[-> _]|[-> _]].
  - intros. by rewrite lookup_insert_ne.
  - by destruct Hwl as [[-> _]|[-> _]].
Qed.
Lemma meets_row K a b w l K' S ks E u : meets K a b w l K' -> ~ kid K a -> ~ kid K b -> a ∉ ks -> b ∉ ks ->
  row K S ks u E -> row K' S ks u E.
Proof.
  intros (Hwl & xs & Hw & ->) Ha Hb Hxa Hxb. apply (row_frame _ _ w).
  - by destruct Hwl as [[-> _]|[-> _]].
  - intros. by rewrite lookup_insert_ne.
  - by destruct Hwl as [[-> _]|[-> _]].
Qed.
Lemma meets_kid K a b w l K' x : meets K a b w l K' -> ~ kid K x -> x <> l -> ~ kid K' x.
Proof.
  intros (Hwl & xs & Hw & ->) Hx Hxl (p & ks & Hp & Hin).
  apply lookup_insert_Some in Hp as [[<- <-]|[_ Hp]]; [|apply Hx; by exists p, ks].
  apply elem_of_app in Hin as [Hin|Hin%elem_of_list_singleton]; [|done]. apply Hx. by exists w, xs.
Qed.

(** * Pairing *)

(** The loop of the pairing pass: two comparisons for every two trees, paid by
    the growth of the accumulated tree. *)
Definition spent (n : nat) (K : kids) (acc : nat) (rest : list nat) (K' : kids) (acc' : nat) (rest' : list nat) : Prop :=
  forall na w w' E, tree K acc na w -> row K (na + 1) rest w' E ->
    exists na' u u', tree K' acc' na' u /\ row K' (na' + 1) rest' u' E /\ na <= na' /\
      2 ^ n * (u * u') * (na + 1) ^ 2 <= w * w' * (na' + 1) ^ 2.

Lemma spent_none K acc rest : spent 0 K acc rest K acc rest.
Proof. intros na w w' E H1 H2. exists na, w, w'. split_and!; [done|done|done|]. cbn. lia. Qed.

Lemma le_sum x y : x <= y -> exists z, y = x + z.
Proof. intros. exists (y - x). lia. Qed.

Lemma pair_weight S c d : 4 * ((c + d + 1) * (S + c + d + 2)) * (S + 1) ^ 2 <= (S + c + 2) * (S + c + d + 3) * (S + c + d + 3) ^ 2.
Proof.
  assert (4 * (c + d + 1) * (S + 1) <= (S + c + d + 3) ^ 2) as H1.
  { replace ((S + c + d + 3) ^ 2) with ((S + c + d + 3) * (S + c + d + 3)) by (cbn; ring). 
    replace (S + c + d + 3) with ((c + d + 1) + (S + 1) + 1) by lia. generalize (c + d + 1), (S + 1). intros x y.
    destruct (Nat.le_ge_cases x y) as [[z ->]%le_sum|[z ->]%le_sum]; nia. }
  assert ((S + c + d + 2) * (S + 1) <= (S + c + 2) * (S + c + d + 3)) as H2 by nia.
  replace (4 * ((c + d + 1) * (S + c + d + 2)) * (S + 1) ^ 2)
    with ((4 * (c + d + 1) * (S + 1)) * ((S + c + d + 2) * (S + 1))) by (cbn; ring).
  rewrite (Nat.mul_comm (_ * _) (_ ^ 2)). by apply Nat.mul_le_mono.
Qed.

Lemma spent_pair n K K1 K2 K' acc cur next rest m lo acc' lo' acc'' rest' :
  meets K cur next m lo K1 -> meets K1 acc m acc' lo' K2 ->
  ~ kid K acc -> ~ kid K cur -> ~ kid K next -> acc <> cur -> acc <> next -> cur <> next ->
  acc ∉ rest -> cur ∉ rest -> next ∉ rest ->
  spent n K2 acc' rest K' acc'' rest' -> spent (1 + (1 + n)) K acc (cur :: next :: rest) K' acc'' rest'.
Proof.
  intros M1 M2 Ka Kc Kn Hac Han Hcn Hra Hrc Hrn H na w w' E Ta Hr.
  inversion Hr as [|? ? cs ? c wc w2 ? Hcs Rc Hr1]; subst. inversion Hr1 as [|? ? ds ? d wd w3 ? Hds Rd Hr2]; subst.
  assert (Tc : tree K cur c wc) by (by exists cs). assert (Td : tree K next d wd) by (by exists ds).
  pose proof (meets_tree _ _ _ _ _ _ _ _ _ _ M1 Hcn Kc Kn Tc Td) as Tm.
  assert (Hm : (m = cur /\ lo = next) \/ (m = next /\ lo = cur)) by apply M1.
  assert (Ta1 : tree K1 acc na w) by (by eapply meets_other).
  assert (Ka1 : ~ kid K1 acc).
  { eapply meets_kid; [done|done|]. by destruct Hm as [[-> ->]|[-> ->]]. }
  assert (Km1 : ~ kid K1 m).
  { eapply meets_kid; [done|by destruct Hm as [[-> ->]|[-> ->]]|by destruct Hm as [[-> ->]|[-> ->]]]. }
  assert (Ham : acc <> m) by (by destruct Hm as [[-> ->]|[-> ->]]).
  pose proof (meets_tree _ _ _ _ _ _ _ _ _ _ M2 Ham Ka1 Km1 Ta1 Tm) as Ta2.
  assert (Hr3 : row K2 (na + (c + d + 1) + 1 + 1) rest w3 E).
  { replace (na + (c + d + 1) + 1 + 1) with (na + 1 + c + 1 + d + 1) by lia.
    eapply meets_row; [exact M2|done|done|done|by destruct Hm as [[-> ->]|[-> ->]]|].
    by eapply meets_row. }
  destruct (H _ _ _ _ Ta2 Hr3) as (na' & u & u' & T' & R' & Hle & Hw).
  exists na', u, u'. split_and!; [done|done|lia|].
  replace (2 ^ (1 + (1 + n))) with (4 * 2 ^ n) by (cbn; ring).
  set (X := u * u') in *. set (P := 2 ^ n) in *. set (M := (na' + 1) ^ 2) in *.
  pose proof (pair_weight na c d) as HP.
  set (S' := na + (c + d + 1) + 1 + 1) in *.
  replace (na + c + d + 3) with S' in HP by (unfold S'; lia).
  replace (na + c + d + 2) with (na + (c + d + 1) + 1) in HP by lia.
  replace (na + 1 + c + 1) with (na + c + 2) by lia. replace (na + c + 2 + d + 1) with S' by (unfold S'; lia).
  set (A := (c + d + 1) * (na + (c + d + 1) + 1)) in *.
  replace (w * (wc * wd * (c + d + 1)) * (na + (c + d + 1) + 1) * w3) with (w * wc * wd * w3 * A) in Hw by (unfold A; ring).
  replace (w * (wc * (na + c + 2) * (wd * S' * w3))) with (w * wc * wd * w3 * ((na + c + 2) * S')) by ring.
  set (W := w * wc * wd * w3) in *. set (Q := (na + c + 2) * S') in *.
  assert (Hs : 0 < S' ^ 2) by (apply Nat.neq_0_lt_0, Nat.pow_nonzero; unfold S'; lia).
  apply (Nat.mul_le_mono_pos_r _ _ (S' ^ 2)); [done|].
  set (B := (na + 1) ^ 2) in *. set (Z := S' ^ 2) in *.
  (* P X Z <= W A M and 4 A B <= Q Z *)
  change (S' ^ 2) with Z in Hw. 
  transitivity (4 * B * (W * A * M)).
  - replace (4 * P * X * B * Z) with (4 * B * (P * X * Z)) by ring. by apply Nat.mul_le_mono_l.
  - replace (4 * B * (W * A * M)) with (W * M * (4 * A * B)) by ring.
    replace (W * Q * M * Z) with (W * M * (Q * Z)) by ring. by apply Nat.mul_le_mono_l.
Qed.

(** The children [ks] of a node that is gone become one tree. *)
Definition gathers (n : nat) (K : kids) (ks : list nat) (K' : kids) (r : nat) : Prop :=
  forall w E, row K 0 ks w E -> exists u, heavy K' r E u /\ 2 ^ n * u <= 2 * (E + 1) ^ 2 * w.

Lemma gathers_none K : gathers 0 K [] K 0.
Proof.
  intros w E H. inversion H; subst. exists 1. split; [by left|]. by vm_compute; lia.
Qed.

Lemma gathers_even n K h ks K' r : spent n K h ks K' r [] -> r <> 0 -> gathers n K (h :: ks) K' r.
Proof.
  intros H Hr w E Hrow. inversion Hrow as [|? ? cs ? T wh w2 ? Hc Hcs Hr1]; subst.
  destruct (H T wh w2 E) as (na' & u & u' & T' & R' & Hle & Hw); [by exists cs|done|]. inversion R'; subst.
  exists u. split; [right; by exists na'|]. cbn [Nat.add].
  assert (1 <= (T + 1) ^ 2) by (cbn; nia). set (B := (T + 1) ^ 2) in *. set (M := (na' + 1) ^ 2) in *.
  transitivity (wh * w2 * M); [nia|].
  assert (M <= (na' + 1 + 1) ^ 2) by (apply Nat.pow_le_mono_l; lia). set (M' := (na' + 1 + 1) ^ 2) in *.
  transitivity (wh * w2 * M'); [by apply Nat.mul_le_mono_l|]. nia.
Qed.

Lemma gathers_odd n K h ks K1 acc c K' r lo : spent n K h ks K1 acc [c] -> meets K1 acc c r lo K' ->
  ~ kid K1 acc -> ~ kid K1 c -> acc <> c -> r <> 0 -> gathers (n + 1) K (h :: ks) K' r.
Proof.
  intros H M Ka Kc Hac Hr w E Hrow. inversion Hrow as [|? ? cs ? T wh w2 ? Hc Hcs Hr1]; subst.
  destruct (H T wh w2 E) as (na' & u & u' & T' & R' & Hle & Hw); [by exists cs|done|].
  apply row_single_inv in R' as (nc & uc & Tc & -> & ->).
  pose proof (meets_tree _ _ _ _ _ _ _ _ _ _ M Hac Ka Kc T' Tc) as Tr.
  eexists. split; [right; exists (na' + nc + 1); split_and!; [done|lia|exact Tr]|].
  rewrite Nat.pow_add_r. cbn [Nat.add] in *.
  set (P := 2 ^ n) in *. assert (1 <= (T + 1) ^ 2) as HB by (cbn; nia).
  set (M' := (na' + 1 + nc + 1 + 1) ^ 2). assert (HM : (na' + 1) ^ 2 <= M') by (apply Nat.pow_le_mono_l; lia).
  transitivity (2 * (P * (u * (uc * (na' + 1 + nc + 1))) * (T + 1) ^ 2)).
  - transitivity (2 * (P * (u * (uc * (na' + 1 + nc + 1))) * 1)); [|by apply Nat.mul_le_mono_l, Nat.mul_le_mono_l].
    rewrite Nat.mul_1_r. replace (P * 2 ^ 1 * (u * uc * (na' + nc + 1))) with (2 * (P * (u * (uc * (na' + nc + 1))))) by (cbn; ring).
    repeat apply Nat.mul_le_mono_l. lia.
  - transitivity (2 * (wh * w2 * M')); [apply Nat.mul_le_mono_l; etransitivity; [exact Hw|by apply Nat.mul_le_mono_l]|].
    replace (2 * M' * (wh * (T + 1) * w2)) with (2 * (wh * w2 * M') * (T + 1)) by ring. nia.
Qed.

(** * Cutting *)

(** The children of a node after [e] is cut out of [a ++ e :: b]: when the
    youngest is cut, the oldest becomes the youngest. *)
Definition remaining (a b : list nat) : list nat :=
  match b with [] => match a with [] => [] | h :: a' => a' ++ [h] end | _ => a ++ b end.

Lemma cut_row_here K a e b w E : row K 0 (a ++ e :: b) w E ->
  exists w' E' T u, row K 0 (remaining a b) w' E' /\ tree K e T u /\ E' + T + 1 = E /\ w' * u <= w.
Proof.
  intros (w1 & E1 & w2 & H1 & H2 & ->)%row_app. inversion H2 as [|? ? es ? T u w3 ? He Hes H3]; subst.
  assert (Te : tree K e T u) by (by exists es).
  destruct b as [|y b].
  - inversion H3; subst. destruct a as [|h a].
    + inversion H1; subst. exists 1, 0, T, u. split_and!; [constructor|done|lia|]. nia.
    + inversion H1 as [|? ? hs ? Th uh w4 ? Hh Hhs H4]; subst. cbn [Nat.add] in H4.
      destruct (row_less K (Th + 1) 0 a w4 E1) as (w5 & E5 & H5 & Hw5 & HE5); [lia|done|].
      exists (w5 * (uh * (E5 + Th + 1))), (E5 + Th + 1), T, u. split_and!; [|done|lia|].
      * cbn [remaining]. apply row_app. exists w5, E5, (uh * (E5 + Th + 1)). split_and!; [done|apply row_single; by exists hs|done].
      * cbn [Nat.add]. replace (E5 + Th + 1) with E1 by lia. rewrite Nat.mul_1_r.
        transitivity (w4 * (uh * (E1 + T + 1)) * u); [|nia].
        apply Nat.mul_le_mono_r. apply Nat.mul_le_mono; [done|]. apply Nat.mul_le_mono_l. lia.
  - destruct (row_less K (E1 + T + 1) E1 (y :: b) w3 E) as (w5 & E5 & H5 & Hw5 & HE5); [lia|done|].
    exists (w1 * w5), E5, T, u. split_and!; [apply row_app; eauto 10|done|lia|].
    transitivity (w1 * w3 * u); [|nia]. apply Nat.mul_le_mono_r. by apply Nat.mul_le_mono_l.
Qed.

Lemma desc_first K x q : desc K x q -> x = q \/ exists xs k, K !! x = Some xs /\ k ∈ xs /\ desc K k q.
Proof.
  intros Hd. induction Hd as [|p ps z Hd IHd Hp Hz]; [by left|right]. destruct IHd as [->|(xs & k & Hxs & Hk & Hkp)].
  - exists ps, z. split_and!; [done|done|constructor].
  - exists xs, k. split_and!; [done|done|]. by eapply desc_kid.
Qed.

Section cut.
Context (K : kids) (q e : nat) (a b : list nat) (Hq : K !! q = Some (a ++ e :: b)).
Let K' : kids := <[q := remaining a b]> K.

Definition gain (here : Prop) (w w' E E' : nat) : Prop :=
  w' <= w /\ E' <= E /\ (here -> exists T u, tree K' e T u /\ w' * u <= w /\ E' + T + 1 <= E).

Lemma cut_tree_here c cs w T : K !! c = Some cs ->
  (exists w' T', row K' 0 cs w' T' /\ gain (exists k, k ∈ cs /\ desc K k q) w w' T T') ->
  exists w' T', tree K' c T' w' /\ gain (desc K c q) w w' T T'.
Proof.
  intros Hc (w' & T' & Hr & Hw & HT & Hg). destruct (decide (c = q)) as [->|Hne].
  - rewrite Hq in Hc. injection Hc as <-. destruct (cut_row_here _ _ _ _ _ _ Hr) as (w2 & T2 & Te & u & H1 & H2 & H3 & H4).
    pose proof (tree_pos _ _ _ _ H2).
    exists w2, T2. split; [exists (remaining a b); split; [unfold K'; by rewrite lookup_insert|done]|].
    split_and!; [nia|lia|]. intros _. exists Te, u. split_and!; [done|lia|lia].
  - exists w', T'. split; [exists cs; split; [unfold K'; by rewrite lookup_insert_ne|done]|]. split_and!; [done|done|].
    intros [?|(xs & k & Hxs & Hk & Hd)]%desc_first; [done|]. apply Hg. exists k. split; [congruence|done].
Qed.

Lemma cut_row S ks w E : row K S ks w E ->
  exists w' E', row K' S ks w' E' /\ gain (exists k, k ∈ ks /\ desc K k q) w w' E E'.
Proof.
  induction 1 as [S|S c cs ks T w1 w2 E Hc Hcs IH1 Hr IH2].
  { exists 1, S. split; [constructor|]. split_and!; [done|done|]. by intros (? & ?%elem_of_nil & _). }
  destruct (cut_tree_here _ _ _ _ Hc IH1) as (u1 & T1 & (cs' & Hc' & Hcs') & G1 & G2 & G3).
  destruct IH2 as (u2 & E2 & R2 & G4 & G5 & G6).
  destruct (row_less K' (S + T + 1) (S + T1 + 1) ks u2 E2) as (u3 & E3 & R3 & Hu3 & HE3); [lia|done|].
  exists (u1 * (S + T1 + 1) * u3), E3. split; [by econstructor|].
  assert (Hm : u1 * (S + T1 + 1) * u3 <= w1 * (S + T + 1) * w2).
  { apply Nat.mul_le_mono; [apply Nat.mul_le_mono; lia|lia]. }
  split_and!; [done|lia|]. intros (k & [->|Hk]%elem_of_cons & Hd).
  - destruct (G3 Hd) as (Te & u & H1 & H2 & H3). exists Te, u. split_and!; [done| |lia].
    replace (u1 * (S + T1 + 1) * u3 * u) with ((u1 * u) * (S + T1 + 1) * u3) by ring.
    apply Nat.mul_le_mono; [apply Nat.mul_le_mono; lia|lia].
  - destruct G6 as (Te & u & H1 & H2 & H3); [eauto|]. exists Te, u. split_and!; [done| |lia].
    replace (u1 * (S + T1 + 1) * u3 * u) with (u1 * (S + T1 + 1) * (u3 * u)) by ring.
    apply Nat.mul_le_mono; [apply Nat.mul_le_mono; lia|]. transitivity (u2 * u); [by apply Nat.mul_le_mono_r|done].
Qed.

Lemma cut_tree r n w : desc K r q -> tree K r n w ->
  exists n' w' T u, tree K' r n' w' /\ tree K' e T u /\ w' * u <= w /\ n' + T + 1 <= n.
Proof.
  intros Hd (ks & Hr & H). destruct (cut_tree_here r ks w n Hr (cut_row _ _ _ _ H)) as (w' & n' & Ht & _ & _ & Hg).
  destruct (Hg Hd) as (T & u & H1 & H2 & H3). exists n', w', T, u. done.
Qed.
End cut.

(** * What a call costs *)

(** [n] comparisons lead from the heap [K] with root [r] to [K'] with root [r'],
    which has at most [up] elements more and at least [down] fewer; [c] pays for
    them and for the change of weight. *)
Definition toll (n : nat) (c : nat -> nat) (up down : nat) (K : kids) (r : nat) (K' : kids) (r' : nat) : Prop :=
  forall m w, heavy K r m w -> exists m' w', heavy K' r' m' w' /\ m' + down <= m + up /\ 2 ^ n * w' <= c m * w.

Lemma toll_none K r : toll 0 (fun _ => 1) 0 0 K r K r.
Proof. intros m w H. exists m, w. split_and!; [done|lia|cbn; lia]. Qed.

(** The tree at [e] joins the heap. *)
Definition joins (n : nat) (K : kids) (r e : nat) (K' : kids) (r' : nat) : Prop :=
  forall m w ne we, heavy K r m w -> tree K e ne we ->
    exists w', heavy K' r' (m + ne + 1) w' /\ 2 ^ n * w' <= 2 * (m + ne + 1) * (w * we).

Lemma joins_empty K e : e <> 0 -> joins 0 K 0 e K e.
Proof.
  intros He m w ne we [(_ & -> & ->)|(n & ? & _)] Te; [|done]. exists we. split; [right; by exists ne|]. 
  cbn [Nat.add Nat.pow]. nia.
Qed.
Lemma joins_meet K r e w l K' : meets K r e w l K' -> r <> 0 -> w <> 0 -> r <> e -> ~ kid K r -> ~ kid K e -> joins 1 K r e K' w.
Proof.
  intros M Hr Hw Hre Kr Ke m u ne we [(? & _)|(n & _ & -> & Tr)] Te; [done|].
  pose proof (meets_tree _ _ _ _ _ _ _ _ _ _ M Hre Kr Ke Tr Te) as T. eexists. split.
  { right. exists (n + ne + 1). split_and!; [done|lia|exact T]. }
  cbn [Nat.pow]. replace (2 * 1 * (u * we * (n + ne + 1))) with (2 * (n + ne + 1) * (u * we)) by ring.
  apply Nat.mul_le_mono_r. lia.
Qed.

(** A new element. *)
Lemma toll_join n K r e K' r' : K !! e = None -> joins n (<[e:=[]]> K) r e K' r' -> toll n (fun m => 2 * (m + 1)) 1 0 K r K' r'.
Proof.
  intros He H m w Hh. destruct (H m w 0 1) as (w' & H1 & H2).
  - eapply heavy_sub; [|done]. intros x xs Hx. rewrite lookup_insert_ne; [done|]. intros <-. congruence.
  - exists []. rewrite lookup_insert. split; [done|constructor].
  - exists (m + 0 + 1), w'. split_and!; [done|lia|]. rewrite Nat.add_0_r, Nat.mul_1_r in H2. done.
Qed.

(** Cut out of the heap and joined again. *)
Lemma toll_cut n K q a e b r K' r' : K !! q = Some (a ++ e :: b) -> r <> 0 -> desc K r q ->
  joins n (<[q := remaining a b]> K) r e K' r' -> toll n (fun m => 2 * m) 0 0 K r K' r'.
Proof.
  intros Hq H0 Hd H m w [(? & _)|(k & _ & -> & Tr)]; [done|].
  destruct (cut_tree _ _ _ _ _ Hq _ _ _ Hd Tr) as (n' & w1 & T & u & T1 & T2 & Hw & Hn).
  destruct (H (n' + 1) w1 T u) as (w' & H1 & H2); [right; by exists n'|done|].
  exists (n' + 1 + T + 1), w'. split_and!; [done|lia|]. etransitivity; [exact H2|]. apply Nat.mul_le_mono; lia.
Qed.

(** The root is deleted. *)
Lemma toll_root n K e ks K' r' : K !! e = Some ks -> e <> 0 -> ~ kid K e ->
  gathers n (delete e K) ks K' r' -> toll n (fun m => 4 * m ^ 3) 0 1 K e K' r'.
Proof.
  intros He H0 Ke H m w [(? & _)|(k & _ & -> & Tr)]; [done|].
  destruct (H w k) as (u & H1 & H2).
  { eapply (row_frame K _ e); [done| | |by eapply tree_inv].
    - intros. by rewrite lookup_delete_ne.
    - intros Hin. apply Ke. by exists e, ks. }
  exists k, u. split_and!; [done|lia|]. etransitivity; [exact H2|]. apply Nat.mul_le_mono_r.
  cbn. nia.
Qed.

(** Another element is deleted. *)
Lemma toll_delete_last n K q a e b r ks K2 : K !! q = Some (a ++ e :: b) -> r <> 0 -> desc K r q -> e <> r ->
  let K1 := <[q := remaining a b]> K in K1 !! e = Some ks -> ~ kid K1 e ->
  gathers n (delete e K1) ks K2 0 -> (forall m w, tree (delete e K1) r m w -> tree K2 r m w) ->
  toll n (fun m => 4 * m ^ 3) 0 1 K r K2 r.
Proof.
  intros Hq H0 Hd Her K1 He Ke H HE m w [(? & _)|(k & _ & -> & Tr)]; [done|].
  destruct (cut_tree _ _ _ _ _ Hq _ _ _ Hd Tr) as (n' & w1 & T & u & T1 & T2 & Hw & Hn). fold K1 in T1, T2.
  destruct (H u T) as (u2 & Hh & H2).
  { eapply (row_frame K1 _ e); [done| | |by eapply tree_inv].
    - intros. by rewrite lookup_delete_ne.
    - intros Hin. apply Ke. by exists e, ks. }
  destruct Hh as [(_ & -> & ->)|(? & ? & _)]; [|done].
  exists (n' + 1), w1. split_and!; [|lia|].
  - right. exists n'. split_and!; [done|done|]. apply HE. eapply (tree_frame K1 _ e); [done| |done|done].
    intros. by rewrite lookup_delete_ne.
  - rewrite Nat.mul_1_r in H2. cbn in H2. transitivity (2 * (w1 * u)).
    + replace (2 * (w1 * u)) with (2 * u * w1) by ring. apply Nat.mul_le_mono_r. lia.
    + transitivity (2 * w); [lia|]. apply Nat.mul_le_mono_r. cbn. nia.
Qed.
Lemma toll_delete n K q a e b r ks K2 r2 l K3 : K !! q = Some (a ++ e :: b) -> r <> 0 -> desc K r q -> e <> r ->
  let K1 := <[q := remaining a b]> K in K1 !! e = Some ks -> ~ kid K1 e ->
  gathers n (delete e K1) ks K2 r2 -> (forall m w, tree (delete e K1) r m w -> tree K2 r m w) ->
  r2 <> 0 -> r <> r2 -> ~ kid K2 r -> ~ kid K2 r2 -> meets K2 r r2 r l K3 ->
  toll (n + 1) (fun m => 4 * m ^ 3) 0 1 K r K3 r.
Proof.
  intros Hq H0 Hd Her K1 He Ke H HE Hr2 Hrr Kr Kr2 M m w [(? & _)|(k & _ & -> & Tr)]; [done|].
  destruct (cut_tree _ _ _ _ _ Hq _ _ _ Hd Tr) as (n' & w1 & T & u & T1 & T2 & Hw & Hn). fold K1 in T1, T2.
  destruct (H u T) as (u2 & Hh & H2).
  { eapply (row_frame K1 _ e); [done| | |by eapply tree_inv].
    - intros. by rewrite lookup_delete_ne.
    - intros Hin. apply Ke. by exists e, ks. }
  destruct Hh as [(? & _ & _)|(t & _ & -> & Tt)]; [done|].
  assert (Tr2 : tree K2 r n' w1).
  { apply HE. eapply (tree_frame K1 _ e); [done| |done|done]. intros. by rewrite lookup_delete_ne. }
  pose proof (meets_tree _ _ _ _ _ _ _ _ _ _ M Hrr Kr Kr2 Tr2 Tt) as T3.
  eexists (n' + t + 1 + 1), _. split_and!; [right; exists (n' + t + 1); split_and!; [done|done|exact T3]|lia|].
  rewrite Nat.pow_add_r. change (2 ^ 1) with 2. set (P := 2 ^ n) in *.
  transitivity (2 * w1 * (2 * (t + 1 + 1) ^ 2 * u) * (n' + t + 1)).
  - replace (P * 2 * (w1 * u2 * (n' + t + 1))) with (2 * w1 * (P * u2) * (n' + t + 1)) by ring.
    apply Nat.mul_le_mono_r. by apply Nat.mul_le_mono_l.
  - replace (2 * w1 * (2 * (t + 1 + 1) ^ 2 * u) * (n' + t + 1)) with (4 * ((t + 1 + 1) ^ 2 * (n' + t + 1)) * (w1 * u)) by ring.
    apply Nat.mul_le_mono; [|done]. apply Nat.mul_le_mono_l.
    replace ((k + 1) ^ 3) with ((k + 1) ^ 2 * (k + 1)) by (cbn; ring).
    apply Nat.mul_le_mono; [apply Nat.pow_le_mono_l; lia|lia].
Qed.

Lemma toll_trans n1 c1 u1 d1 n2 c2 u2 d2 K1 r1 K2 r2 K3 r3 (c : nat -> nat) :
  toll n1 c1 u1 d1 K1 r1 K2 r2 -> toll n2 c2 u2 d2 K2 r2 K3 r3 ->
  (forall m m', m' + d1 <= m + u1 -> c1 m * c2 m' <= c m) ->
  toll (n1 + n2) c (u1 + u2) (d1 + d2) K1 r1 K3 r3.
Proof.
  intros H1 H2 Hc m w H. destruct (H1 m w H) as (m1 & w1 & Hh1 & Hm1 & Hw1).
  destruct (H2 m1 w1 Hh1) as (m2 & w2 & Hh2 & Hm2 & Hw2). exists m2, w2. split_and!; [done|lia|].
  rewrite Nat.pow_add_r. transitivity (2 ^ n1 * (c2 m1 * w1)).
  - replace (2 ^ n1 * 2 ^ n2 * w2) with (2 ^ n1 * (2 ^ n2 * w2)) by ring. by apply Nat.mul_le_mono_l.
  - replace (2 ^ n1 * (c2 m1 * w1)) with (c2 m1 * (2 ^ n1 * w1)) by ring.
    transitivity (c2 m1 * (c1 m * w)); [by apply Nat.mul_le_mono_l|].
    replace (c2 m1 * (c1 m * w)) with (c1 m * c2 m1 * w) by ring. apply Nat.mul_le_mono_r. by apply Hc.
Qed.

Lemma le_pow4 m : 1 <= m -> m <= m ^ 4.
Proof. intros H. rewrite <- (Nat.pow_1_r m) at 1. apply Nat.pow_le_mono_r; lia. Qed.

Lemma toll_rejoin n1 n2 K1 r1 K2 r2 K3 r3 : toll n1 (fun m => 4 * m ^ 3) 0 1 K1 r1 K2 r2 ->
  toll n2 (fun m => 2 * (m + 1)) 1 0 K2 r2 K3 r3 -> toll (n1 + n2) (fun m => 8 * m ^ 4) 0 0 K1 r1 K3 r3.
Proof.
  intros H1 H2 m w H. destruct (H1 m w H) as (m1 & w1 & Hh1 & Hm1 & Hw1).
  destruct (toll_trans n1 _ 0 1 n2 _ 1 0 K1 r1 K2 r2 K3 r3 (fun m => 8 * m ^ 4) H1 H2) with (m := m) (w := w) as (m2 & w2 & Hh2 & Hm2 & Hw2).
  - intros k k' Hk. transitivity (4 * k ^ 3 * (2 * k)); [apply Nat.mul_le_mono_l; lia|].
    replace (8 * k ^ 4) with (4 * k ^ 3 * (2 * k)) by (cbn; ring). done.
  - done.
  - exists m2, w2. split_and!; [done|lia|done].
Qed.

Lemma toll_more n c u d K r K' r' n' c' : toll n c u d K r K' r' -> n' <= n + 1 -> (forall m, 2 * c m <= c' m) ->
  toll n' c' u d K r K' r'.
Proof.
  intros H Hn Hc m w Hh. destruct (H m w Hh) as (m1 & w1 & Hh1 & Hm1 & Hw1). exists m1, w1. split_and!; [done|done|].
  transitivity (2 ^ (n + 1) * w1); [apply Nat.mul_le_mono_r, Nat.pow_le_mono_r; lia|].
  rewrite Nat.pow_add_r. change (2 ^ 1) with 2. transitivity (2 * c m * w); [|by apply Nat.mul_le_mono_r]. lia.
Qed.
Lemma toll_double n u d K r K' r' n' : toll n (fun m => 8 * m ^ 4) u d K r K' r' -> n' <= n + 1 ->
  toll n' (fun m => 16 * m ^ 4) u d K r K' r'.
Proof. intros H Hn. eapply toll_more; [exact H|done|]. intros m. cbv beta. rewrite Nat.mul_assoc. done. Qed.
Lemma toll_less n c u d K r K' r' c' : toll n c u d K r K' r' -> (forall m, 1 <= m -> c m <= c' m) -> r <> 0 ->
  toll n c' u d K r K' r'.
Proof.
  intros H Hc Hr m w Hh. destruct (H m w Hh) as (m1 & w1 & Hh1 & Hm1 & Hw1). exists m1, w1. split_and!; [done|done|].
  transitivity (c m * w); [done|]. apply Nat.mul_le_mono_r, Hc. destruct Hh as [(? & _)|(? & _ & -> & _)]; [done|lia].
Qed.

(** * Calls *)

(** A call making [n] comparisons is paid by [q], taking the heap from at most
    [k] to at most [k'] elements. *)
Definition pays (n q k k' : nat) (K : kids) (r : nat) (K' : kids) (r' : nat) : Prop :=
  forall m w, m <= k -> heavy K r m w -> exists m' w', m' <= k' /\ heavy K' r' m' w' /\ 2 ^ n * w' <= 2 ^ q * w.

Lemma pays_none q k K r : pays 0 q k k K r K r.
Proof.
  intros m w Hm H. exists m, w. split_and!; [done|done|]. apply Nat.mul_le_mono_r. apply Nat.pow_le_mono_r; lia.
Qed.
Lemma pays_trans n1 q1 k1 k2 n2 q2 k3 q K1 r1 K2 r2 K3 r3 :
  pays n1 q1 k1 k2 K1 r1 K2 r2 -> pays n2 q2 k2 k3 K2 r2 K3 r3 -> q1 + q2 <= q ->
  pays (n1 + n2) q k1 k3 K1 r1 K3 r3.
Proof.
  intros H1 H2 Hq m w Hm H. destruct (H1 m w Hm H) as (m1 & w1 & Hm1 & Hh1 & Hw1).
  destruct (H2 m1 w1 Hm1 Hh1) as (m2 & w2 & Hm2 & Hh2 & Hw2). exists m2, w2. split_and!; [done|done|].
  transitivity (2 ^ (q1 + q2) * w); [|apply Nat.mul_le_mono_r, Nat.pow_le_mono_r; lia].
  rewrite !Nat.pow_add_r. transitivity (2 ^ n1 * (2 ^ q2 * w1)).
  - replace (2 ^ n1 * 2 ^ n2 * w2) with (2 ^ n1 * (2 ^ n2 * w2)) by ring. by apply Nat.mul_le_mono_l.
  - replace (2 ^ n1 * (2 ^ q2 * w1)) with (2 ^ q2 * (2 ^ n1 * w1)) by ring.
    replace (2 ^ q1 * 2 ^ q2 * w) with (2 ^ q2 * (2 ^ q1 * w)) by ring. by apply Nat.mul_le_mono_l.
Qed.
Lemma pays_toll n q k k' c up down K r K' r' : toll n c up down K r K' r' -> (forall m, m <= k -> c m <= 2 ^ q) ->
  k + up <= k' + down -> pays n q k k' K r K' r'.
Proof.
  intros H Hc Hk m w Hm Hh. destruct (H m w Hh) as (m1 & w1 & Hh1 & Hm1 & Hw1). exists m1, w1.
  split_and!; [lia|done|]. etransitivity; [exact Hw1|]. apply Nat.mul_le_mono_r. by apply Hc.
Qed.

Lemma le_log2_up m k : m <= k -> m <= 2 ^ Nat.log2_up k.
Proof.
  intros H. destruct (decide (k <= 1)) as [Hk|Hk].
  - rewrite (Nat.log2_up_eqn0 k) by lia. cbn. lia.
  - pose proof (Nat.log2_up_spec k). lia.
Qed.
Lemma push_share m k : m <= k -> 2 * (m + 1) <= 2 ^ (1 + Nat.log2_up (k + 1)).
Proof. intros H. rewrite Nat.pow_add_r. apply Nat.mul_le_mono_l, le_log2_up. lia. Qed.
Lemma power_share m k a : m <= k -> m ^ a <= 2 ^ (a * Nat.log2_up k).
Proof. intros H. rewrite (Nat.mul_comm a), Nat.pow_mul_r. apply Nat.pow_le_mono_l. by apply le_log2_up. Qed.
Lemma pop_share m k : m <= k -> 4 * m ^ 3 <= 2 ^ (2 + 3 * Nat.log2_up k).
Proof. intros H. rewrite Nat.pow_add_r. by apply Nat.mul_le_mono_l, power_share. Qed.
Lemma change_share m k : m <= k -> 16 * m ^ 4 <= 2 ^ (4 + 4 * Nat.log2_up k).
Proof. intros H. rewrite Nat.pow_add_r. by apply Nat.mul_le_mono_l, power_share. Qed.
