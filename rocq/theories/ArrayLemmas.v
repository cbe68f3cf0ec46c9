(** Facts about slot arrays shared by the proofs. *)
From stdpp Require Import base numbers option list.
From Verif Require Import Common.

Section arr.
Context {A : Type}.

Lemma copy_in_Ok (l : list (option A)) dst vs :
  dst + length vs <= length l ->
  exists l', copy_in l dst vs = Ok l' /\ length l' = length l /\
    (forall i, dst <= i < dst + length vs -> l' !! i = vs !! (i - dst)) /\
    (forall i, ~ (dst <= i < dst + length vs) -> l' !! i = l !! i).
Proof.
  intros H. unfold copy_in. destruct (Nat.leb_spec (dst + length vs) (length l)); [|lia].
  eexists. split; [done|]. split; [|split].
  - rewrite !app_length, take_length, drop_length. lia.
  - intros i Hi. rewrite lookup_app_r; rewrite take_length; [|lia].
    rewrite lookup_app_l; [|lia]. f_equal. lia.
  - intros i Hi. destruct (decide (i < dst)).
    + rewrite lookup_app_l; [|rewrite take_length; lia]. by rewrite lookup_take.
    + rewrite lookup_app_r; rewrite take_length; [|lia].
      rewrite lookup_app_r; [|lia]. rewrite lookup_drop. f_equal. lia.
Qed.

Lemma copy_out_Ok (l : list (option A)) src n :
  src + n <= length l ->
  exists vs, copy_out l src n = Ok vs /\ length vs = n /\
    (forall i, i < n -> vs !! i = l !! (src + i)).
Proof.
  intros H. unfold copy_out. destruct (Nat.leb_spec (src + n) (length l)); [|lia].
  eexists. split; [done|]. split.
  - rewrite take_length, drop_length. lia.
  - intros i Hi. rewrite lookup_take by done. by rewrite lookup_drop.
Qed.

Lemma memmove_Ok (l : list (option A)) dst src n :
  dst + n <= length l -> src + n <= length l ->
  exists l', memmove l dst src n = Ok l' /\ length l' = length l /\
    (forall i, dst <= i < dst + n -> l' !! i = l !! (src + (i - dst))) /\
    (forall i, ~ (dst <= i < dst + n) -> l' !! i = l !! i).
Proof.
  intros H1 H2. unfold memmove.
  destruct (Nat.leb_spec (dst + n) (length l)); [|lia].
  destruct (Nat.leb_spec (src + n) (length l)); [|lia]. simpl.
  eexists. split; [done|]. split; [|split].
  - rewrite !app_length, !take_length, !drop_length. lia.
  - intros i Hi. rewrite lookup_app_r; rewrite take_length; [|lia].
    rewrite lookup_app_l; [|rewrite take_length, drop_length; lia].
    rewrite lookup_take by lia. rewrite lookup_drop. f_equal. lia.
  - intros i Hi. destruct (decide (i < dst)).
    + rewrite lookup_app_l; [|rewrite take_length; lia]. by rewrite lookup_take.
    + rewrite lookup_app_r; rewrite take_length; [|lia].
      rewrite lookup_app_r; rewrite take_length, drop_length; [|lia].
      rewrite lookup_drop. f_equal. lia.
Qed.

Lemma sget_Ok {X} (l : list X) i x : l !! i = Some x -> slot_get l i = Ok x.
Proof. unfold slot_get. by intros ->. Qed.
Lemma sset_Ok {X} (l : list X) i x : i < length l -> slot_set l i x = Ok (<[i:=x]> l).
Proof. unfold slot_set. intros. destruct (Nat.ltb_spec i (length l)); [done|lia]. Qed.

Lemma ring_mod f i c : f < c -> i <= c ->
  (f + i) mod c = if decide (f + i < c) then f + i else f + i - c.
Proof.
  intros Hf Hi. destruct (decide (f + i < c)).
  - apply Nat.mod_small. done.
  - replace (f + i) with (f + i - c + 1 * c) at 1 by lia.
    rewrite Nat.mod_add by lia. apply Nat.mod_small. lia.
Qed.
End arr.
