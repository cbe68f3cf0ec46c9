(** What the answer true of validate is worth: definitions to state it without
    reference to the invariants of the proofs. *)
From stdpp Require Import base numbers option gmap fin_maps list.
From Coq Require Import Sorting.Sorted.
From Verif Require Import Common LinkHeap TreeModel.

Section spec.
Context {K V : Type} (cmp : K -> K -> comparison).

(** A map that counts its elements as [n], shows them when walked upwards and
    downwards, and finds them: all in agreement, keys ascending. *)
Definition consistent (n : outcome Z) (up down : outcome (list (nat * (K * V)))) (finds : K -> nat -> Prop) : Prop :=
  exists es, n = Ok (Z.of_nat (length es)) /\ up = Ok es /\ down = Ok (rev es) /\
    StronglySorted (fun a b => cmp (fst (snd a)) (fst (snd b)) = Lt) es /\
    forall e kv, (e, kv) ∈ es -> finds (fst kv) e.

(** Memory in which validate may be asked at all: user structs [dat] with links
    [h]. Where links lead is arbitrary, but they do lead to a user struct, the
    sentinel [nil], or, the branches only, to NULL where there is one ([null]). *)
Definition target (nil : nat) (dat : gmap nat (K * V)) (p : nat) : Prop := p = nil \/ is_Some (dat !! p).
Definition readable (nil : nat) (null : nat -> bool) (dat : gmap nat (K * V)) (h : links) : Prop :=
  is_Some (pa h !! nil) /\
  forall x, is_Some (dat !! x) -> x <> nil /\ null x = false /\
    exists l r p, lf h !! x = Some l /\ rt h !! x = Some r /\ pa h !! x = Some p /\
      (target nil dat l \/ null l = true) /\ (target nil dat r \/ null r = true) /\ target nil dat p.
End spec.
