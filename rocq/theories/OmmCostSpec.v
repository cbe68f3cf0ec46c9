(** Histories of calls on the ordered multimap whose number of different keys is
    bounded. *)
From Coq Require Import Sorted.
From stdpp Require Import base numbers option gmap fin_maps list.
From Verif Require Import Common OmmOps OmmSpec.

Section spec.
Context {K V : Type} (cmp : K -> K -> comparison) (c : contract).

(** Elements with keys that are not equal. *)
Definition differ (A : view K V) (x y : nat) : Prop :=
  exists a b, vals A !! x = Some a /\ vals A !! y = Some b /\ cmp (fst a) (fst b) <> Eq.
(** The multimap holds at most [n] different keys. *)
Definition keys_within (n : nat) (A : view K V) : Prop :=
  forall l, (forall x, x ∈ l -> x ∈ queue A) -> StronglySorted (differ A) l -> length l <= n.

(** [calls] of OmmSpec.v during which the multimap never holds more than [n] different keys. *)
Inductive calls_within (n : nat) : view K V -> list (mm_op K V) -> list (mm_res K V) -> view K V -> Prop :=
  | within_nil A : keys_within n A -> calls_within n A [] [] A
  | within_cons A o r A1 os rs A2 : keys_within n A -> call cmp c A o r A1 -> calls_within n A1 os rs A2 ->
      calls_within n A (o :: os) (r :: rs) A2.
End spec.

(** Calls that follow links from node to node without splaying. *)
Definition walks {K V} (o : mm_op K V) : bool :=
  match o with
  | OBegin | ORBegin | ONext _ | ORNext _ | ORange _ _ | ORRange _ _ => true
  | _ => false
  end.
