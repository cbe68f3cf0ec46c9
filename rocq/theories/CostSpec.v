(** Vocabulary for what a sequence of calls on an ordered map may cost. *)
From stdpp Require Import base numbers option gmap list.
From Verif Require Import MapOps MapSpec.

Section spec.
Context {K V : Type} (cmp : K -> K -> comparison) (c : contract).

(** [calls] of MapSpec.v during which the map never holds more than [n] elements. *)
Inductive calls_within (n : nat) : view K V -> list (map_op K V) -> list (map_res K V) -> view K V -> Prop :=
  | within_nil A : length (elems A) <= n -> calls_within n A [] [] A
  | within_cons A o r A1 os rs A2 : length (elems A) <= n -> call cmp c A o r A1 -> calls_within n A1 os rs A2 ->
      calls_within n A (o :: os) (r :: rs) A2.
End spec.

(** Calls that follow links from node to node without splaying. *)
Definition walks {K V} (o : map_op K V) : bool :=
  match o with
  | MBegin | MRBegin | MNext _ | MRNext _ | MRange _ _ | MRRange _ _ => true
  | _ => false
  end.
