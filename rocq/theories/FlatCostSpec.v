(** Vocabulary for what a sequence of calls on an array backed ordered map may cost. *)
From stdpp Require Import base numbers option gmap list.
From Verif Require Import MapSpec FlatOps FlatSpec.

Section spec.
Context {K V : Type} (cmp : K -> K -> comparison) (c : fcontract).

(** [fcalls] of FlatSpec.v during which the map never holds more than [n] elements. *)
Inductive fcalls_within (n : nat) : fview K V -> list (flat_op K V) -> list (flat_res K V) -> fview K V -> Prop :=
  | fwithin_nil A : count A <= n -> fcalls_within n A [] [] A
  | fwithin_cons A o r A1 os rs A2 : count A <= n -> fcall cmp c A o r A1 -> fcalls_within n A1 os rs A2 ->
      fcalls_within n A (o :: os) (r :: rs) A2.
End spec.

(** Calls that follow links from node to node without splaying. *)
Definition fwalks {K V} (o : flat_op K V) : bool :=
  match o with
  | FBegin | FRBegin | FNext _ | FRNext _ | FRange _ _ | FRRange _ _ => true
  | _ => false
  end.
