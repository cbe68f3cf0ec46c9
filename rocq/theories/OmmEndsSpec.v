(** Calls on the ordered multimap about the key at one of its ends. *)
From stdpp Require Import base numbers option gmap fin_maps list.
From Verif Require Import Common OmmOps OmmSpec.

Section spec.
Context {K V : Type} (cmp : K -> K -> comparison) (c : contract).

(** Searches, insertions and removals for key [k], which is at the end in
    direction [d]. *)
Definition at_key (d : bool) (k : K) (A : view K V) (o : mm_op K V) : Prop :=
  match o with
  | OMax | OPopMax => d = true
  | OMin | OPopMin => d = false
  | OGet k' => cmp k k' = Eq
  | OInsert e ans => keyed cmp A Eq k e /\ (allocates c = true -> ans <> 0)
  | _ => False
  end.

(** Permitted calls of this kind that leave an element with the key. *)
Inductive steady (d : bool) (k : K) : view K V -> list (mm_op K V) -> list (mm_res K V) -> view K V -> Prop :=
  | steady_nil A : steady d k A [] [] A
  | steady_cons A o r A1 os rs A2 : call cmp c A o r A1 -> at_key d k A o ->
      (exists y, y ∈ queue A1 /\ keyed cmp A1 Eq k y) -> steady d k A1 os rs A2 ->
      steady d k A (o :: os) (r :: rs) A2.
End spec.
