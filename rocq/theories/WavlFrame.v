(** WAVL trees and the nodes outside them. *)
From stdpp Require Import base numbers option gmap fin_maps list.
From Verif Require Import Common LinkHeap PathLemmas OrderSpec TreeModel TreeProofs WavlModel WavlProofs WavlRank WavlRemove
  WavlNode OmProofs.

Local Ltac bind := cbn [mbind outcome_bind obind].

Section frame.
Context (nil : nat).
Notation wavl_ok := (wavl_ok nil).

(** ** Nodes outside the tree *)

(** Links and parity of nodes in [X] changed. *)
Definition outside (X : list nat) (s s' : wavl) : Prop :=
  frame X (wl s) (wl s') /\ same_parity X (wp s) (wp s') /\ wroot s' = wroot s.

Lemma outside_put s e l r p b : outside [e] s (put_node s e l r p b).
Proof.
  split_and!; [apply frame_put| |done]. intros z Hz. cbn. rewrite lookup_insert_ne; [done|].
  intros ->. apply Hz. left.
Qed.

Lemma wavl_ok_outside X s s' t :
  wavl_ok s t -> outside X s s' -> nil ∉ X -> (forall z, z ∈ X -> z ∉ nodes t) -> wavl_ok s' t.
Proof.
  intros (Hz & Hn & m & Hok) (Hf & Hp & Hroot) HX Hdis. split_and!.
  - apply zin_plug in Hz as (Hr & Hrep & Hnd & Hl). apply zin_plug. rewrite Hroot. cbn [plug] in *. split_and!; try done.
    + apply (rep_frame nil X (wl s)); [done| |done]. intros z Hin Hz'. by apply (Hdis z).
    + by apply (frame_live X (wl s)).
  - by rewrite Hp.
  - exists m. apply (ok_ext (wp s)); [|done]. intros z Hin. apply Hp. intros Hz'. by apply (Hdis z).
Qed.

Definition alive (s : wavl) (x : nat) : Prop := live (wl s) x /\ is_Some (wp s !! x).

Lemma alive_outside X s s' x : outside X s s' -> x ∉ X -> alive s x -> alive s' x.
Proof. intros (Hf & Hp & _) Hx [Hl Hb]. split; [by apply (frame_live X (wl s))|by rewrite Hp]. Qed.

Lemma alive_put s e l r p b z : alive s z \/ z = e -> alive (put_node s e l r p b) z.
Proof.
  intros Hz. destruct (decide (z = e)) as [-> |Hne].
  - split; [apply live_put; by right|]. cbn. rewrite lookup_insert. by eexists.
  - destruct Hz as [Hz|]; [|done]. apply (alive_outside [e] s); [apply outside_put| |done].
    by intros ->%elem_of_list_singleton.
Qed.

(** The four fields of a node. *)
Definition node_is (s : wavl) (x l r p : nat) (b : bool) : Prop :=
  lf (wl s) !! x = Some l /\ rt (wl s) !! x = Some r /\ pa (wl s) !! x = Some p /\ wp s !! x = Some b.

Lemma alive_node s x : alive s x -> exists l r p b, node_is s x l r p b.
Proof.
  intros [Hl [b Hb]]. destruct (live_links _ _ Hl) as (l & r & p & ? & ? & ?). by exists l, r, p, b.
Qed.

Lemma node_put s e l r p b : node_is (put_node s e l r p b) e l r p b.
Proof.
  destruct (put_lookups (wl s) e l r p) as (? & ? & ?). split_and!; try done.
  cbn. by rewrite lookup_insert.
Qed.

Lemma node_outside X s s' x l r p b : outside X s s' -> x ∉ X -> node_is s x l r p b -> node_is s' x l r p b.
Proof.
  intros (Hf & Hp & _) Hx (Hl & Hr & Hpa & Hb). destruct (Hf x Hx) as (E1 & E2 & E3).
  unfold node_is. by rewrite E1, E2, E3, (Hp x Hx).
Qed.

Lemma node_put_ne s e l r p b x l' r' p' b' :
  x <> e -> node_is s x l' r' p' b' -> node_is (put_node s e l r p b) x l' r' p' b'.
Proof. intros Hne. apply (node_outside [e]); [apply outside_put|]. by intros ?%elem_of_list_singleton. Qed.

Lemma copy_node_Ok s dst src l r p b :
  node_is s src l r p b -> copy_node s dst src = Ok (put_node s dst l r p b).
Proof.
  intros (Hl & Hr & Hp & Hb). unfold copy_node. rewrite (copy_links_Ok _ _ _ l r p) by done. bind.
  by rewrite (parity_Ok _ _ _ Hb).
Qed.

Lemma put_node_same s e l r p b : node_is s e l r p b -> put_node s e l r p b = s.
Proof.
  intros (Hl & Hr & Hp & Hb). unfold put_node. rewrite put_same by done. rewrite (insert_id _ _ _ Hb). by destruct s.
Qed.

End frame.
