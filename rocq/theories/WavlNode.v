(** Copies of single WAVL nodes, as made by struct assignments and memcpy in
    src/realtime_ordered_map.c and src/flat_realtime_ordered_map.c. *)
From stdpp Require Import base numbers option gmap fin_maps list.
From Verif Require Import Common LinkHeap TreeModel WavlModel.

(** Links and parity of one node, as assigned by a struct copy or literal. *)
Definition put_node (s : wavl) (e l r p : nat) (b : bool) : wavl :=
  Wavl (put_links (wl s) e l r p) (<[e := b]> (wp s)) (wroot s).
Definition copy_node (s : wavl) (dst src : nat) : outcome wavl :=
  h ← copy_links (wl s) dst src;
  b ← parity s src;
  Ok (Wavl h (<[dst := b]> (wp s)) (wroot s)).
