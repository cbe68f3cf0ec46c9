(** Searching in string views, util/str_view.h:320-352. *)
From Coq Require Import String.
From stdpp Require Import base numbers option list.
From Verif Require Import Common SvModel SvSpec SvFind.

(** C61. sv_find answers the first position from pos on at which the needle occurs, or
    the length of hay. It reads no byte outside the two views, and two-way string
    matching, used from five bytes on, always ends. *)
Theorem C61_find :
  forall (hay needle : view) (h n : text) (pos : nat), shows hay h -> shows needle n -> n <> [] ->
  exists r, sv_find hay pos needle = Ok r /\
    ((pos <= r /\ occurs n h r /\ forall j, occurs n h j -> pos <= j -> r <= j) \/
     ((forall j, pos <= j -> ~ occurs n h j) /\ r = length h)).
Proof. intros hay needle h n pos Hh Hn Hne. exact (find_Ok hay needle h n Hh Hn Hne pos). Qed.

Theorem C61_contains :
  forall (hay needle : view) (h n : text), shows hay h -> shows needle n -> n <> [] ->
  exists b : bool, sv_contains hay needle = Ok b /\ (b = true <-> exists i, occurs n h i).
Proof. exact contains_Ok. Qed.

Theorem C61_match :
  forall (hay needle : view) (h n : text), shows hay h -> shows needle n -> n <> [] ->
  exists v, sv_match hay needle = Ok v /\ found_at first_at hay n h v.
Proof. exact match_Ok. Qed.

(** sv_rfind answers the last position of an occurrence that ends at pos or before.
    Missing: needles of four bytes in a hay with a byte above 127. *)
Theorem C61_rfind_partial :
  forall (hay needle : view) (h n : text) (pos : nat), shows hay h -> shows needle n -> n <> [] -> ascii_for n h ->
  exists r, sv_rfind hay pos needle = Ok r /\
    ((occurs n h r /\ r + length n <= pos + 1 /\ forall j, occurs n h j -> j + length n <= pos + 1 -> j <= r) \/
     ((forall j, j + length n <= pos + 1 -> ~ occurs n h j) /\ r = length h)).
Proof. intros hay needle h n pos Hh Hn Hne. exact (rfind_Ok hay needle h n Hh Hn Hne pos). Qed.

(** Missing: the same as above. *)
Theorem C61_rmatch_partial :
  forall (hay needle : view) (h n : text), shows hay h -> shows needle n -> n <> [] -> ascii_for n h ->
  exists v, sv_rmatch hay needle = Ok v /\ found_at last_at hay n h v.
Proof. exact rmatch_Ok. Qed.

(** What is missing is not true: the byte that enters the window is shifted by 24 as an
    int, which is undefined from 128 on. *)
Theorem C61_rfind_refuted :
  exists (hay needle : view) (h n : text), shows hay h /\ shows needle n /\ length n = 4 /\
    sv_rfind hay (length h) needle = UB /\ sv_rmatch hay needle = UB.
Proof.
  exists (SV (195 :: 169 :: txt "tude")%N), (SV (txt "etud")), (195 :: 169 :: txt "tude")%N, (txt "etud").
  split; [|split; [|done]].
  - exists [], [0%N]. repeat split; try done. repeat constructor.
  - exists [], [0%N]. repeat split; try done. repeat constructor.
Qed.

(** An empty needle is contained in everything but the empty view. *)
Theorem C61_contains_empty :
  forall (hay needle : view) (h : text), shows hay h -> shows needle [] ->
  sv_contains hay needle = Ok (match h with [] => false | _ => true end).
Proof.
  intros hay needle h Hh Hn. unfold sv_contains. rewrite (shows_len _ _ Hh), (shows_len _ _ Hn). by destruct h.
Qed.

(** A view into the middle of an array, needles of one to six bytes. *)
Definition inner : view := View (Ptr (Some (txt "<<abcabcabdabcabd>>" ++ [0%N])) 2) 15.
Lemma inner_shows : shows inner (txt "abcabcabdabcabd").
Proof. exists (txt "<<"), (txt ">>" ++ [0%N]). repeat split; try done. repeat constructor. Qed.
Lemma SV_shows t : Forall (fun b => b < 256)%N t -> shows (SV t) t.
Proof. intros H. exists [], [0%N]. repeat split; try done. cbn. apply Forall_app. split; [done|]. by repeat constructor. Qed.
Definition needles : list text := [txt "d"; txt "ca"; txt "bda"; txt "cabd"; txt "cabca"; txt "abcabd"; txt "bdb"].
Example C61_case :
  shows inner (txt "abcabcabdabcabd") /\ Forall (fun n => shows (SV n) n /\ n <> [] /\ ascii_for n (txt "abcabcabdabcabd")) needles /\
  map (fun n => sv_find inner 0 (SV n)) needles = map Ok [8; 2; 7; 5; 2; 3; 15] /\
  map (fun n => sv_find inner 4 (SV n)) needles = map Ok [8; 5; 7; 5; 15; 9; 15] /\
  map (fun n => sv_rfind inner 15 (SV n)) needles = map Ok [14; 11; 7; 11; 2; 9; 15] /\
  map (fun n => sv_rfind inner 13 (SV n)) needles = map Ok [8; 11; 7; 5; 2; 3; 15] /\
  map (fun n => sv_contains inner (SV n)) needles = map Ok [true; true; true; true; true; true; false] /\
  sv_match inner (SV (txt "abcabd")) = Ok (View (plus (s inner) 3) 6) /\
  sv_rmatch inner (SV (txt "abcabd")) = Ok (View (plus (s inner) 9) 6) /\
  sv_match inner (SV (txt "bdb")) = Ok (View (plus (s inner) 15) 0).
Proof.
  split; [exact inner_shows|]. split.
  - repeat constructor; try done; try (apply SV_shows; repeat constructor); right; repeat constructor.
  - by vm_compute.
Qed.
Example C61_case_empty : shows (SV (txt "a")) (txt "a") /\ shows (SV []) [] /\
  sv_contains (SV (txt "a")) (SV []) = Ok true /\ sv_contains (SV []) (SV []) = Ok false.
Proof. repeat split; try done; apply SV_shows; repeat constructor. Qed.

Print Assumptions C61_find.
Print Assumptions C61_contains.
Print Assumptions C61_match.
Print Assumptions C61_rfind_partial.
Print Assumptions C61_rmatch_partial.
Print Assumptions C61_rfind_refuted.
Print Assumptions C61_contains_empty.
