(** Comparing and slicing string views, util/str_view.h:106-157, 172-180, 219-227, 302-318 and 354-372. *)
From Coq Require Import String.
From stdpp Require Import base numbers option list.
From Verif Require Import Common SvModel SvSpec SvFind SvSearchProperties SvCompare.

(** C62. The comparisons are those of the order of the dictionary with unsigned bytes,
    the order of [lex], which relates two texts in one way only. *)
Theorem C62_cmp :
  forall (lhs rhs : view) (t u : text), shows lhs t -> shows rhs u ->
  exists c, sv_cmp lhs rhs = Ok (Some c) /\ lex t u c.
Proof. exact cmp_Ok. Qed.
Theorem C62_strcmp :
  forall (lhs : view) (rhs : ptr) (t u : text), shows lhs t -> cstring rhs u ->
  exists c, sv_strcmp lhs rhs = Ok (Some c) /\ lex t u c.
Proof. exact strcmp_Ok. Qed.
Theorem C62_order :
  forall (t u : text) (c c' : comparison), (lex t u c -> lex t u c' -> c = c') /\ (lex t u Eq <-> t = u).
Proof. intros t u c c'. split; [apply lex_unique|apply lex_eq]. Qed.
Theorem C62_starts_with :
  forall (v prefix : view) (t u : text), shows v t -> shows prefix u ->
  exists b : bool, sv_starts_with v prefix = Ok b /\ (b = true <-> exists rest, t = u ++ rest).
Proof. exact starts_with_Ok. Qed.
Theorem C62_ends_with :
  forall (v suffix : view) (t u : text), shows v t -> shows suffix u ->
  exists b : bool, sv_ends_with v suffix = Ok b /\ (b = true <-> exists rest, t = rest ++ u).
Proof. exact ends_with_Ok. Qed.
(** Missing: a view longer than n that agrees with the string in n bytes, and a view of
    the whole string with n beyond its end. *)
Theorem C62_strncmp_partial :
  forall (lhs : view) (rhs : ptr) (t u : text) (n : nat), shows lhs t -> cstring rhs u ->
  (n < length t -> take n t <> take n u) -> (length t < n -> t <> u) ->
  exists c, sv_strncmp lhs rhs n = Ok (Some c) /\ lex t (take n u) c.
Proof. exact strncmp_Ok. Qed.
(** In both of these cases the answer is wrong, whether or not the view is cut to n bytes too. *)
Theorem C62_strncmp_refuted :
  exists (lhs : view) (rhs : ptr) (t u : text) (n : nat) (c : comparison), shows lhs t /\ cstring rhs u /\
    t = u /\ length t < n /\ sv_strncmp lhs rhs n = Ok (Some c) /\ ~ lex t (take n u) c /\ ~ lex (take n t) (take n u) c.
Proof.
  exists (SV (txt "ab")), (s (SV (txt "ab"))), (txt "ab"), (txt "ab"), 5, Lt.
  split; [apply SV_shows; repeat constructor|]. split.
  { exists [], []. split; [done|]. split; [done|]. split; [|repeat constructor]. apply (bool_decide_unpack _). by vm_compute. }
  repeat split; try (cbn; lia); intros H%lex_lexf; by vm_compute in H.
Qed.
Theorem C62_strncmp_beyond_refuted :
  exists (lhs : view) (rhs : ptr) (t u : text) (n : nat) (c : comparison), shows lhs t /\ cstring rhs u /\
    take n t = take n u /\ n < length t /\ sv_strncmp lhs rhs n = Ok (Some c) /\ ~ lex t (take n u) c /\ ~ lex (take n t) (take n u) c.
Proof.
  exists (SV (txt "aba")), (s (SV (txt "abz"))), (txt "aba"), (txt "abz"), 2, Lt.
  split; [apply SV_shows; repeat constructor|]. split.
  { exists [], []. split; [done|]. split; [done|]. split; [|repeat constructor]. apply (bool_decide_unpack _). by vm_compute. }
  repeat split; try (cbn; lia); intros H%lex_lexf; by vm_compute in H.
Qed.

(** C64. Construction, slices and single bytes. *)
Theorem C64_construct :
  forall (str : ptr) (t : text) (n : nat), cstring str t ->
  (exists v, sv str = Ok v /\ s v = str /\ shows v t) /\ (exists v, sv_n n str = Ok v /\ s v = str /\ shows v (take n t)).
Proof.
  intros str t n H. split; [|by apply sv_n_Ok]. exists (View str (length t)). split; [by apply sv_Ok|]. split; [done|]. by apply cstring_shows.
Qed.
Theorem C64_substr :
  forall (v : view) (t : text) (pos count : nat), shows v t ->
  shows (sv_substr v pos count) (take count (drop pos t)) /\
  arr (s (sv_substr v pos count)) = arr (s v) /\ off (s (sv_substr v pos count)) = off (s v) + min pos (length t).
Proof. exact substr_Ok. Qed.
Theorem C64_remove_prefix :
  forall (v : view) (t : text) (n : nat), shows v t ->
  shows (sv_remove_prefix v n) (drop n t) /\
  arr (s (sv_remove_prefix v n)) = arr (s v) /\ off (s (sv_remove_prefix v n)) = off (s v) + min n (length t).
Proof. exact remove_prefix_Ok. Qed.
(** Missing: that the empty view is at the end of the view when everything is removed. *)
Theorem C64_remove_suffix_partial :
  forall (v : view) (t : text) (n : nat), shows v t ->
  shows (sv_remove_suffix v n) (take (length t - n) t) /\ s (sv_remove_suffix v n) = s v.
Proof. exact remove_suffix_Ok. Qed.
(** It is at its start. *)
Theorem C64_remove_suffix_refuted :
  exists (v : view) (t : text) (n : nat), shows v t /\ length t <= n /\
    len (sv_remove_suffix v n) = 0 /\ off (s (sv_remove_suffix v n)) <> off (s v) + length t.
Proof. exists (SV (txt "ab")), (txt "ab"), 2. split; [apply SV_shows; repeat constructor|]. by vm_compute. Qed.
Theorem C64_bytes :
  forall (v : view) (t : text) (i : nat), shows v t ->
  sv_at v i = Ok (nth i t 0%N) /\ sv_front v = Ok (default 0%N (head t)) /\ sv_back v = Ok (default 0%N (last t)).
Proof. intros v t i H. split; [by apply at_Ok|]. split; [by apply front_Ok|by apply back_Ok]. Qed.
(** sv_fill writes as much as there is room for and a terminator, and leaves the rest of
    the destination. Missing: an empty view. *)
Theorem C64_fill_partial :
  forall (dest : list N) (v : view) (t : text), shows v t -> t <> [] -> dest <> [] ->
  let n := min (length dest - 1) (length t) in
  sv_fill dest v = Ok (take n t ++ 0%N :: drop (S n) dest, S n).
Proof. exact fill_Ok. Qed.
(** An empty view does not terminate the destination. *)
Theorem C64_fill_refuted :
  exists (dest : list N) (v : view), shows v [] /\ dest <> [] /\ exists dest' n, sv_fill dest v = Ok (dest', n) /\ 0%N ∉ dest'.
Proof.
  exists (txt "old"), (SV []). split; [apply SV_shows; constructor|]. split; [done|]. exists (txt "old"), 0. split; [done|].
  apply (bool_decide_unpack _). by vm_compute.
Qed.

Example C62_case :
  shows inner (txt "abcabcabdabcabd") /\ shows (SV (txt "abcabd")) (txt "abcabd") /\ cstring (s (SV (txt "abcabd"))) (txt "abcabd") /\
  sv_cmp inner (SV (txt "abcabd")) = Ok (Some Lt) /\ sv_cmp inner (SV (txt "abcabc")) = Ok (Some Gt) /\
  sv_cmp (SV [200%N]) (SV [100%N]) = Ok (Some Gt) /\ sv_cmp inner inner = Ok (Some Eq) /\
  sv_strcmp inner (s (SV (txt "abcabd"))) = Ok (Some Lt) /\ sv_strncmp inner (s (SV (txt "abcabd"))) 6 = Ok (Some Lt) /\
  (6 < length (txt "abcabcabdabcabd") -> take 6 (txt "abcabcabdabcabd") <> take 6 (txt "abcabd")) /\
  sv_starts_with inner (SV (txt "abca")) = Ok true /\ sv_starts_with inner (SV (txt "b")) = Ok false /\
  sv_ends_with inner (SV (txt "abcabd")) = Ok true /\ sv_ends_with inner (SV (txt "c")) = Ok false.
Proof.
  split; [exact inner_shows|]. split; [apply SV_shows; repeat constructor|]. split.
  { exists [], []. split; [done|]. split; [done|]. split; [|repeat constructor]. apply (bool_decide_unpack _). by vm_compute. }
  by vm_compute.
Qed.
Example C64_case :
  shows inner (txt "abcabcabdabcabd") /\
  sv_substr inner 3 4 = View (plus (s inner) 3) 4 /\ sv_substr inner 12 9 = View (plus (s inner) 12) 3 /\ sv_substr inner 20 1 = View (plus (s inner) 15) 0 /\
  sv_remove_prefix inner 4 = View (plus (s inner) 4) 11 /\ sv_remove_suffix inner 4 = View (s inner) 11 /\
  sv_at inner 2 = Ok 99%N /\ sv_at inner 15 = Ok 0%N /\ sv_front inner = Ok 97%N /\ sv_back inner = Ok 100%N /\
  sv_fill (txt "0123456789") (sv_substr inner 0 3) = Ok (txt "abc" ++ [0%N] ++ txt "456789", 4) /\
  sv_fill (txt "0123") inner = Ok (txt "abc" ++ [0%N], 4) /\
  sv_n 5 (s inner) = Ok (View (s inner) 5) /\ sv (s inner) = Ok (View (s inner) 17).
Proof. split; [exact inner_shows|]. by vm_compute. Qed.

Print Assumptions C62_cmp.
Print Assumptions C62_strcmp.
Print Assumptions C62_order.
Print Assumptions C62_starts_with.
Print Assumptions C62_ends_with.
Print Assumptions C62_strncmp_partial.
Print Assumptions C62_strncmp_refuted.
Print Assumptions C62_strncmp_beyond_refuted.
Print Assumptions C64_construct.
Print Assumptions C64_substr.
Print Assumptions C64_remove_prefix.
Print Assumptions C64_remove_suffix_partial.
Print Assumptions C64_remove_suffix_refuted.
Print Assumptions C64_bytes.
Print Assumptions C64_fill_partial.
Print Assumptions C64_fill_refuted.
