(** The work of searching and splitting string views, util/str_view.c:1068. *)
From Coq Require Import String.
From stdpp Require Import base numbers option list.
From Verif Require Import Common SvModel SvSpec SvSearchProperties SvCostModel SvCost.

(** C66. However often the needle repeats itself, a search reads a number of bytes that is
    linear in the two lengths. [val]: what is counted is the search of SvModel.v. *)
Theorem C66_find :
  forall (hay needle : view) (h n : text) (pos : nat), shows hay h -> shows needle n -> n <> [] ->
  val (find_c hay pos needle) = sv_find hay pos needle /\
  cost (find_c hay pos needle) <= 10 * length n + 4 * (length h - pos).
Proof. intros hay needle h n pos Hh Hn Hne. split; [apply find_val|exact (find_cost hay needle h n pos Hh Hn Hne)]. Qed.
Theorem C66_contains :
  forall (hay needle : view) (h n : text), shows hay h -> shows needle n -> n <> [] ->
  val (contains_c hay needle) = sv_contains hay needle /\
  cost (contains_c hay needle) <= 10 * length n + 4 * length h.
Proof. intros hay needle h n Hh Hn Hne. split; [apply contains_val|exact (contains_cost hay needle h n Hh Hn Hne)]. Qed.
Theorem C66_match :
  forall (hay needle : view) (h n : text), shows hay h -> shows needle n -> n <> [] ->
  val (match_c hay needle) = sv_match hay needle /\
  cost (match_c hay needle) <= 10 * length n + 4 * length h.
Proof. intros hay needle h n Hh Hn Hne. split; [apply match_val|exact (match_cost hay needle h n Hh Hn Hne)]. Qed.
Theorem C66_rfind :
  forall (hay needle : view) (h n : text) (pos : nat), shows hay h -> shows needle n -> n <> [] ->
  val (rfind_c hay pos needle) = sv_rfind hay pos needle /\
  cost (rfind_c hay pos needle) <= 10 * length n + 4 * min (length h) (pos + 1).
Proof. intros hay needle h n pos Hh Hn Hne. split; [apply rfind_val|exact (rfind_cost hay needle h n pos Hh Hn Hne)]. Qed.
Theorem C66_rmatch :
  forall (hay needle : view) (h n : text), shows hay h -> shows needle n -> n <> [] ->
  val (rmatch_c hay needle) = sv_rmatch hay needle /\
  cost (rmatch_c hay needle) <= 10 * length n + 4 * length h.
Proof. intros hay needle h n Hh Hn Hne. split; [apply rmatch_val|exact (rmatch_cost hay needle h n Hh Hn Hne)]. Qed.

(** C67. So does visiting all tokens, although every one of them starts a new search. *)
Theorem C67_tokens :
  forall (src delim : view) (t d : text), shows src t -> shows delim d -> d <> [] -> head d <> Some 0%N ->
  val (tokens_c src delim) = tokens src delim /\
  cost (tokens_c src delim) <= 17 * (length t + length d).
Proof. intros src delim t d Hs Hd Hne Hz. split; [apply tokens_val|exact (tokens_cost delim d Hd Hne src t Hs Hz)]. Qed.

(** A periodic needle that almost occurs everywhere, from both sides. *)
Example C66_case :
  let hay := SV (txt "abababababaababababababab") in let needle := SV (txt "abababababb") in
  shows hay (txt "abababababaababababababab") /\ shows needle (txt "abababababb") /\
  find_c hay 3 needle = Counted (Ok 25) 68 /\ rfind_c hay 25 needle = Counted (Ok 25) 94 /\
  contains_c hay (SV (txt "babaab")) = Counted (Ok true) 50.
Proof. split; [apply SV_shows; repeat constructor|]. split; [apply SV_shows; repeat constructor|]. by vm_compute. Qed.
Example C67_case :
  shows (SV (txt "a, b, , c, dd")) (txt "a, b, , c, dd") /\ shows (SV (txt ", ")) (txt ", ") /\
  cost (tokens_c (SV (txt "a, b, , c, dd")) (SV (txt ", "))) = 35 /\
  val (tokens_c (SV (txt "a, b, , c, dd")) (SV (txt ", "))) = Ok (map (fun '(p, m) => View (plus (s (SV (txt "a, b, , c, dd"))) p) m) [(0, 1); (3, 1); (8, 1); (11, 2)]).
Proof. split; [apply SV_shows; repeat constructor|]. split; [apply SV_shows; repeat constructor|]. by vm_compute. Qed.

Print Assumptions C66_find.
Print Assumptions C66_contains.
Print Assumptions C66_match.
Print Assumptions C66_rfind.
Print Assumptions C66_rmatch.
Print Assumptions C67_tokens.
