(** Searching for bytes of a set, util/str_view.h:374-394. *)
From Coq Require Import String.
From stdpp Require Import base numbers option list.
From Verif Require Import Common SvModel SvSpec SvFind SvSearchProperties SvSets.

(** C63. *)
Theorem C63_first_not_of :
  forall (hay set : view) (h st : text), shows hay h -> shows set st ->
  exists r, sv_find_first_not_of hay set = Ok r /\ first_byte (fun b => b ∉ st) h r.
Proof. exact first_not_of_Ok. Qed.
(** Missing: sets of two bytes and more none of which occurs. *)
Theorem C63_first_of_partial :
  forall (hay set : view) (h st : text), shows hay h -> shows set st -> length st <= 1 \/ (exists b, b ∈ h /\ b ∈ st) ->
  exists r, sv_find_first_of hay set = Ok r /\ first_byte (fun b => b ∈ st) h r.
Proof. exact first_of_Ok. Qed.
(** There the search leaves the view, and the array. *)
Theorem C63_first_of_refuted :
  exists (hay set : view) (h st : text), shows hay h /\ shows set st /\ sv_find_first_of hay set = UB /\
  exists hay' h' r, shows hay' h' /\ sv_find_first_of hay' set = Ok r /\ length h' < r.
Proof.
  exists (SV (txt "ab")), (SV (txt "xy")), (txt "ab"), (txt "xy").
  split; [apply SV_shows; repeat constructor|]. split; [apply SV_shows; repeat constructor|]. split; [by vm_compute|].
  exists (View (s (SV (txt "abcdx"))) 2), (txt "ab"), 4. split; [|split; [by vm_compute|cbn; lia]].
  exists [], (txt "cdx" ++ [0%N]). repeat split; try done. repeat constructor.
Qed.
(** Missing: a hay whose last byte is in the set. *)
Theorem C63_last_of_partial :
  forall (hay set : view) (h st : text), shows hay h -> shows set st -> (forall b, last h = Some b -> b ∉ st) ->
  exists r, sv_find_last_of hay set = Ok r /\ last_byte (fun b => b ∈ st) h r.
Proof. exact last_of_Ok. Qed.
(** There the answer is never right. *)
Theorem C63_last_of_refuted :
  (exists (hay set : view) (h st : text) (b : N), shows hay h /\ shows set st /\ last h = Some b /\ b ∈ st) /\
  forall (hay set : view) (h st : text) (b : N), shows hay h -> shows set st -> last h = Some b -> b ∈ st ->
  exists r, sv_find_last_of hay set = Ok r /\ ~ last_byte (fun b => b ∈ st) h r.
Proof.
  split.
  - exists (SV (txt "xa")), (SV (txt "ab")), (txt "xa"), (txt "ab"), 97%N.
    split; [apply SV_shows; repeat constructor|]. split; [apply SV_shows; repeat constructor|]. split; [done|]. apply (bool_decide_unpack _). by vm_compute.
  - intros hay set h st b Hh Hs Hl Hb. destruct (last_of_wrong hay set h st Hh Hs b Hl Hb) as (r & E & Hr). exists r. split; [done|].
    rewrite last_lookup in Hl. intros [(c & Hc & _ & Hmax)|[Hno _]].
    + specialize (Hmax _ _ Hl Hb). apply lookup_lt_Some in Hc. lia.
    + by apply (Hno _ _ Hl).
Qed.
(** Missing: a hay in which the last byte outside of the set does not come right after one in it. *)
Theorem C63_last_not_of_partial :
  forall (hay set : view) (h st : text), shows hay h -> shows set st -> last_follows st h ->
  exists r, sv_find_last_not_of hay set = Ok r /\ last_byte (fun b => b ∉ st) h r.
Proof. exact last_not_of_Ok. Qed.
Theorem C63_last_not_of_refuted :
  exists (hay set : view) (h st : text) (r : nat), shows hay h /\ shows set st /\
    sv_find_last_not_of hay set = Ok r /\ ~ last_byte (fun b => b ∉ st) h r.
Proof.
  exists (SV (txt "axyz")), (SV (txt "a")), (txt "axyz"), (txt "a"), 1.
  split; [apply SV_shows; repeat constructor|]. split; [apply SV_shows; repeat constructor|]. split; [by vm_compute|].
  intros [(c & _ & _ & Hmax)|[_ E]]; [|done]. specialize (Hmax 3 122%N eq_refl). cbn in Hmax.
  assert (3 <= 1); [|lia]. apply Hmax. apply (bool_decide_unpack _). by vm_compute.
Qed.

Definition inner' : view := View (Ptr (Some (txt "ab<<xaybbxzz>>" ++ [0%N])) 4) 8.
Example C63_case :
  shows inner' (txt "xaybbxzz") /\ shows (SV (txt "ab")) (txt "ab") /\
  sv_find_first_not_of inner' (SV (txt "xa")) = Ok 2 /\ sv_find_first_not_of inner' (SV (txt "xyzab")) = Ok 8 /\
  sv_find_first_of inner' (SV (txt "ba")) = Ok 1 /\ sv_find_first_of inner' (SV (txt "q")) = Ok 8 /\ (exists b, b ∈ txt "xaybbxzz" /\ b ∈ txt "ba") /\
  sv_find_last_of inner' (SV (txt "ab")) = Ok 4 /\ sv_find_last_of inner' (SV (txt "q")) = Ok 8 /\ (forall b, last (txt "xaybbxzz") = Some b -> b ∉ txt "ab") /\
  sv_find_last_not_of inner' (SV (txt "bz")) = Ok 5 /\ last_follows (txt "bz") (txt "xaybbxzz").
Proof.
  split; [exists (txt "ab<<"), (txt ">>" ++ [0%N]); repeat split; try done; repeat constructor|].
  split; [apply SV_shows; repeat constructor|]. do 4 (split; [by vm_compute|]).
  split; [exists 97%N; split; apply (bool_decide_unpack _); by vm_compute|]. do 2 (split; [by vm_compute|]).
  split; [intros b [= <-]; apply (bool_decide_unpack _); by vm_compute|]. split; [by vm_compute|].
  right. right. exists (txt "xayb"), 98%N, 120%N, (txt "zz"). split; [done|]. split; [|split]; apply (bool_decide_unpack _); by vm_compute.
Qed.

Print Assumptions C63_first_not_of.
Print Assumptions C63_first_of_partial.
Print Assumptions C63_first_of_refuted.
Print Assumptions C63_last_of_partial.
Print Assumptions C63_last_of_refuted.
Print Assumptions C63_last_not_of_partial.
Print Assumptions C63_last_not_of_refuted.
