(** The bytes of string views and the rest of util/str_view.h:104-217 and 280-305. *)
From Coq Require Import String.
From stdpp Require Import base numbers option list.
From Verif Require Import Common SvModel SvSpec SvSearchProperties SvWalkModel SvWalk.

(** C68. The loops from sv_begin to sv_end and from sv_rbegin to sv_rend visit every byte
    once, in order and in reverse order, and read none outside of the view. *)
Theorem C68_forwards : forall (v : view) (t : text), shows v t -> forwards v = Ok t.
Proof. exact forwards_Ok. Qed.
Theorem C68_backwards : forall (v : view) (t : text), shows v t -> backwards v = Ok (reverse t).
Proof. exact backwards_Ok. Qed.
Theorem C68_pos :
  forall (v : view) (t : text) (i : nat), shows v t ->
  arr (sv_pos v i) = arr (s v) /\ off (sv_pos v i) = off (s v) + min i (length t).
Proof. intros v t i Hv. by rewrite (pos_Ok v t i Hv). Qed.
Theorem C68_print : forall (v : view) (t : text), shows v t -> sv_print v = Ok t.
Proof. exact print_Ok. Qed.
(** For NULL all pointers are sv_null(), and the loops visit nothing. *)
Theorem C68_null :
  forall (o n i : nat), let v := View (Ptr None o) n in
  sv_begin v = nil_s /\ sv_end v = nil_s /\ sv_pos v i = nil_s /\ sv_rbegin v = plus nil_s 1 /\ sv_rend v = plus nil_s 1 /\
  forwards v = Ok [] /\ backwards v = Ok [] /\ sv_print v = Ok [].
Proof. intros o n i v. repeat split; by destruct n. Qed.
(** A step from NULL gives sv_null() in both directions, and backwards over an empty view
    begin and end are its own pointer. Pointers backwards are kept one higher. *)
Theorem C68_next_null : forall (o : nat), sv_next (Ptr None o) = nil_s /\ sv_rnext (Ptr None o) = plus nil_s 1.
Proof. intros o. split; reflexivity. Qed.
Theorem C68_rbegin_empty :
  forall (p : ptr), is_null p = false -> sv_rbegin (View p 0) = plus p 1 /\ sv_rend (View p 0) = plus p 1.
Proof. intros p Hp. unfold sv_rbegin, sv_rend. cbn. rewrite Hp. split; reflexivity. Qed.

Theorem C68_sizes :
  forall (v : view) (t : text), shows v t ->
  sv_len v = length t /\ sv_size v = length t + 1 /\ (sv_empty v = true <-> t = []).
Proof.
  intros v t Hv. unfold sv_len, sv_size, sv_empty. rewrite (SvFind.shows_len _ _ Hv), Nat.eqb_eq.
  split; [done|]. split; [done|]. by destruct t.
Qed.
Theorem C68_strsize : forall (str : ptr) (t : text), cstring str t -> sv_strsize str = Ok (length t + 1).
Proof. exact strsize_Ok. Qed.
Theorem C68_minlen : forall (str : ptr) (t : text) (n : nat), cstring str t -> sv_minlen str n = Ok (min n (length t)).
Proof. exact minlen_Ok. Qed.

(** sv_extend ends at the terminator, wherever the view ended. *)
Theorem C68_extend :
  forall (v : view) (t : text), cstring (s v) t -> exists w, sv_extend v = Ok w /\ s w = s v /\ shows w t.
Proof. exact extend_Ok. Qed.

(** sv_swap exchanges two views, and is safe for one view and for NULL. *)
Theorem C68_swap :
  forall (m : list view) (i j : nat) (va vb : view), m !! i = Some va -> m !! j = Some vb ->
  exists m', sv_swap m (Some i) (Some j) = Ok m' /\ m' !! i = Some vb /\ m' !! j = Some va /\
    forall k, k <> i -> k <> j -> m' !! k = m !! k.
Proof. exact swap_Ok. Qed.
Theorem C68_swap_null : forall (m : list view) (a : option nat), sv_swap m None a = Ok m /\ sv_swap m a None = Ok m.
Proof. intros m a. by destruct a. Qed.

(** sv_delim is the first piece between delimiters that is not empty, or an empty view at
    the terminator; everything for an empty delimiter. *)
Theorem C68_delim :
  forall (str delim : ptr) (t d : text), cstring str t -> cstring delim d -> d <> [] ->
  exists l v, pieces d 0 t l /\ sv_delim str delim = Ok v /\
    match filter nonempty l with
    | q :: _ => view_of (View str (length t)) v q
    | [] => len v = 0 /\ arr (s v) = arr str /\ off (s v) = off str + length t
    end.
Proof. exact delim_Ok. Qed.
Theorem C68_delim_empty :
  forall (str delim : ptr) (t : text), cstring str t -> cstring delim [] ->
  exists v, sv_delim str delim = Ok v /\ s v = str /\ shows v t.
Proof. exact delim_empty_Ok. Qed.

Definition cstr (t : text) : ptr := s (SV t).
Lemma cstr_cstring t : 0%N ∉ t -> Forall (fun b => b < 256)%N t -> cstring (cstr t) t.
Proof. intros Hz H. exists [], []. repeat split; try done. cbn. apply Forall_app. split; [done|]. by repeat constructor. Qed.
Example C68_case :
  shows inner (txt "abcabcabdabcabd") /\ forwards inner = Ok (txt "abcabcabdabcabd") /\ backwards inner = Ok (txt "dbacbadbacbacba") /\
  off (sv_pos inner 4) = 6 /\ off (sv_pos inner 40) = 17 /\ sv_print inner = Ok (txt "abcabcabdabcabd") /\
  cstring (cstr (txt ", ,, one, two")) (txt ", ,, one, two") /\ cstring (cstr (txt ", ")) (txt ", ") /\
  sv_strsize (cstr (txt "four")) = Ok 5 /\ sv_minlen (cstr (txt "four")) 3 = Ok 3 /\ sv_minlen (cstr (txt "four")) 7 = Ok 4 /\
  match sv_extend inner with Ok w => len w | _ => 0 end = 17 /\
  sv_delim (cstr (txt ", ,, one, two")) (cstr (txt ", ")) = Ok (View (plus (cstr (txt ", ,, one, two")) 2) 1) /\
  sv_delim (cstr (txt ", , ")) (cstr (txt ", ")) = Ok (View (plus (cstr (txt ", , ")) 4) 0) /\
  sv_swap [inner; SV (txt "a"); SV (txt "b")] (Some 2) (Some 0) = Ok [SV (txt "b"); SV (txt "a"); inner].
Proof.
  split; [exact inner_shows|]. do 5 (split; [by vm_compute|]).
  split; [apply cstr_cstring; [apply (bool_decide_unpack _); by vm_compute|repeat constructor]|]. split; [apply cstr_cstring; [apply (bool_decide_unpack _); by vm_compute|repeat constructor]|].
  by vm_compute.
Qed.

Print Assumptions C68_forwards.
Print Assumptions C68_backwards.
Print Assumptions C68_pos.
Print Assumptions C68_print.
Print Assumptions C68_next_null.
Print Assumptions C68_rbegin_empty.
Print Assumptions C68_null.
Print Assumptions C68_sizes.
Print Assumptions C68_strsize.
Print Assumptions C68_minlen.
Print Assumptions C68_extend.
Print Assumptions C68_swap.
Print Assumptions C68_swap_null.
Print Assumptions C68_delim.
Print Assumptions C68_delim_empty.
