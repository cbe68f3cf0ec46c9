(** Tokens of string views, util/str_view.h:229-277. *)
From Coq Require Import String.
From stdpp Require Import base numbers option list.
From Verif Require Import Common SvModel SvSpec SvSearch SvFind SvSearchProperties SvTokens SvRtokens.

(** C65. The loop of str_view.h:96-99 visits the pieces between delimiters that are not
    empty, in order, each with its place in the source, and ends. *)
Theorem C65_tokens :
  forall (src delim : view) (t d : text), shows src t -> shows delim d -> d <> [] -> head d <> Some 0%N ->
  exists l vs, pieces d 0 t l /\ tokens src delim = Ok vs /\ Forall2 (view_of src) vs (filter nonempty l).
Proof. intros src delim t d Hs Hd Hne Hz. exact (all_tokens_Ok delim d Hd Hne src t Hs Hz). Qed.
Theorem C65_pieces_unique :
  forall (d : text) (p : nat) (t : text) l l', pieces d p t l -> pieces d p t l' -> l = l'.
Proof. exact pieces_unique. Qed.

(** From right to left. Missing: sources of delimiters only, sources that begin with
    delimiters and the end of one, up to another delimiter, and bytes above 127 with
    delimiters of four bytes (C61). *)
Theorem C65_rtokens_partial :
  forall (src delim : view) (t d : text), shows src t -> shows delim d -> d <> [] ->
  ~ only_delims d t -> (forall a b, t = a ++ d ++ b -> ~ only_delims d a) -> ascii_for d t ->
  exists l vs, rpieces d t l /\ rtokens src delim = Ok vs /\ Forall2 (view_of src) vs (filter nonempty l).
Proof. intros src delim t d Hs Hd Hne Hb Hc Ha. exact (all_rtokens_Ok delim d Hd Hne src t Hs Hb Hc Ha). Qed.
Theorem C65_rpieces_unique :
  forall (d t : text) l l', rpieces d t l -> rpieces d t l' -> l = l'.
Proof. exact rpieces_unique. Qed.

(** A source of delimiters only has a last token, which is outside of it: the byte after it. *)
Theorem C65_rbegin_only :
  forall (src delim : view) (t d : text), shows src t -> shows delim d -> d <> [] -> only_delims d t -> ascii_for d t ->
  sv_rbegin_tok src delim = Ok (View (plus (s src) (length t)) 1).
Proof. intros src delim t d Hs Hd Hne Ho Ha. exact (rbegin_only delim d Hd Hne src t Hs Ho Ha). Qed.
Theorem C65_rtokens_outside_refuted :
  exists (src delim v : view) (t d : text), shows src t /\ shows delim d /\ d <> [] /\ ascii_for d t /\
    rtokens src delim = Ok [v] /\ off (s src) + length t < off (s v) + len v.
Proof.
  exists (SV (txt " ")), (SV (txt " ")), (View (plus (s (SV (txt " "))) 1) 1), (txt " "), (txt " ").
  split; [apply SV_shows; repeat constructor|]. split; [apply SV_shows; repeat constructor|]. split; [done|]. split; [by left|].
  split; [by vm_compute|cbn; lia].
Qed.
(** A source that begins with two delimiters has a delimiter as a token. *)
Lemma spaces : rpieces (txt " ") (txt "  a") [(2, txt "a"); (1, []); (0, [])].
Proof.
  apply (rpieces_cut (txt " ") (txt " ") (txt "a")).
  - split; [by exists (txt " "), (txt "a")|]. intros j Hj. apply occurs_nth in Hj as [Hl Hj]. specialize (Hj 0 ltac:(cbn; lia)).
    cbn in Hl. destruct j as [|[|[|]]]; cbn; [lia|lia|by cbn in Hj|lia].
  - apply (rpieces_cut (txt " ") [] []).
    + split; [by exists [], []|]. intros j Hj. apply occurs_nth in Hj as [Hl Hj]. cbn in *. lia.
    + constructor. apply too_long. cbn. lia.
Qed.
Theorem C65_rtokens_delimiter_refuted :
  exists (src delim : view) (t d : text) l vs, shows src t /\ shows delim d /\ d <> [] /\ ascii_for d t /\
    rpieces d t l /\ rtokens src delim = Ok vs /\ ~ Forall2 (view_of src) vs (filter nonempty l) /\ Exists (fun v => shows v d) vs.
Proof.
  exists (SV (txt "  a")), (SV (txt " ")), (txt "  a"), (txt " "), [(2, txt "a"); (1, []); (0, [])],
    [View (plus (s (SV (txt "  a"))) 2) 1; View (s (SV (txt "  a"))) 1].
  split; [apply SV_shows; repeat constructor|]. split; [apply SV_shows; repeat constructor|]. split; [done|]. split; [by left|].
  split; [exact spaces|]. split; [by vm_compute|]. split.
  - intros H%Forall2_length. by vm_compute in H.
  - right. left. exists [], (txt " a" ++ [0%N]). repeat split; try done. repeat constructor.
Qed.
(** For a delimiter that is NULL the last token is not the source, as documented, but empty. *)
Theorem C65_null_delim_refuted :
  exists (src v : view) (t : text), shows src t /\ t <> [] /\ sv_rbegin_tok src (View (Ptr None 0) 0) = Ok v /\ len v = 0.
Proof.
  exists (SV (txt "ab")), (View (plus (s (SV (txt "ab"))) 2) 0), (txt "ab"). split; [apply SV_shows; repeat constructor|]. done.
Qed.

Lemma abd_not_only : ~ only_delims (txt "abd") (txt "abcabcabdabcabd").
Proof. intros H. apply only_all in H as [_ H]; [|done]. specialize (H 3 ltac:(cbn; lia)). by vm_compute in H. Qed.
Lemma abd_not_before a b : txt "abcabcabdabcabd" = a ++ txt "abd" ++ b -> ~ only_delims (txt "abd") a.
Proof.
  intros E H. assert (exists c, a = c ++ txt "abd") as [c ->] by (destruct H as [x y _|u _]; by eexists).
  assert (occurs (txt "abdabd") (txt "abcabcabdabcabd") (length c)) as Ho.
  { exists c, b. split; [|done]. rewrite E, <- !app_assoc. done. }
  apply occurs_nth in Ho as [Hl Ho]. pose proof (Ho 0 ltac:(cbn; lia)) as H0. pose proof (Ho 5 ltac:(cbn; lia)) as H3. pose proof (Ho 2 ltac:(cbn; lia)) as H2.
  cbn in Hl. destruct (length c) as [|[|[|[|[|[|[|[|[|[|]]]]]]]]]]; try lia; vm_compute in H0, H2, H3; congruence.
Qed.
Example C65_case :
  shows inner (txt "abcabcabdabcabd") /\ shows (SV (txt "abd")) (txt "abd") /\ head (txt "abd") <> Some 0%N /\
  tokens inner (SV (txt "abd")) = Ok [View (plus (s inner) 0) 6; View (plus (s inner) 9) 3] /\
  tokens inner (SV (txt "abc")) = Ok [View (plus (s inner) 6) 3; View (plus (s inner) 12) 3] /\
  tokens inner (SV (txt "ca")) = Ok [View (plus (s inner) 0) 2; View (plus (s inner) 4) 1; View (plus (s inner) 7) 4; View (plus (s inner) 13) 2] /\
  rtokens inner (SV (txt "bd")) = Ok [View (plus (s inner) 9) 4; View (plus (s inner) 0) 7] /\
  rtokens inner (SV (txt "abd")) = Ok [View (plus (s inner) 9) 3; View (plus (s inner) 0) 6] /\
  ~ only_delims (txt "abd") (txt "abcabcabdabcabd") /\
  (forall a b, txt "abcabcabdabcabd" = a ++ txt "abd" ++ b -> ~ only_delims (txt "abd") a) /\
  ascii_for (txt "abd") (txt "abcabcabdabcabd") /\
  only_delims (txt " ,") (txt ", , ,") /\ sv_rbegin_tok (SV (txt ", , ,")) (SV (txt " ,")) = Ok (View (plus (s (SV (txt ", , ,"))) 5) 1).
Proof.
  split; [exact inner_shows|]. split; [apply SV_shows; repeat constructor|]. split; [done|].
  do 5 (split; [by vm_compute|]). split; [exact abd_not_only|].
  split; [exact abd_not_before|]. split; [by left|]. split; [|by vm_compute].
  apply (only_more (txt " ,") (txt ", ,")). by apply (only_one (txt " ,") (txt " ") (txt ",")).
Qed.

Print Assumptions C65_tokens.
Print Assumptions C65_pieces_unique.
Print Assumptions C65_rtokens_partial.
Print Assumptions C65_rpieces_unique.
Print Assumptions C65_rbegin_only.
Print Assumptions C65_rtokens_outside_refuted.
Print Assumptions C65_rtokens_delimiter_refuted.
Print Assumptions C65_null_delim_refuted.
