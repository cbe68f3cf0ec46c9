(** What the functions on string views should answer, in terms of lists of bytes. *)
From Coq Require Import String Ascii.
From stdpp Require Import base numbers option list.
From Verif Require Import Common SvModel.

Definition text : Type := list N.
(** The bytes of a literal, and SV of str_view.h:102. *)
Definition txt (x : string) : text := map N_of_ascii (list_ascii_of_string x).
Definition SV (t : text) : view := View (Ptr (Some (t ++ [0%N])) 0) (length t).

(** [v] is a view of [t] somewhere in a terminated array of bytes. *)
Definition shows (v : view) (t : text) : Prop :=
  exists pre post, arr (s v) = Some (pre ++ t ++ post) /\ post <> [] /\ off (s v) = length pre /\ len v = length t /\
    Forall (fun b => b < 256)%N (pre ++ t ++ post).

(** [needle] occurs at position [i] of [hay]; the first and the last such position. *)
Definition occurs (needle hay : text) (i : nat) : Prop := exists a b, hay = a ++ needle ++ b /\ length a = i.
Definition first_at (needle hay : text) (i : nat) : Prop := occurs needle hay i /\ forall j, occurs needle hay j -> i <= j.
Definition last_at (needle hay : text) (i : nat) : Prop := occurs needle hay i /\ forall j, occurs needle hay j -> j <= i.
Definition nowhere (needle hay : text) : Prop := forall i, ~ occurs needle hay i.
(** A view of the needle at the selected occurrence in [hay], or an empty one at its end. *)
Definition found_at (sel : text -> text -> nat -> Prop) (hay : view) (n h : text) (v : view) : Prop :=
  arr (s v) = arr (s hay) /\
  ((exists i, sel n h i /\ off (s v) = off (s hay) + i /\ shows v n) \/
   (nowhere n h /\ off (s v) = off (s hay) + length h /\ len v = 0)).
(** The restriction of the search from right to left for four bytes. *)
Definition ascii_for (n h : text) : Prop := length n <> 4 \/ Forall (fun b => b < 128)%N h.

(** The order of strings. *)
Inductive lex : text -> text -> comparison -> Prop :=
  | lex_same t : lex t t Eq
  | lex_short t a u : lex t (t ++ a :: u) Lt
  | lex_long t a u : lex (t ++ a :: u) t Gt
  | lex_less t a u b w : (a < b)%N -> lex (t ++ a :: u) (t ++ b :: w) Lt
  | lex_greater t a u b w : (b < a)%N -> lex (t ++ a :: u) (t ++ b :: w) Gt.

(** The first and the last position of a byte with a property. *)
Definition first_byte (P : N -> Prop) (h : text) (r : nat) : Prop :=
  (exists b, h !! r = Some b /\ P b /\ forall j c, h !! j = Some c -> P c -> r <= j) \/
  ((forall j c, h !! j = Some c -> ~ P c) /\ r = length h).
Definition last_byte (P : N -> Prop) (h : text) (r : nat) : Prop :=
  (exists b, h !! r = Some b /\ P b /\ forall j c, h !! j = Some c -> P c -> j <= r) \/
  ((forall j c, h !! j = Some c -> ~ P c) /\ r = length h).
(** The last byte outside of [st] comes right after one in it, or there is none. *)
Definition last_follows (st h : text) : Prop :=
  st = [] \/ Forall (fun b => b ∈ st) h \/
  exists a x y b, h = a ++ x :: y :: b /\ x ∈ st /\ y ∉ st /\ Forall (fun c => c ∈ st) b.

(** A terminated string of C. *)
Definition cstring (p : ptr) (t : text) : Prop :=
  exists pre post, arr p = Some (pre ++ t ++ 0%N :: post) /\ off p = length pre /\ 0%N ∉ t /\
    Forall (fun b => b < 256)%N (pre ++ t ++ 0%N :: post).

(** Cutting a text that begins at position [p] at the occurrences of a delimiter from left
    to right: the pieces between delimiters, which may be empty, with their positions. *)
Inductive pieces (d : text) : nat -> text -> list (nat * text) -> Prop :=
  | pieces_last p t : nowhere d t -> pieces d p t [(p, t)]
  | pieces_cut p a b l : first_at d (a ++ d ++ b) (length a) -> pieces d (p + length a + length d) b l ->
      pieces d p (a ++ d ++ b) ((p, a) :: l).
(** The same from right to left, the last piece first. *)
Inductive rpieces (d : text) : text -> list (nat * text) -> Prop :=
  | rpieces_last t : nowhere d t -> rpieces d t [(0, t)]
  | rpieces_cut a b l : last_at d (a ++ d ++ b) (length a) -> rpieces d a l ->
      rpieces d (a ++ d ++ b) ((length a + length d, b) :: l).
(** At least one delimiter, and before them at most the end of another one. *)
Inductive only_delims (d : text) : text -> Prop :=
  | only_one x y : d = x ++ y -> only_delims d (y ++ d)
  | only_more t : only_delims d t -> only_delims d (t ++ d).
(** Tokens are the pieces that are not empty. *)
Definition nonempty (t : nat * text) : Prop := snd t <> [].
Global Instance nonempty_dec t : Decision (nonempty t).
Proof. unfold nonempty. apply _. Defined.
(** The views of the pieces of [src]. *)
Definition view_of (src v : view) (t : nat * text) : Prop :=
  shows v (snd t) /\ arr (s v) = arr (s src) /\ off (s v) = off (s src) + fst t.
