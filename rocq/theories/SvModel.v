(** Model of util/str_view.c (with util/str_view.h): read only views of strings. *)
From stdpp Require Import base numbers option list.
From Verif Require Import Common.

(** A pointer into an array of bytes: the array and an index ([None]: NULL). The array
    of a string ends with its terminator. Simplifications: sizes and positions are
    natural numbers (no wrapping; where the code subtracts a larger one from a smaller
    one the model says UB), and a pointer one before the first byte is not an error. *)
Record ptr : Type := Ptr { arr : option (list N); off : nat }.
(** str_view.h:68-72. *)
Record view : Type := View { s : ptr; len : nat }.

Definition is_null (p : ptr) : bool := match arr p with None => true | Some _ => false end.
Definition plus (p : ptr) (i : nat) : ptr := Ptr (arr p) (off p + i).
Definition rd (p : ptr) (i : nat) : outcome N :=
  match arr p with
  | None => UB
  | Some l => match l !! (off p + i) with Some b => Ok b | None => UB end
  end.
Definition minus (a b : nat) : outcome nat := if b <=? a then Ok (a - b) else UB.

(** 70 nil. *)
Definition nil_s : ptr := Ptr (Some [0%N]) 0.
Definition nil_view : view := View nil_s 0.

(** strlen, strnlen. *)
Fixpoint strlen_loop (fuel : nat) (p : ptr) (i : nat) : outcome nat :=
  match fuel with
  | 0 => Fuel
  | S f => b ← rd p i; if (b =? 0)%N then Ok i else strlen_loop f p (i + 1)
  end.
Definition room (p : ptr) : nat := match arr p with None => 0 | Some l => length l end.
Definition strlen (p : ptr) : outcome nat := strlen_loop (S (room p)) p 0.
Fixpoint strnlen_loop (n : nat) (p : ptr) (i : nat) : outcome nat :=
  match n with
  | 0 => Ok i
  | S n' => b ← rd p i; if (b =? 0)%N then Ok i else strnlen_loop n' p (i + 1)
  end.

(** 148-156 sv, 158-166 sv_n. *)
Definition sv (str : ptr) : outcome view :=
  if is_null str then Ok nil_view else n ← strlen str; Ok (View str n).
Definition sv_n (n : nat) (str : ptr) : outcome view :=
  if is_null str then Ok nil_view else m ← strnlen_loop n str 0; Ok (View str m).

(** 201-212 sv_fill: the bytes of the destination afterwards and the answer. *)
Fixpoint read_bytes (n : nat) (p : ptr) (i : nat) : outcome (list N) :=
  match n with
  | 0 => Ok []
  | S n' => b ← rd p i; l ← read_bytes n' p (i + 1); Ok (b :: l)
  end.
Definition sv_fill (dest : list N) (src : view) : outcome (list N * nat) :=
  if (length dest =? 0) || is_null (s src) || (len src =? 0) then Ok (dest, 0)
  else
    let bytes := min (length dest) (len src + 1) in
    l ← read_bytes bytes (s src) 0;
    Ok (<[bytes - 1 := 0%N]> (l ++ drop bytes dest), bytes).

(** 248-256 sv_at, 345-353 sv_front, 355-363 sv_back. *)
Definition sv_at (v : view) (i : nat) : outcome N := if len v <=? i then Ok 0%N else rd (s v) i.
Definition sv_front (v : view) : outcome N := if is_null (s v) || (len v =? 0) then Ok 0%N else rd (s v) 0.
Definition sv_back (v : view) : outcome N := if is_null (s v) || (len v =? 0) then Ok 0%N else rd (s v) (len v - 1).

(** 278-298 sv_cmp. [None]: SV_ERR. The loops end at i. *)
Fixpoint cmp_loop (n : nat) (l r : ptr) (i : nat) : outcome nat :=
  match n with
  | 0 => Ok i
  | S n' => a ← rd l i; b ← rd r i; if (a =? b)%N then cmp_loop n' l r (i + 1) else Ok i
  end.
Definition less_or_greater (a b : N) : comparison := if (a <? b)%N then Lt else Gt.
Definition sv_cmp (lhs rhs : view) : outcome (option comparison) :=
  if is_null (s lhs) || is_null (s rhs) then Ok None
  else
    i ← cmp_loop (min (len lhs) (len rhs)) (s lhs) (s rhs) 0;
    if (i =? len lhs) && (i =? len rhs) then Ok (Some Eq)
    else if (i <? len lhs) && (i <? len rhs) then
      a ← rd (s lhs) i; b ← rd (s rhs) i; Ok (Some (less_or_greater a b))
    else Ok (Some (if i <? len lhs then Gt else Lt)).

(** 300-320 sv_strcmp, 322-343 sv_strncmp. *)
Fixpoint strcmp_loop (n : nat) (l r : ptr) (i : nat) : outcome nat :=
  match n with
  | 0 => Ok i
  | S n' =>
    b ← rd r i;
    if (b =? 0)%N then Ok i
    else a ← rd l i; if (a =? b)%N then strcmp_loop n' l r (i + 1) else Ok i
  end.
Definition sv_strcmp (lhs : view) (rhs : ptr) : outcome (option comparison) :=
  if is_null (s lhs) || is_null rhs then Ok None
  else
    i ← strcmp_loop (len lhs) (s lhs) rhs 0;
    b ← rd rhs i;
    if (i =? len lhs) && (b =? 0)%N then Ok (Some Eq)
    else if (i <? len lhs) && negb (b =? 0)%N then
      a ← rd (s lhs) i; Ok (Some (less_or_greater a b))
    else Ok (Some (if i <? len lhs then Gt else Lt)).
Definition sv_strncmp (lhs : view) (rhs : ptr) (n : nat) : outcome (option comparison) :=
  if is_null (s lhs) || is_null rhs then Ok None
  else
    let sz := min (len lhs) n in
    i ← strcmp_loop sz (s lhs) rhs 0;
    if (i =? len lhs) && (sz =? n) then Ok (Some Eq)
    else if (i <? len lhs) && (sz <=? n) then
      a ← rd (s lhs) i; b ← rd rhs i; Ok (Some (less_or_greater a b))
    else Ok (Some (if i <? len lhs then Gt else Lt)).

(** 617-625 sv_substr, 589-594 sv_remove_prefix, 607-615 sv_remove_suffix. *)
Definition sv_substr (v : view) (pos count : nat) : view :=
  if len v <? pos then View (plus (s v) (len v)) 0
  else View (plus (s v) pos) (min count (len v - pos)).
Definition sv_remove_prefix (v : view) (n : nat) : view :=
  let remove := min (len v) n in View (plus (s v) remove) (len v - remove).
Definition sv_remove_suffix (v : view) (n : nat) : view :=
  if is_null (s v) then nil_view else View (s v) (len v - min (len v) n).

(** 565-577 sv_extend. *)
Definition sv_extend (v : view) : outcome view :=
  if is_null (s v) then Ok nil_view else n ← strlen (s v); Ok (View (s v) n).

(** 579-587 sv_starts_with, 596-605 sv_ends_with. *)
Definition is_eql (o : option comparison) : bool := match o with Some Eq => true | _ => false end.
Definition sv_starts_with (v prefix : view) : outcome bool :=
  if len v <? len prefix then Ok false
  else c ← sv_cmp (sv_substr v 0 (len prefix)) prefix; Ok (is_eql c).
Definition sv_ends_with (v suffix : view) : outcome bool :=
  if len v <? len suffix then Ok false
  else c ← sv_cmp (sv_substr v (len v - len suffix) (len suffix)) suffix; Ok (is_eql c).

(** ** Sets of characters *)

(** byteset, 895 and 921: four words of 64 bits taken as one number of 256 bits; BITOP,
    857-859, sets and tests bits. *)
Fixpoint byteset (n : nat) (set : ptr) (i : nat) (acc : N) : outcome N :=
  match n with
  | 0 => Ok acc
  | S n' => b ← rd set i; byteset n' set (i + 1) (N.setbit acc b)
  end.
(** The loops run over the first [n] bytes while [ok] holds. *)
Fixpoint while_loop (n : nat) (str : ptr) (ok : N -> bool) (i : nat) : outcome nat :=
  match n with
  | 0 => Ok i
  | S n' => b ← rd str i; if ok b then while_loop n' str ok (i + 1) else Ok i
  end.
(** 910-912 of sv_strcspn: i is not incremented, so only the bytes stop the loop. *)
Fixpoint unbounded_loop (fuel : nat) (str : ptr) (ok : N -> bool) (i : nat) : outcome nat :=
  match fuel with
  | 0 => Fuel
  | S f => b ← rd str i; if ok b then unbounded_loop f str ok (i + 1) else Ok i
  end.
(** 883-914 sv_strcspn. *)
Definition sv_strcspn (str_sz : nat) (str : ptr) (set_sz : nat) (set : ptr) : outcome nat :=
  if set_sz =? 0 then Ok str_sz
  else if set_sz =? 1 then
    if str_sz =? 0 then Ok 0 else
    c ← rd set 0; while_loop str_sz str (fun b => negb (b =? c)%N) 0
  else
    bits ← byteset set_sz set 0 0%N;
    if str_sz =? 0 then Ok 0
    else unbounded_loop (S (room str)) str (fun b => negb (N.testbit bits b)) 0.
(** 915-943 sv_strspn. *)
Definition sv_strspn (str_sz : nat) (str : ptr) (set_sz : nat) (set : ptr) : outcome nat :=
  if set_sz =? 0 then Ok str_sz
  else if set_sz =? 1 then
    if str_sz =? 0 then Ok 0 else
    c ← rd set 0; while_loop str_sz str (fun b => (b =? c)%N) 0
  else
    bits ← byteset set_sz set 0 0%N;
    while_loop str_sz str (fun b => N.testbit bits b) 0.

(** 709-721 sv_find_first_of, 750-762 sv_find_first_not_of. *)
Definition sv_find_first_of (hay set : view) : outcome nat :=
  if is_null (s hay) || (len hay =? 0) then Ok 0
  else if is_null (s set) || (len set =? 0) then Ok (len hay)
  else sv_strcspn (len hay) (s hay) (len set) (s set).
Definition sv_find_first_not_of (hay set : view) : outcome nat :=
  if is_null (s hay) || (len hay =? 0) then Ok 0
  else if is_null (s set) || (len set =? 0) then Ok 0
  else sv_strspn (len hay) (s hay) (len set) (s set).
(** 723-748 sv_find_last_of, 764-786 sv_find_last_not_of: [last in_] is what they store
    when a run of characters of the set ends at in_. *)
Fixpoint last_loop (fuel : nat) (hay set : view) (last : nat -> nat) (in_ prev last_pos : nat) : outcome nat :=
  match fuel with
  | 0 => Fuel
  | S f =>
    n ← minus (len hay) in_;
    k ← sv_strspn n (plus (s hay) in_) (len set) (s set);
    let in_ := in_ + k in
    if in_ =? len hay then Ok last_pos
    else
      let last_pos := if in_ =? prev then last_pos else last in_ in
      last_loop f hay set last (in_ + 1) (in_ + 1) last_pos
  end.
Definition sv_find_last_of (hay set : view) : outcome nat :=
  if is_null (s hay) || (len hay =? 0) then Ok 0
  else if is_null (s set) || (len set =? 0) then Ok (len hay)
  else last_loop (S (len hay)) hay set (fun i => i - 1) 0 0 (len hay).
Definition sv_find_last_not_of (hay set : view) : outcome nat :=
  if is_null (s hay) || (len hay =? 0) then Ok 0
  else if is_null (s set) || (len set =? 0) then Ok (len hay - 1)
  else last_loop (S (len hay)) hay set (fun i => i) 0 0 (len hay).

(** ** Searching *)

(** 1451-1458 sv_strnchr, 1460-1468 sv_rstrnchr. *)
Definition sv_strnchr (n : nat) (p : ptr) (c : N) : outcome nat := while_loop n p (fun b => negb (b =? c)%N) 0.
Fixpoint rchr_loop (i : nat) (p : ptr) (c : N) : outcome (option nat) :=
  match i with
  | 0 => Ok None
  | S i' => b ← rd p i'; if (b =? c)%N then Ok (Some i') else rchr_loop i' p c
  end.
Definition sv_rstrnchr (n : nat) (p : ptr) (c : N) : outcome nat :=
  r ← rchr_loop n p c; Ok (match r with Some i => i | None => n end).

(** Integer arithmetic: shifts of an int that holds an unsigned char, and the conversion
    to uint16_t and uint32_t. Shifting into the sign bit is undefined. *)
Definition shl_int (b : N) (k : N) : outcome N :=
  let x := N.shiftl b k in if (x <? 2 ^ 31)%N then Ok x else UB.
Definition to_u16 (x : N) : N := (x mod 2 ^ 16)%N.
Definition to_u32 (x : N) : N := (x mod 2 ^ 32)%N.

(** 1470-1481, 1499-1510, 1529-1540: the window [w] of the last bytes read up to index
    [i] moves until it is the needle's. [back] is one less than the needle's size. *)
Fixpoint window (fuel sz : nat) (h : ptr) (step : N -> N -> N) (nw hw : N) (i : nat) : outcome nat :=
  if (hw =? nw)%N then Ok i
  else match fuel with
  | 0 => Fuel
  | S f =>
    let i := i + 1 in
    if i <? sz then b ← rd h i; window f sz h step nw (step hw b) i else Ok i
  end.
Definition forward (sz : nat) (h : ptr) (back : nat) (step : N -> N -> N) (nw hw : N) : outcome nat :=
  i ← window sz sz h step nw hw back;
  if sz <=? i then Ok sz else j ← minus (sz - (sz - i)) back; Ok j.
(** 1483-1497, 1512-1527, 1542-1556: the same from right to left, from index sz - 1 - back. *)
Fixpoint rwindow (h : ptr) (step : N -> N -> outcome N) (nw iw : N) (i : nat) : outcome (option nat) :=
  if (iw =? nw)%N then Ok (Some i)
  else match i with
  | 0 => Ok None
  | S i' => b ← rd h i'; w ← step iw b; rwindow h step nw w i'
  end.
Definition backward (sz : nat) (h : ptr) (back : nat) (step : N -> N -> outcome N) (nw iw : N) : outcome nat :=
  r ← rwindow h step nw iw (sz - 1 - back);
  Ok (match r with Some i => i | None => sz end).

(** The words made of the first bytes. Two: n[0] << 8 | n[1] as a uint16_t. *)
Definition word2 (p : ptr) (i : nat) : outcome N :=
  a ← rd p i; b ← rd p (i + 1); Ok (to_u16 (N.lor (N.shiftl a 8) b)).
Definition sv_twobyte_strnstrn (sz : nat) (h n : ptr) : outcome nat :=
  nw ← word2 n 0; hw ← word2 h 0;
  forward sz h 1 (fun hw b => to_u16 (N.lor (N.shiftl hw 8) b)) nw hw.
Definition sv_rtwobyte_strnstrn (sz : nat) (h n : ptr) : outcome nat :=
  nw ← word2 n 0; iw ← word2 h (sz - 2);
  backward sz h 1 (fun iw b => x ← shl_int b 8; Ok (to_u16 (N.lor (N.shiftr iw 8) x))) nw iw.

(** Three: the low byte of the uint32_t stays zero from left to right, the high byte
    from right to left. *)
Definition word3 (p : ptr) (i : nat) : outcome N :=
  a ← rd p i; b ← rd p (i + 1); c ← rd p (i + 2);
  x ← shl_int b 16; y ← shl_int c 8; Ok (to_u32 (N.lor (N.lor (N.shiftl a 24) x) y)).
Definition rword3 (p : ptr) (i : nat) : outcome N :=
  a ← rd p i; b ← rd p (i + 1); c ← rd p (i + 2);
  x ← shl_int b 8; Ok (to_u32 (N.lor (N.lor (N.shiftl a 16) x) c)).
Definition sv_threebyte_strnstrn (sz : nat) (h n : ptr) : outcome nat :=
  nw ← word3 n 0; hw ← word3 h 0;
  forward sz h 2 (fun hw b => to_u32 (N.shiftl (N.lor hw b) 8)) nw hw.
Definition sv_rthreebyte_strnstrn (sz : nat) (h n : ptr) : outcome nat :=
  nw ← rword3 n 0; iw ← rword3 h (sz - 3);
  backward sz h 2 (fun iw b => x ← shl_int b 16; Ok (to_u32 (N.lor (N.shiftr iw 8) x))) nw iw.

(** Four. The shift of 1553 is one of an int. *)
Definition word4 (p : ptr) (i : nat) : outcome N :=
  a ← rd p i; b ← rd p (i + 1); c ← rd p (i + 2); d ← rd p (i + 3);
  x ← shl_int b 16; y ← shl_int c 8;
  Ok (to_u32 (N.lor (N.lor (N.lor (N.shiftl a 24) x) y) d)).
Definition sv_fourbyte_strnstrn (sz : nat) (h n : ptr) : outcome nat :=
  nw ← word4 n 0; hw ← word4 h 0;
  forward sz h 3 (fun hw b => to_u32 (N.lor (N.shiftl hw 8) b)) nw hw.
Definition sv_rfourbyte_strnstrn (sz : nat) (h n : ptr) : outcome nat :=
  nw ← word4 n 0; iw ← word4 h (sz - 4);
  backward sz h 3 (fun iw b => x ← shl_int b 24; Ok (to_u32 (N.lor (N.shiftr iw 8) x))) nw iw.

(** ** Two-way string matching *)

(** The functions for both directions differ only in the index they read: [i] from left
    to right, size - i - 1 from right to left. The variables that start at -1 (suff_pos,
    critical_pos, memoize_shift, and rpos in the second loops) are kept one higher here. *)
Definition fwd (p : ptr) (sz : nat) (i : nat) : outcome N := rd p i.
Definition bwd (p : ptr) (sz : nat) (i : nat) : outcome N := j ← minus sz (i + 1); rd p j.

(** char is signed. 846-850 sv_char_cmp. *)
Definition schar (b : N) : Z := if (b <? 128)%N then Z.of_N b else (Z.of_N b - 256)%Z.
Definition sv_char_cmp (a b : N) : comparison := (schar a ?= schar b)%Z.

Section two_way.
Context (at_n : nat -> outcome N) (needle_sz : nat) (at_h : nat -> outcome N) (hay_sz : nat).

(** 1136-1175 sv_maximal_suffix, 1180-1220 sv_maximal_suffix_rev ([flip]), 1356-1395
    sv_rmaximal_suffix and 1397-1437 sv_rmaximal_suffix_rev. *)
Fixpoint suffix_loop (fuel : nat) (flip : bool) (suff period last_rest rest : nat) : outcome (nat * nat) :=
  if last_rest + rest <? needle_sz then
    match fuel with
    | 0 => Fuel
    | S f =>
      a ← at_n (last_rest + rest);
      b ← at_n (suff + rest - 1);
      match (if flip then CompOpp (sv_char_cmp a b) else sv_char_cmp a b) with
      | Lt => suffix_loop f flip suff (last_rest + rest + 1 - suff) (last_rest + rest) 1
      | Eq => if rest =? period then suffix_loop f flip suff period (last_rest + period) 1
              else suffix_loop f flip suff period last_rest (rest + 1)
      | Gt => suffix_loop f flip (last_rest + 1) 1 (last_rest + 1) 1
      end
    end
  else Ok (suff, period).
Definition maximal_suffix (flip : bool) : outcome (nat * nat) := suffix_loop (2 * needle_sz) flip 0 1 0 1.

(** memcmp of 1052, 867-875 sv_rmemcmp: whether the bytes differ. *)
Fixpoint same_loop (n : nat) (i j : nat) : outcome bool :=
  match n with
  | 0 => Ok true
  | S n' => a ← at_n i; b ← at_n j; if (a =? b)%N then same_loop n' (i + 1) (j + 1) else Ok false
  end.

(** The two inner loops. *)
Fixpoint right_loop (n : nat) (lpos rpos : nat) : outcome nat :=
  match n with
  | 0 => Ok rpos
  | S n' => a ← at_n rpos; b ← at_h (rpos + lpos);
            if (a =? b)%N then right_loop n' lpos (rpos + 1) else Ok rpos
  end.
Fixpoint left_loop (rpos : nat) (memo lpos : nat) : outcome nat :=
  match rpos with
  | 0 => Ok 0
  | S r => if memo <? rpos then
             a ← at_n r; b ← at_h (r + lpos);
             if (a =? b)%N then left_loop r memo lpos else Ok rpos
           else Ok rpos
  end.

(** 1060-1095 sv_pos_memo, 1277-1315 sv_rpos_memo. The answer is lpos. *)
Fixpoint memo_loop (fuel : nat) (period critical lpos memo : nat) : outcome (option nat) :=
  if lpos + needle_sz <=? hay_sz then
    match fuel with
    | 0 => Fuel
    | S f =>
      let from := max critical memo in
      rpos ← right_loop (needle_sz - from) lpos from;
      if rpos <? needle_sz then memo_loop f period critical (lpos + (rpos + 1 - critical)) 0
      else
        rpos ← left_loop critical memo lpos;
        if rpos <=? memo then Ok (Some lpos)
        else memo_loop f period critical (lpos + period) (needle_sz - period)
    end
  else Ok None.
(** 1099-1131 sv_pos_normal, 1317-1352 sv_rpos_normal. *)
Fixpoint normal_loop (fuel : nat) (period critical lpos : nat) : outcome (option nat) :=
  if lpos + needle_sz <=? hay_sz then
    match fuel with
    | 0 => Fuel
    | S f =>
      rpos ← right_loop (needle_sz - critical) lpos critical;
      if rpos <? needle_sz then normal_loop f period critical (lpos + (rpos + 1 - critical))
      else
        rpos ← left_loop critical 0 lpos;
        if rpos =? 0 then Ok (Some lpos)
        else normal_loop f period critical (lpos + period)
    end
  else Ok None.

(** 1039-1058 sv_tw_match, 1259-1275 sv_tw_rmatch. *)
Definition two_way : outcome (option nat) :=
  a ← maximal_suffix false;
  b ← maximal_suffix true;
  let '(critical, period) := if fst b <? fst a then a else b in
  same ← same_loop critical 0 period;
  if (same : bool) then memo_loop (S hay_sz) period critical 0 0
  else normal_loop (S hay_sz) (max critical (needle_sz - critical) + 1) critical 0.
End two_way.

Definition sv_tw_match (hay_sz : nat) (hay : ptr) (needle_sz : nat) (needle : ptr) : outcome nat :=
  r ← two_way (fwd needle needle_sz) needle_sz (fwd hay hay_sz) hay_sz;
  Ok (match r with Some lpos => lpos | None => hay_sz end).
Definition sv_tw_rmatch (hay_sz : nat) (hay : ptr) (needle_sz : nat) (needle : ptr) : outcome nat :=
  r ← two_way (bwd needle needle_sz) needle_sz (bwd hay hay_sz) hay_sz;
  match r with Some lpos => minus hay_sz (lpos + needle_sz) | None => Ok hay_sz end.

(** 945-979 sv_strnstrn, 981-1012 sv_rstrnstrn. *)
Definition sv_strnstrn (hay_sz : nat) (hay : ptr) (needle_sz : nat) (needle : ptr) : outcome nat :=
  if (hay_sz =? 0) || (needle_sz =? 0) || (hay_sz <? needle_sz) then Ok hay_sz
  else match needle_sz with
  | 1 => c ← rd needle 0; sv_strnchr hay_sz hay c
  | 2 => sv_twobyte_strnstrn hay_sz hay needle
  | 3 => sv_threebyte_strnstrn hay_sz hay needle
  | 4 => sv_fourbyte_strnstrn hay_sz hay needle
  | _ => sv_tw_match hay_sz hay needle_sz needle
  end.
Definition sv_rstrnstrn (hay_sz : nat) (hay : ptr) (needle_sz : nat) (needle : ptr) : outcome nat :=
  if (hay_sz =? 0) || (needle_sz =? 0) || (hay_sz <? needle_sz) then Ok hay_sz
  else match needle_sz with
  | 1 => c ← rd needle 0; sv_rstrnchr hay_sz hay c
  | 2 => sv_rtwobyte_strnstrn hay_sz hay needle
  | 3 => sv_rthreebyte_strnstrn hay_sz hay needle
  | 4 => sv_rfourbyte_strnstrn hay_sz hay needle
  | _ => sv_tw_rmatch hay_sz hay needle_sz needle
  end.

(** 681-691 sv_find, 693-707 sv_rfind. *)
Definition sv_find (hay : view) (pos : nat) (needle : view) : outcome nat :=
  if (len hay <? len needle) || (len hay <? pos) then Ok (len hay)
  else r ← sv_strnstrn (len hay - pos) (plus (s hay) pos) (len needle) (s needle); Ok (pos + r).
Definition sv_rfind (h : view) (pos : nat) (n : view) : outcome nat :=
  if (len h =? 0) || (len h <? len n) then Ok (len h)
  else
    let pos := if len h <=? pos then len h - 1 else pos in
    found ← sv_rstrnstrn (pos + 1) (s h) (len n) (s n);
    Ok (if found =? pos + 1 then len h else found).

(** 627-645 sv_contains, 647-662 sv_match, 664-679 sv_rmatch. *)
Definition sv_contains (hay needle : view) : outcome bool :=
  if len hay <? len needle then Ok false
  else if len hay =? 0 then Ok false
  else if len needle =? 0 then Ok true
  else r ← sv_strnstrn (len hay) (s hay) (len needle) (s needle); Ok (negb (len hay =? r)).
Definition found_view (hay needle : view) (found : nat) : view :=
  if found =? len hay then View (plus (s hay) (len hay)) 0 else View (plus (s hay) found) (len needle).
Definition sv_match (hay needle : view) : outcome view :=
  if is_null (s hay) || is_null (s needle) then Ok nil_view
  else if (len hay <? len needle) || (len hay =? 0) || (len needle =? 0)
  then Ok (View (plus (s hay) (len hay)) 0)
  else r ← sv_strnstrn (len hay) (s hay) (len needle) (s needle); Ok (found_view hay needle r).
Definition sv_rmatch (hay needle : view) : outcome view :=
  if is_null (s hay) then Ok nil_view
  else if (len hay =? 0) || (len needle =? 0) then Ok (View (plus (s hay) (len hay)) 0)
  else r ← sv_rstrnstrn (len hay) (s hay) (len needle) (s needle); Ok (found_view hay needle r).

(** ** Tokens *)

(** 796-811 sv_after_find. *)
Fixpoint after_loop (n : nat) (hay needle : view) (delim_i i : nat) : outcome (nat * nat) :=
  match n with
  | 0 => Ok (i, delim_i)
  | S n' =>
    a ← rd (s needle) delim_i; b ← rd (s hay) i;
    if (a =? b)%N then
      if len needle =? 0 then UB
      else after_loop n' hay needle ((delim_i + 1) mod len needle) (i + 1)
    else Ok (i, delim_i)
  end.
Definition sv_after_find (hay needle : view) : outcome nat :=
  if len hay <? len needle then Ok 0
  else '(i, delim_i) ← after_loop (len hay) hay needle 0 0; minus i delim_i.
(** 814-832 sv_before_rfind. *)
Fixpoint before_loop (n : nat) (hay needle : view) (delim_i i : nat) : outcome (nat * nat) :=
  match n with
  | 0 => Ok (i, delim_i)
  | S n' =>
    j ← minus (len needle) (delim_i + 1); k ← minus (len hay) (i + 1);
    a ← rd (s needle) j; b ← rd (s hay) k;
    if (a =? b)%N then before_loop n' hay needle ((delim_i + 1) mod len needle) (i + 1)
    else Ok (i, delim_i)
  end.
Definition sv_before_rfind (hay needle : view) : outcome nat :=
  if (len hay <? len needle) || (len needle =? 0) || (len hay =? 0) then Ok (len hay)
  else
    '(i, delim_i) ← before_loop (len hay) hay needle 0 0;
    if i =? len hay then Ok (len hay) else minus (len hay - i + delim_i) 1.

(** 447-467 sv_begin_tok, 469-473 sv_end_tok, 475-505 sv_next_tok. *)
Definition sv_begin_tok (src delim : view) : outcome view :=
  if is_null (s src) then Ok nil_view
  else if is_null (s delim) then Ok (View (plus (s src) (len src)) 0)
  else
    k ← sv_after_find src delim;
    if k =? len src then Ok (View (plus (s src) k) 0)
    else
      n ← minus (len src) k;
      let rest := View (plus (s src) k) n in
      r ← sv_find rest 0 delim; Ok (View (s rest) r).
Definition sv_end_tok (src tok : view) : bool :=
  (len tok =? 0) || (off (s src) + len src <=? off (s tok)).
Definition sv_next_tok (src tok delim : view) : outcome view :=
  if is_null (s tok) then Ok nil_view
  else
    stop ← (if is_null (s delim) then Ok true else b ← rd (s tok) (len tok); Ok (b =? 0)%N);
    if (stop : bool) then Ok (View (plus (s tok) (len tok)) 0)
    else
      let next := plus (s tok) (len tok) in
      let end_ := plus (s src) (len src) in
      if off end_ <=? off next then Ok (View end_ 0)
      else
        let next := plus next (len delim) in
        d ← minus (off next) (off (s src));
        n ← minus (len src) d;
        k ← sv_after_find (View next n) delim;
        let next := plus next k in
        n ← minus n k;
        if off end_ <=? off next then Ok (View end_ 0)
        else found ← sv_strnstrn n next (len delim) (s delim); Ok (View next found).

(** 507-527 sv_rbegin_tok, 529-557 sv_rnext_tok, 559-563 sv_rend_tok. *)
Definition sv_rbegin_tok (src delim : view) : outcome view :=
  if is_null (s src) then Ok nil_view
  else if is_null (s delim) then Ok (View (plus (s src) (len src)) 0)
  else
    before ← sv_before_rfind src delim;
    let src := View (s src) (min (len src) (before + 1)) in
    start ← sv_rfind src (len src) delim;
    if start =? len src then Ok src
    else
      let start := start + len delim in
      n ← minus (before + 1) start;
      Ok (View (plus (s src) start) n).
Definition sv_rnext_tok (src tok delim : view) : outcome view :=
  if is_null (s tok) then Ok nil_view
  else if (len tok =? 0) || is_null (s delim) || (off (s tok) =? off (s src)) || (off (s tok) <=? off (s src) + len delim)
  then Ok (View (s src) 0)
  else
    let shorter := View (s src) (off (s tok) - len delim - off (s src)) in
    before ← sv_before_rfind shorter delim;
    if before =? len shorter then Ok shorter
    else
      start ← sv_rstrnstrn before (s shorter) (len delim) (s delim);
      if start =? before then Ok (View (s shorter) (before + 1))
      else
        let start := start + len delim in
        n ← minus (before + 1) start;
        Ok (View (plus (s src) start) n).
Definition sv_rend_tok (src tok : view) : bool := (len tok =? 0) && (off (s tok) =? off (s src)).

(** 168-181 sv_delim. *)
Definition sv_delim (str delim : ptr) : outcome view :=
  if is_null str then Ok nil_view
  else if is_null delim then n ← strlen str; Ok (View str n)
  else n ← strlen str; m ← strlen delim; sv_begin_tok (View str n) (View delim m).

(** The loops of str_view.h:98-101 and of its mirror image: all tokens. *)
Fixpoint tokens_loop (fuel : nat) (src tok delim : view) : outcome (list view) :=
  if sv_end_tok src tok then Ok []
  else match fuel with
  | 0 => Fuel
  | S f => next ← sv_next_tok src tok delim; l ← tokens_loop f src next delim; Ok (tok :: l)
  end.
Definition tokens (src delim : view) : outcome (list view) :=
  tok ← sv_begin_tok src delim; tokens_loop (S (len src)) src tok delim.
Fixpoint rtokens_loop (fuel : nat) (src tok delim : view) : outcome (list view) :=
  if sv_rend_tok src tok then Ok []
  else match fuel with
  | 0 => Fuel
  | S f => next ← sv_rnext_tok src tok delim; l ← rtokens_loop f src next delim; Ok (tok :: l)
  end.
Definition rtokens (src delim : view) : outcome (list view) :=
  tok ← sv_rbegin_tok src delim; rtokens_loop (S (len src)) src tok delim.
