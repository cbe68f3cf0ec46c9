(** The searches and tokens of SvModel.v again, counting the bytes they read. *)
From stdpp Require Import base numbers option list.
From Verif Require Import Common SvModel.

(** An outcome and the number of bytes read on the way to it. Every byte is read by [crd];
    erasing the counts gives back SvModel.v (SvCost.v). What is not counted: the arithmetic
    between the reads, of which there is a bounded amount for each. *)
Record counted (A : Type) : Type := Counted { val : outcome A; cost : nat }.
Arguments Counted {A} _ _.
Arguments val {A} _.
Arguments cost {A} _.
Definition cbind {A B} (f : A -> counted B) (m : counted A) : counted B :=
  match val m with
  | Ok a => let r := f a in Counted (val r) (cost m + cost r)
  | UB => Counted UB (cost m)
  | Fuel => Counted Fuel (cost m)
  end.
Global Instance counted_bind : MBind counted := @cbind.
Definition free {A} (o : outcome A) : counted A := Counted o 0.
Definition ret {A} (a : A) : counted A := free (Ok a).
Definition crd (p : ptr) (i : nat) : counted N := Counted (rd p i) 1.

(** 1451-1458 sv_strnchr, 1460-1468 sv_rstrnchr. *)
Fixpoint while_c (n : nat) (str : ptr) (ok : N -> bool) (i : nat) : counted nat :=
  match n with
  | 0 => ret i
  | S n' => b ← crd str i; if ok b then while_c n' str ok (i + 1) else ret i
  end.
Fixpoint rchr_c (i : nat) (p : ptr) (c : N) : counted (option nat) :=
  match i with
  | 0 => ret None
  | S i' => b ← crd p i'; if (b =? c)%N then ret (Some i') else rchr_c i' p c
  end.

(** 1470-1556: needles of two, three and four bytes. *)
Fixpoint window_c (fuel sz : nat) (h : ptr) (step : N -> N -> N) (nw hw : N) (i : nat) : counted nat :=
  if (hw =? nw)%N then ret i
  else match fuel with
  | 0 => free Fuel
  | S f =>
    let i := i + 1 in
    if i <? sz then b ← crd h i; window_c f sz h step nw (step hw b) i else ret i
  end.
Definition forward_c (sz : nat) (h : ptr) (back : nat) (step : N -> N -> N) (nw hw : N) : counted nat :=
  i ← window_c sz sz h step nw hw back;
  if sz <=? i then ret sz else free (j ← minus (sz - (sz - i)) back; Ok j).
Fixpoint rwindow_c (h : ptr) (step : N -> N -> outcome N) (nw iw : N) (i : nat) : counted (option nat) :=
  if (iw =? nw)%N then ret (Some i)
  else match i with
  | 0 => ret None
  | S i' => b ← crd h i'; w ← free (step iw b); rwindow_c h step nw w i'
  end.
Definition backward_c (sz : nat) (h : ptr) (back : nat) (step : N -> N -> outcome N) (nw iw : N) : counted nat :=
  r ← rwindow_c h step nw iw (sz - 1 - back);
  ret (match r with Some i => i | None => sz end).
Definition word2_c (p : ptr) (i : nat) : counted N :=
  a ← crd p i; b ← crd p (i + 1); ret (to_u16 (N.lor (N.shiftl a 8) b)).
Definition word3_c (p : ptr) (i : nat) : counted N :=
  a ← crd p i; b ← crd p (i + 1); c ← crd p (i + 2);
  x ← free (shl_int b 16); y ← free (shl_int c 8); ret (to_u32 (N.lor (N.lor (N.shiftl a 24) x) y)).
Definition rword3_c (p : ptr) (i : nat) : counted N :=
  a ← crd p i; b ← crd p (i + 1); c ← crd p (i + 2);
  x ← free (shl_int b 8); ret (to_u32 (N.lor (N.lor (N.shiftl a 16) x) c)).
Definition word4_c (p : ptr) (i : nat) : counted N :=
  a ← crd p i; b ← crd p (i + 1); c ← crd p (i + 2); d ← crd p (i + 3);
  x ← free (shl_int b 16); y ← free (shl_int c 8);
  ret (to_u32 (N.lor (N.lor (N.lor (N.shiftl a 24) x) y) d)).
Definition two_c (sz : nat) (h n : ptr) : counted nat :=
  nw ← word2_c n 0; hw ← word2_c h 0;
  forward_c sz h 1 (fun hw b => to_u16 (N.lor (N.shiftl hw 8) b)) nw hw.
Definition rtwo_c (sz : nat) (h n : ptr) : counted nat :=
  nw ← word2_c n 0; iw ← word2_c h (sz - 2);
  backward_c sz h 1 (fun iw b => x ← shl_int b 8; Ok (to_u16 (N.lor (N.shiftr iw 8) x))) nw iw.
Definition three_c (sz : nat) (h n : ptr) : counted nat :=
  nw ← word3_c n 0; hw ← word3_c h 0;
  forward_c sz h 2 (fun hw b => to_u32 (N.shiftl (N.lor hw b) 8)) nw hw.
Definition rthree_c (sz : nat) (h n : ptr) : counted nat :=
  nw ← rword3_c n 0; iw ← rword3_c h (sz - 3);
  backward_c sz h 2 (fun iw b => x ← shl_int b 16; Ok (to_u32 (N.lor (N.shiftr iw 8) x))) nw iw.
Definition four_c (sz : nat) (h n : ptr) : counted nat :=
  nw ← word4_c n 0; hw ← word4_c h 0;
  forward_c sz h 3 (fun hw b => to_u32 (N.lor (N.shiftl hw 8) b)) nw hw.
Definition rfour_c (sz : nat) (h n : ptr) : counted nat :=
  nw ← word4_c n 0; iw ← word4_c h (sz - 4);
  backward_c sz h 3 (fun iw b => x ← shl_int b 24; Ok (to_u32 (N.lor (N.shiftr iw 8) x))) nw iw.

(** Two-way string matching. *)
Definition fwd_c (p : ptr) (sz : nat) (i : nat) : counted N := crd p i.
Definition bwd_c (p : ptr) (sz : nat) (i : nat) : counted N := j ← free (minus sz (i + 1)); crd p j.

Section two_way.
Context (at_n : nat -> counted N) (needle_sz : nat) (at_h : nat -> counted N) (hay_sz : nat).

(** 1136-1220, 1356-1437. *)
Fixpoint suffix_c (fuel : nat) (flip : bool) (suff period last_rest rest : nat) : counted (nat * nat) :=
  if last_rest + rest <? needle_sz then
    match fuel with
    | 0 => free Fuel
    | S f =>
      a ← at_n (last_rest + rest);
      b ← at_n (suff + rest - 1);
      match (if flip then CompOpp (sv_char_cmp a b) else sv_char_cmp a b) with
      | Lt => suffix_c f flip suff (last_rest + rest + 1 - suff) (last_rest + rest) 1
      | Eq => if rest =? period then suffix_c f flip suff period (last_rest + period) 1
              else suffix_c f flip suff period last_rest (rest + 1)
      | Gt => suffix_c f flip (last_rest + 1) 1 (last_rest + 1) 1
      end
    end
  else ret (suff, period).
Definition maximal_suffix_c (flip : bool) : counted (nat * nat) := suffix_c (2 * needle_sz) flip 0 1 0 1.

(** memcmp of 1052, 867-875 sv_rmemcmp. *)
Fixpoint same_c (n : nat) (i j : nat) : counted bool :=
  match n with
  | 0 => ret true
  | S n' => a ← at_n i; b ← at_n j; if (a =? b)%N then same_c n' (i + 1) (j + 1) else ret false
  end.
Fixpoint right_c (n : nat) (lpos rpos : nat) : counted nat :=
  match n with
  | 0 => ret rpos
  | S n' => a ← at_n rpos; b ← at_h (rpos + lpos);
            if (a =? b)%N then right_c n' lpos (rpos + 1) else ret rpos
  end.
Fixpoint left_c (rpos : nat) (memo lpos : nat) : counted nat :=
  match rpos with
  | 0 => ret 0
  | S r => if memo <? rpos then
             a ← at_n r; b ← at_h (r + lpos);
             if (a =? b)%N then left_c r memo lpos else ret rpos
           else ret rpos
  end.

(** 1060-1131, 1277-1352. *)
Fixpoint memo_c (fuel : nat) (period critical lpos memo : nat) : counted (option nat) :=
  if lpos + needle_sz <=? hay_sz then
    match fuel with
    | 0 => free Fuel
    | S f =>
      let from := max critical memo in
      rpos ← right_c (needle_sz - from) lpos from;
      if rpos <? needle_sz then memo_c f period critical (lpos + (rpos + 1 - critical)) 0
      else
        rpos ← left_c critical memo lpos;
        if rpos <=? memo then ret (Some lpos)
        else memo_c f period critical (lpos + period) (needle_sz - period)
    end
  else ret None.
Fixpoint normal_c (fuel : nat) (period critical lpos : nat) : counted (option nat) :=
  if lpos + needle_sz <=? hay_sz then
    match fuel with
    | 0 => free Fuel
    | S f =>
      rpos ← right_c (needle_sz - critical) lpos critical;
      if rpos <? needle_sz then normal_c f period critical (lpos + (rpos + 1 - critical))
      else
        rpos ← left_c critical 0 lpos;
        if rpos =? 0 then ret (Some lpos)
        else normal_c f period critical (lpos + period)
    end
  else ret None.

(** 1039-1058, 1259-1275. *)
Definition two_way_c : counted (option nat) :=
  a ← maximal_suffix_c false;
  b ← maximal_suffix_c true;
  let '(critical, period) := if fst b <? fst a then a else b in
  same ← same_c critical 0 period;
  if (same : bool) then memo_c (S hay_sz) period critical 0 0
  else normal_c (S hay_sz) (max critical (needle_sz - critical) + 1) critical 0.
End two_way.

Definition match_tw_c (hay_sz : nat) (hay : ptr) (needle_sz : nat) (needle : ptr) : counted nat :=
  r ← two_way_c (fwd_c needle needle_sz) needle_sz (fwd_c hay hay_sz) hay_sz;
  ret (match r with Some lpos => lpos | None => hay_sz end).
Definition rmatch_tw_c (hay_sz : nat) (hay : ptr) (needle_sz : nat) (needle : ptr) : counted nat :=
  r ← two_way_c (bwd_c needle needle_sz) needle_sz (bwd_c hay hay_sz) hay_sz;
  match r with Some lpos => free (minus hay_sz (lpos + needle_sz)) | None => ret hay_sz end.

(** 945-1012. *)
Definition strnstrn_c (hay_sz : nat) (hay : ptr) (needle_sz : nat) (needle : ptr) : counted nat :=
  if (hay_sz =? 0) || (needle_sz =? 0) || (hay_sz <? needle_sz) then ret hay_sz
  else match needle_sz with
  | 1 => c ← crd needle 0; while_c hay_sz hay (fun b => negb (b =? c)%N) 0
  | 2 => two_c hay_sz hay needle
  | 3 => three_c hay_sz hay needle
  | 4 => four_c hay_sz hay needle
  | _ => match_tw_c hay_sz hay needle_sz needle
  end.
Definition rstrnstrn_c (hay_sz : nat) (hay : ptr) (needle_sz : nat) (needle : ptr) : counted nat :=
  if (hay_sz =? 0) || (needle_sz =? 0) || (hay_sz <? needle_sz) then ret hay_sz
  else match needle_sz with
  | 1 => c ← crd needle 0; r ← rchr_c hay_sz hay c; ret (match r with Some i => i | None => hay_sz end)
  | 2 => rtwo_c hay_sz hay needle
  | 3 => rthree_c hay_sz hay needle
  | 4 => rfour_c hay_sz hay needle
  | _ => rmatch_tw_c hay_sz hay needle_sz needle
  end.

(** 681-707 sv_find, sv_rfind, 627-679 sv_contains, sv_match, sv_rmatch. *)
Definition find_c (hay : view) (pos : nat) (needle : view) : counted nat :=
  if (len hay <? len needle) || (len hay <? pos) then ret (len hay)
  else r ← strnstrn_c (len hay - pos) (plus (s hay) pos) (len needle) (s needle); ret (pos + r).
Definition rfind_c (h : view) (pos : nat) (n : view) : counted nat :=
  if (len h =? 0) || (len h <? len n) then ret (len h)
  else
    let pos := if len h <=? pos then len h - 1 else pos in
    found ← rstrnstrn_c (pos + 1) (s h) (len n) (s n);
    ret (if found =? pos + 1 then len h else found).
Definition contains_c (hay needle : view) : counted bool :=
  if len hay <? len needle then ret false
  else if len hay =? 0 then ret false
  else if len needle =? 0 then ret true
  else r ← strnstrn_c (len hay) (s hay) (len needle) (s needle); ret (negb (len hay =? r)).
Definition match_c (hay needle : view) : counted view :=
  if is_null (s hay) || is_null (s needle) then ret nil_view
  else if (len hay <? len needle) || (len hay =? 0) || (len needle =? 0)
  then ret (View (plus (s hay) (len hay)) 0)
  else r ← strnstrn_c (len hay) (s hay) (len needle) (s needle); ret (found_view hay needle r).
Definition rmatch_c (hay needle : view) : counted view :=
  if is_null (s hay) then ret nil_view
  else if (len hay =? 0) || (len needle =? 0) then ret (View (plus (s hay) (len hay)) 0)
  else r ← rstrnstrn_c (len hay) (s hay) (len needle) (s needle); ret (found_view hay needle r).

(** 796-811 sv_after_find, 447-467 sv_begin_tok, 475-505 sv_next_tok, str_view.h:98-101. *)
Fixpoint after_c (n : nat) (hay needle : view) (delim_i i : nat) : counted (nat * nat) :=
  match n with
  | 0 => ret (i, delim_i)
  | S n' =>
    a ← crd (s needle) delim_i; b ← crd (s hay) i;
    if (a =? b)%N then
      if len needle =? 0 then free UB
      else after_c n' hay needle ((delim_i + 1) mod len needle) (i + 1)
    else ret (i, delim_i)
  end.
Definition after_find_c (hay needle : view) : counted nat :=
  if len hay <? len needle then ret 0
  else '(i, delim_i) ← after_c (len hay) hay needle 0 0; free (minus i delim_i).
Definition begin_tok_c (src delim : view) : counted view :=
  if is_null (s src) then ret nil_view
  else if is_null (s delim) then ret (View (plus (s src) (len src)) 0)
  else
    k ← after_find_c src delim;
    if k =? len src then ret (View (plus (s src) k) 0)
    else
      n ← free (minus (len src) k);
      let rest := View (plus (s src) k) n in
      r ← find_c rest 0 delim; ret (View (s rest) r).
Definition next_tok_c (src tok delim : view) : counted view :=
  if is_null (s tok) then ret nil_view
  else
    stop ← (if is_null (s delim) then ret true else b ← crd (s tok) (len tok); ret (b =? 0)%N);
    if (stop : bool) then ret (View (plus (s tok) (len tok)) 0)
    else
      let next := plus (s tok) (len tok) in
      let end_ := plus (s src) (len src) in
      if off end_ <=? off next then ret (View end_ 0)
      else
        let next := plus next (len delim) in
        d ← free (minus (off next) (off (s src)));
        n ← free (minus (len src) d);
        k ← after_find_c (View next n) delim;
        let next := plus next k in
        n ← free (minus n k);
        if off end_ <=? off next then ret (View end_ 0)
        else found ← strnstrn_c n next (len delim) (s delim); ret (View next found).
Fixpoint tokens_loop_c (fuel : nat) (src tok delim : view) : counted (list view) :=
  if sv_end_tok src tok then ret []
  else match fuel with
  | 0 => free Fuel
  | S f => next ← next_tok_c src tok delim; l ← tokens_loop_c f src next delim; ret (tok :: l)
  end.
Definition tokens_c (src delim : view) : counted (list view) :=
  tok ← begin_tok_c src delim; tokens_loop_c (S (len src)) src tok delim.
