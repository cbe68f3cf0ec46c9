(** The functions of BufferModel.v, FpqModel.v and FlatModel.v that ask for more memory,
    with a count of the slots that the allocator has to move: the smaller one of the old
    and the new capacity for every request it grants. The citations are those of the
    three files. *)
From stdpp Require Import base numbers option gmap list.
From Verif Require Import Common BufferModel FpqModel FlatOps TickModel.
From Verif Require FlatModel FomModel FrmModel.

Section buffer.
Context {A : Type}.
Implicit Types b : buf A.

Definition buf_alloc_c b (capacity : nat) (has_fn ok : bool) : ticked (buf A * result) :=
  let '(b', r) := buf_alloc b capacity has_fn ok in
  Ok (b', r, match r with OK => min (b_cap b) capacity | _ => 0 end).

Definition buf_alloc_back_c b (ok : bool) : ticked (buf A * slotref) :=
  if b_sz b =? b_cap b then
    '(b', r) ⇠ (if b_cap b =? 0
                then buf_alloc_c b start_capacity (b_alloc b) ok
                else buf_alloc_c b (b_cap b * 2) (b_alloc b) ok);
    match r with
    | OK => Ok (Buf (b_slots b') (S (b_sz b')) (b_alloc b'), Some (b_sz b'), 0)
    | _ => Ok (b', None, 0)
    end
  else Ok (Buf (b_slots b) (S (b_sz b)) (b_alloc b), Some (b_sz b), 0).

Definition buf_push_back_c b (x : A) (ok : bool) : ticked (buf A * slotref) :=
  '(b', r) ⇠ buf_alloc_back_c b ok;
  match r with
  | None => Ok (b', None, 0)
  | Some i =>
      s ← slot_set (b_slots b') i (Some x);
      Ok (Buf s (b_sz b') (b_alloc b'), Some i, 0)
  end.

(** The other calls do not ask for memory. *)
Definition buf_step_c b (o : buf_op A) : ticked (buf A * buf_ret) :=
  match o with
  | BPush x ok => '(b', r) ⇠ buf_push_back_c b x ok; Ok (b', RRef r, 0)
  | BReserve c h k => '(b', r) ⇠ buf_alloc_c b c h k; Ok (b', RRes r, 0)
  | o => plain (buf_step b o)
  end.
Fixpoint buf_run_c b (os : list (buf_op A)) : ticked (buf A * list buf_ret) :=
  match os with
  | [] => Ok (b, [], 0)
  | o :: os =>
      '(b1, r) ⇠ buf_step_c b o;
      '(b2, rs) ⇠ buf_run_c b1 os;
      Ok (b2, r :: rs, 0)
  end.

Context (cmp : A -> A -> comparison) (order : comparison).

Definition fpq_push_c b (e : A) (ok : bool) : ticked (buf A * slotref) :=
  '(b1, r) ⇠ (if b_cap b <=? b_sz b + 1 then buf_alloc_c b (b_cap b * 2) (b_alloc b) ok
              else Ok (b, OK, 0));
  match r with
  | OK =>
    '(b2, new) ⇠ buf_alloc_back_c b1 ok;
    match new with
    | None => Ok (b2, None, 0)
    | Some p =>
      plain (s ← slot_set (b_slots b2) p (Some e);
             let b3 := set_slots b2 s in
             if 1 <? b_sz b3 then
               '(b4, i) ← up cmp order b3 (buf_at b3 (b_sz b3)) (b_sz b3 - 1);
               Ok (b4, buf_at b4 i)
             else Ok (b3, buf_at b3 0))
    end
  | _ => Ok (b1, None, 0)
  end.

Definition fpq_heapify_c b (array : list A) (ok : bool) : ticked (buf A * result) :=
  let n := length array in
  '(b1, r) ⇠ (if b_cap b <? n + 1 then buf_alloc_c b (n + 1) (b_alloc b) ok else Ok (b, OK, 0));
  match r with
  | OK =>
    plain (s ← copy_in (b_slots b1) 0 (Some <$> array);
           let b2 := Buf s n (b_alloc b1) in
           b3 ← heapify_loop cmp order (n / 2 + 1) b2 (buf_at b2 n);
           Ok (b3, OK))
  | _ => Ok (b1, r, 0)
  end.

Definition fpq_step_c b (o : fpq_op A) : ticked (buf A * fpq_ret A) :=
  match o with
  | QPush x ok => '(b', r) ⇠ fpq_push_c b x ok; v ← deref_val b' r; Ok (b', v, 0)
  | QHeapify l ok => '(b', r) ⇠ fpq_heapify_c b l ok; Ok (b', QRes r, 0)
  | o => plain (fpq_step cmp order b o)
  end.
Fixpoint fpq_run_c b (os : list (fpq_op A))
  : ticked (buf A * list (fpq_op A * fpq_ret A * list (option A))) :=
  match os with
  | [] => Ok (b, [], 0)
  | o :: os =>
      if handle_ok b o then
        '(b1, r) ⇠ fpq_step_c b o;
        '(b2, tr) ⇠ fpq_run_c b1 os;
        Ok (b2, (o, r, buf_contents b1) :: tr, 0)
      else fpq_run_c b os
  end.
End buffer.

Section flat.
Import FlatModel.
Context {K V : Type} (alloc : bool) (seal : flat K V -> outcome (flat K V)).
Context {H : Type} (find : flat K V -> K -> outcome (flat K V * option nat * H)).
Context (link : flat K V -> H -> nat -> outcome (flat K V * option nat)).
Context (contains : flat K V -> K -> outcome (flat K V * bool)).
Context (remove : flat K V -> user K V -> outcome (flat K V * fent * cell K V)).
Context (remove_at : flat K V -> nat -> outcome (flat K V * nat)).
Context (range : flat K V -> bool -> K -> K -> outcome (flat K V * option nat * option nat)).
Context (clear : flat K V -> bool -> outcome (flat K V * result * list (nat * (K * V)))).
Context (validate : flat K V -> outcome bool).
Implicit Types s : flat K V.

Definition map_alloc_back_c s (ans : grant) : ticked (flat K V * option nat) :=
  let next s1 := (set_sz s1 (S (sz s)), Some (sz s)) in
  if sz s =? cap s then
    match alloc, ans with
    | true, Some junk => Ok (next (grow s (if cap s =? 0 then 8 else cap s * 2) junk), cap s)
    | _, _ => Ok (s, None, 0)
    end
  else Ok (next s, 0).

Definition alloc_back_c s (ans : grant) : ticked (flat K V * option nat) :=
  if sz s =? 0 then
    '(s1, o) ⇠ map_alloc_back_c s ans;
    match o with
    | None => Ok (s1, None, 0)
    | Some _ => s2 ← seal s1; map_alloc_back_c s2 ans
    end
  else map_alloc_back_c s ans.

Definition maybe_alloc_insert_c s (h : H) (u : cell K V) (ans : grant) : ticked (flat K V * option nat) :=
  '(s1, o) ⇠ alloc_back_c s ans;
  match o with
  | None => Ok (s1, None, 0)
  | Some _ =>
    let n := sz s1 - 1 in
    plain (s2 ← write s1 n u; link s2 h n)
  end.
Definition literal_insert_c s (h : H) (u : cell K V) (ans : grant) : ticked (flat K V * option nat) :=
  '(s1, o) ⇠ alloc_back_c s ans;
  match o with
  | None => Ok (s1, None, 0)
  | Some i => plain (s2 ← write s1 i u; '(s3, _) ← link s2 h (sz s1 - 1); Ok (s3, Some i))
  end.

Definition insert_c s (u : user K V) (ans : grant) : ticked (flat K V * fent * cell K V) :=
  '(s1, o, h) ← find s (fst (snd u));
  match o with
  | Some x =>
    plain (c ← read s1 x;
           let u1 : cell K V := (fst c, Some (snd u)) in
           s2 ← write s1 0 u1;
           u2 ← read s2 x;
           c0 ← read s2 0;
           s3 ← write s2 x c0;
           s4 ← seal s3;
           Ok (s4, FEnt (Some (Slot x)) true false, u2))
  | None =>
    '(s2, p) ⇠ maybe_alloc_insert_c s1 h (cell_of u) ans;
    Ok (s2, match p with Some _ => FEnt None false false | None => FEnt None false true end, cell_of u, 0)
  end.
Definition try_insert_c s (u : user K V) (ans : grant) : ticked (flat K V * fent * cell K V) :=
  '(s1, o, h) ← find s (fst (snd u));
  match o with
  | Some x => Ok (s1, FEnt (Some (Slot x)) true false, cell_of u, 0)
  | None => '(s2, p) ⇠ maybe_alloc_insert_c s1 h (cell_of u) ans; Ok (s2, inserted_ent p, cell_of u, 0)
  end.
Definition insert_or_assign_c s (u : user K V) (ans : grant) : ticked (flat K V * fent * cell K V) :=
  '(s1, o, h) ← find s (fst (snd u));
  match o with
  | Some x => plain ('(s2, u1) ← overwrite s1 x u; Ok (s2, FEnt (Some (Slot x)) true false, u1))
  | None => '(s2, p) ⇠ maybe_alloc_insert_c s1 h (cell_of u) ans; Ok (s2, inserted_ent p, cell_of u, 0)
  end.
Definition or_insert_c s (en : tent) (u : user K V) (ans : grant) : ticked (flat K V * option nat) :=
  match te en with Some x => Ok (s, Some x, 0) | None => maybe_alloc_insert_c s (hint en) (cell_of u) ans end.
Definition insert_entry_c s (en : tent) (u : user K V) (ans : grant) : ticked (flat K V * option nat) :=
  match te en with
  | Some x => plain ('(s1, _) ← overwrite s x u; Ok (s1, Some x))
  | None => maybe_alloc_insert_c s (hint en) (cell_of u) ans
  end.
Definition or_insert_w_c s (en : tent) (u : user K V) (ans : grant) : ticked (flat K V * option nat) :=
  match te en with Some x => Ok (s, Some x, 0) | None => literal_insert_c s (hint en) (cell_of u) ans end.
Definition insert_entry_w_c s (en : tent) (u : user K V) (ans : grant) : ticked (flat K V * option nat) :=
  match te en with
  | None => literal_insert_c s (hint en) (cell_of u) ans
  | Some x => plain (s1 ← literal_overwrite s x (cell_of u); Ok (s1, Some x))
  end.
Definition try_insert_w_c s (k : K) (u : user K V) (ans : grant) : ticked (flat K V * fent) :=
  '(s1, en) ← flat_entry find s k;
  match te en with
  | None => '(s2, p) ⇠ literal_insert_c s1 (hint en) (keyed_cell k u) ans; Ok (s2, inserted_ent p, 0)
  | Some x => Ok (s1, FEnt (Some (Slot x)) true false, 0)
  end.
Definition insert_or_assign_w_c s (k : K) (u : user K V) (ans : grant) : ticked (flat K V * fent) :=
  '(s1, en) ← flat_entry find s k;
  match te en with
  | None => '(s2, p) ⇠ literal_insert_c s1 (hint en) (keyed_cell k u) ans; Ok (s2, inserted_ent p, 0)
  | Some x => plain (s2 ← literal_overwrite s1 x (keyed_cell k u); Ok (s2, FEnt (Some (Slot x)) true false))
  end.

Definition map_step_c s (o : flat_op K V) : ticked (flat K V * flat_res K V) :=
  match o with
  | FInsert u ans => '(s', e, h) ⇠ insert_c s u ans; r ← look s' e (Some h); Ok (s', r, 0)
  | FTryInsert u ans => '(s', e, h) ⇠ try_insert_c s u ans; r ← look s' e (Some h); Ok (s', r, 0)
  | FAssign u ans => '(s', e, h) ⇠ insert_or_assign_c s u ans; r ← look s' e (Some h); Ok (s', r, 0)
  | FOrInsert k u ans =>
    '(s1, en) ← flat_entry find s k; '(s', p) ⇠ or_insert_c s1 en u ans; r ← see s' p; Ok (s', r, 0)
  | FInsertEntry k u ans =>
    '(s1, en) ← flat_entry find s k; '(s', p) ⇠ insert_entry_c s1 en u ans; r ← see s' p; Ok (s', r, 0)
  | FOrInsertW k u ans =>
    '(s1, en) ← flat_entry find s k; '(s', p) ⇠ or_insert_w_c s1 en u ans; r ← see s' p; Ok (s', r, 0)
  | FInsertEntryW k u ans =>
    '(s1, en) ← flat_entry find s k; '(s', p) ⇠ insert_entry_w_c s1 en u ans; r ← see s' p; Ok (s', r, 0)
  | FTryInsertW k u ans => '(s', e) ⇠ try_insert_w_c s k u ans; r ← look s' e None; Ok (s', r, 0)
  | FAssignW k u ans => '(s', e) ⇠ insert_or_assign_w_c s k u ans; r ← look s' e None; Ok (s', r, 0)
  | o => plain (flat_step alloc seal find link contains remove remove_at range clear validate s o)
  end.
Fixpoint map_run_c s (os : list (flat_op K V)) : ticked (flat K V * list (flat_res K V)) :=
  match os with
  | [] => Ok (s, [], 0)
  | o :: os' =>
    '(s1, r) ⇠ map_step_c s o;
    '(s2, rs) ⇠ map_run_c s1 os';
    Ok (s2, r :: rs, 0)
  end.
End flat.

(** The two maps. *)
Section maps.
Context {K V : Type} (cmp : K -> K -> comparison) (alloc : bool).
Definition fom_run_c : FlatModel.flat K V -> list (flat_op K V) -> ticked (FlatModel.flat K V * list (flat_res K V)) :=
  map_run_c alloc FomModel.fom_seal (FomModel.fom_find cmp) (FomModel.fom_link cmp) (FomModel.fom_contains cmp)
    (FomModel.fom_remove cmp) (FomModel.fom_remove_at cmp) (FomModel.fom_range cmp) FomModel.fom_clear (FomModel.fom_validate cmp).
Definition frm_run_c : FlatModel.flat K V -> list (flat_op K V) -> ticked (FlatModel.flat K V * list (flat_res K V)) :=
  map_run_c alloc FrmModel.frm_seal (FrmModel.frm_find cmp) FrmModel.frm_link (FrmModel.frm_contains cmp)
    (FrmModel.frm_remove cmp) FrmModel.remove_fixup (FrmModel.frm_range cmp) FlatModel.flat_clear (FrmModel.frm_validate cmp).
End maps.
