(** The calls of FhmModel.v with a count of the slots written or read by maybe_resize
    outside the probes: memset of a table, and the scan of the old one. The citations are
    those of FhmModel.v. *)
From stdpp Require Import base numbers option list.
From Verif Require Import Common BufferModel FhmModel TickModel.

Section fhm.
Context {K V : Type} (wide : bool) (hash_fn : K -> N) (eqb : K -> K -> bool).
Local Notation fhm := (buf (hcell K V)).
Local Notation filter := (filter hash_fn).
Local Notation insert := (insert wide).
Local Notation erase := (erase wide).
Local Notation swaps := (swaps wide).

Fixpoint rehash_c (old : slots (hcell K V)) (new : fhm) : ticked fhm :=
  match old with
  | [] => Ok (new, 0)
  | c :: old =>
    match c with
    | None => UB
    | Some (h, kv) =>
      if (h =? 0)%N then '(r, n) ← rehash_c old new; Ok (r, S n)
      else
        match kv with
        | None => UB
        | Some kv =>
          e ← find wide eqb new (fst kv) h;
          new' ← insert new kv h (e_at e);
          '(r, n) ← rehash_c old new'; Ok (r, S n)
        end
    end
  end.

Definition maybe_resize_c (h : fhm) (ok : bool) : ticked (fhm * result) :=
  let stale := negb (b_cap h =? 0) && (b_sz h <? 2) in
  let n0 := if stale then b_cap h else 0 in
  let h1 := if stale
            then Buf (zeroed (b_cap h)) (if b_cap h <? 2 then b_cap h else 2) (b_alloc h)
            else h in
  if negb (b_cap h1 =? 0) && (5 * b_sz h1 <=? 4 * b_cap h1) then Ok (h1, OK, n0)
  else if negb (b_alloc h1) then Ok (h1, NO_ALLOC, n0)
  else
    let new_cap := if b_cap h1 =? 0 then next_prime 0 else next_prime (b_sz h1 * 2) in
    if new_cap <=? b_cap h1 then Ok (h1, MEM_ERR, n0)
    else if negb ok then Ok (h1, MEM_ERR, n0)
    else
      '(new, n) ← rehash_c (b_slots h1) (Buf (zeroed new_cap) 2 (b_alloc h1));
      Ok (new, OK, n0 + new_cap + n).

Definition entry_c (h : fhm) (key : K) (ok : bool) : ticked (fhm * ent) :=
  '(h1, r) ⇠ maybe_resize_c h ok;
  e ← find wide eqb h1 key (filter key);
  Ok (h1, match r with OK => e | _ => Ent (e_at e) (N.lor (e_st e) ST_INSERT_ERROR) end, 0).

(** The key of the entry a call begins with, and the allocator's answer. *)
Definition entry_of (o : fhm_op K V) : option (K * bool) :=
  match o with
  | HContains k ok | HAndModify k _ ok | HRemoveEntry k ok => Some (k, ok)
  | HInsert kv ok | HTryInsert kv ok | HAssign kv ok | HTryInsertW kv ok | HAssignW kv ok
  | HOrInsert kv ok | HInsertEntry kv ok | HOrInsertW kv ok | HInsertEntryW kv ok => Some (fst kv, ok)
  | _ => None
  end.

Definition via_c (h1 : fhm) (e : ent) (kv : K * V)
    (use : fhm -> ent -> K * V -> N -> outcome (fhm * option nat)) : outcome (fhm * fhm_res K V) :=
  '(h2, i) ← use h1 e kv (filter (fst kv));
  v ← deref h2 i;
  Ok (h2, RVal v).

(** What a call does with the entry; none of this resizes. *)
Definition rest (o : fhm_op K V) (h1 : fhm) (e : ent) : outcome (fhm * fhm_res K V) :=
  match o with
  | HContains k _ => Ok (h1, RBool (has (e_st e) ST_OCCUPIED))
  | HInsert kv _ =>
    let hash := filter (fst kv) in
    if has (e_st e) ST_OCCUPIED then
      i ← the_slot (e_at e);
      old ← slot_get (b_slots h1) i;
      T1 ← slot_set (b_slots h1) 0 old;
      T2 ← slot_set T1 i (Some (hash, Some kv));
      tmp ← slot_get T2 0;
      T3 ← set_hash T2 0 0;
      match tmp with
      | Some (_, Some okv) => Ok (with_slots h1 T3, REnt (Res (Some okv) true false))
      | _ => UB
      end
    else if has (e_st e) ST_INSERT_ERROR then Ok (h1, REnt (Res None false true))
    else h2 ← insert h1 kv hash (e_at e); Ok (h2, REnt (Res None false false))
  | HTryInsert kv _ =>
    let hash := filter (fst kv) in
    if has (e_st e) ST_OCCUPIED then r ← mk_res h1 (Ent (e_at e) ST_OCCUPIED); Ok (h1, REnt r)
    else if has (e_st e) ST_INSERT_ERROR then Ok (h1, REnt (Res None false true))
    else
      h2 ← insert h1 kv hash (e_at e);
      r ← mk_res h2 (Ent (e_at e) ST_VACANT);
      Ok (h2, REnt r)
  | HAssign kv _ =>
    let hash := filter (fst kv) in
    if has (e_st e) ST_OCCUPIED then
      h2 ← overwrite h1 (e_at e) hash kv;
      r ← mk_res h2 (Ent (e_at e) ST_OCCUPIED);
      Ok (h2, REnt r)
    else if has (e_st e) ST_INSERT_ERROR then Ok (h1, REnt (Res None false true))
    else
      h2 ← insert h1 kv hash (e_at e);
      r ← mk_res h2 (Ent (e_at e) ST_VACANT);
      Ok (h2, REnt r)
  | HTryInsertW kv _ =>
    let hash := filter (fst kv) in
    if has (e_st e) ST_OCCUPIED || has (e_st e) ST_INSERT_ERROR then r ← mk_res h1 e; Ok (h1, REnt r)
    else
      h2 ← swaps h1 e kv hash;
      r ← mk_res h2 (Ent (e_at e) ST_VACANT);
      Ok (h2, REnt r)
  | HAssignW kv _ =>
    let hash := filter (fst kv) in
    if has (e_st e) ST_OCCUPIED then
      h2 ← overwrite h1 (e_at e) hash kv;
      r ← mk_res h2 e;
      Ok (h2, REnt (Res (r_val r) true (r_err r)))
    else if has (e_st e) ST_INSERT_ERROR then Ok (h1, REnt (Res None false true))
    else
      h2 ← swaps h1 e kv hash;
      r ← mk_res h2 (Ent (e_at e) ST_VACANT);
      Ok (h2, REnt r)
  | HOrInsert kv _ => via_c h1 e kv (or_insert wide)
  | HInsertEntry kv _ => via_c h1 e kv (insert_entry wide)
  | HOrInsertW kv _ => via_c h1 e kv (or_insert_w wide)
  | HInsertEntryW kv _ => via_c h1 e kv (insert_entry_w wide)
  | HAndModify k f _ => h2 ← and_modify h1 e f; v ← deref h2 (unwrap e); Ok (h2, RVal v)
  | HRemoveEntry k _ => '(h2, r) ← remove_entry wide h1 e; Ok (h2, REnt r)
  | _ => UB
  end.

Definition fhm_step_c (h : fhm) (o : fhm_op K V) : ticked (fhm * fhm_res K V) :=
  match entry_of o with
  | Some (k, ok) => '(h1, e) ⇠ entry_c h k ok; plain (rest o h1 e)
  | None => plain (fhm_step wide hash_fn eqb h o)
  end.

Fixpoint fhm_run_c (h : fhm) (os : list (fhm_op K V)) : ticked (fhm * list (fhm_op K V * bool * fhm_res K V)) :=
  match os with
  | [] => Ok (h, [], 0)
  | o :: os =>
      '(h1, r) ⇠ fhm_step_c h o;
      '(h2, rs) ⇠ fhm_run_c h1 os;
      Ok (h2, (o, fhm_full h (op_ok o), r) :: rs, 0)
  end.

(** Rounds of clear without a destructor and one insertion. *)
Fixpoint rounds_c (h : fhm) (kvs : list (K * V)) : ticked fhm :=
  match kvs with
  | [] => Ok (h, 0)
  | kv :: kvs =>
      '(h0, _) ← fhm_clear h false;
      '(h1, _) ⇠ fhm_step_c h0 (HInsert kv true);
      rounds_c h1 kvs
  end.
End fhm.
