(** Specification of the hash map: an association list with distinct keys. *)
From stdpp Require Import base numbers option list.
From Verif Require Import Common FhmModel.

Section spec.
Context {K V : Type} (hash_fn : K -> N) (eqb : K -> K -> bool).

(** What the user's callbacks must satisfy: equality is an equivalence and
    equal keys have equal hashes. Nothing is asked of the hash otherwise. *)
Definition key_ok : Prop :=
  (forall a, eqb a a = true) /\
  (forall a b, eqb a b = true -> eqb b a = true) /\
  (forall a b c, eqb a b = true -> eqb b c = true -> eqb a c = true) /\
  (forall a b, eqb a b = true -> hash_fn a = hash_fn b).

(** At most one pair per key. *)
Definition uniq (l : list (K * V)) : Prop :=
  forall i j x y, l !! i = Some x -> l !! j = Some y -> eqb (fst x) (fst y) = true -> i = j.

(** The pair stored under [k]. *)
Fixpoint assoc (k : K) (l : list (K * V)) : option (K * V) :=
  match l with
  | [] => None
  | x :: l => if eqb k (fst x) then Some x else assoc k l
  end.

(** Replace the pair stored under the key of [kv], which is present. *)
Fixpoint put (kv : K * V) (l : list (K * V)) : list (K * V) :=
  match l with
  | [] => []
  | x :: l => if eqb (fst kv) (fst x) then kv :: l else x :: put kv l
  end.

Fixpoint del (k : K) (l : list (K * V)) : list (K * V) :=
  match l with
  | [] => []
  | x :: l => if eqb k (fst x) then l else x :: del k l
  end.

(** Documented effect of each call on the stored pairs; [full] says that a new
    key cannot be stored. *)
Definition spec_step (full : bool) (l : list (K * V)) (o : fhm_op K V)
  : list (K * V) * fhm_res K V :=
  match o with
  | HContains k _ => (l, RBool (match assoc k l with Some _ => true | None => false end))
  | HGet k => (l, RVal (assoc k l))
  | HInsert kv _ =>
      match assoc (fst kv) l with
      | Some old => (put kv l, REnt (Res (Some old) true false))
      | None => if full then (l, REnt (Res None false true)) else (kv :: l, REnt (Res None false false))
      end
  | HTryInsert kv _ =>
      match assoc (fst kv) l with
      | Some old => (l, REnt (Res (Some old) true false))
      | None => if full then (l, REnt (Res None false true)) else (kv :: l, REnt (Res (Some kv) false false))
      end
  | HAssign kv _ =>
      match assoc (fst kv) l with
      | Some old => (put kv l, REnt (Res (Some kv) true false))
      | None => if full then (l, REnt (Res None false true)) else (kv :: l, REnt (Res (Some kv) false false))
      end
  | HTryInsertW kv _ =>
      match assoc (fst kv) l with
      | Some old => (l, REnt (Res (Some old) true full))
      | None => if full then (l, REnt (Res None false true)) else (kv :: l, REnt (Res (Some kv) false false))
      end
  | HAssignW kv _ =>
      match assoc (fst kv) l with
      | Some old => (put kv l, REnt (Res (Some kv) true full))
      | None => if full then (l, REnt (Res None false true)) else (kv :: l, REnt (Res (Some kv) false false))
      end
  | HOrInsert kv _ | HOrInsertW kv _ =>
      match assoc (fst kv) l with
      | Some old => (l, RVal (Some old))
      | None => if full then (l, RVal None) else (kv :: l, RVal (Some kv))
      end
  | HInsertEntry kv _ | HInsertEntryW kv _ =>
      match assoc (fst kv) l with
      | Some old => (put kv l, RVal (Some kv))
      | None => if full then (l, RVal None) else (kv :: l, RVal (Some kv))
      end
  | HAndModify k f _ =>
      match assoc k l with
      | Some (k', v) => (put (k', f v) l, RVal (Some (k', f v)))
      | None => (l, RVal None)
      end
  | HRemoveEntry k _ =>
      match assoc k l with
      | Some _ => (del k l, REnt (Res None true false))
      | None => (l, REnt (Res None false false))
      end
  | HRemove k =>
      match assoc k l with
      | Some old => (del k l, REnt (Res (Some old) true false))
      | None => (l, REnt (Res None false false))
      end
  | HIter => (l, RList l)
  | HSize => (l, RNum (N.of_nat (length l)))
  | HIsEmpty => (l, RBool (match l with [] => true | _ => false end))
  | HValidate => (l, RBool true)
  end.

(** The four calls that give up, leaving the map alone, on a full table even
    though the key is present (C19). *)
Definition spec_refused (l : list (K * V)) (o : fhm_op K V) : option (fhm_res K V) :=
  match o with
  | HOrInsertW kv _ | HInsertEntryW kv _ =>
      match assoc (fst kv) l with Some _ => Some (RVal None) | None => None end
  | HAndModify k _ _ => match assoc k l with Some old => Some (RVal (Some old)) | None => None end
  | HRemoveEntry k _ =>
      match assoc k l with Some _ => Some (REnt (Res None false false)) | None => None end
  | _ => None
  end.

(** Results agree; the order of iteration is unspecified. *)
Definition res_eq (r r0 : fhm_res K V) : Prop :=
  match r, r0 with
  | RList l, RList l0 => l ≡ₚ l0
  | _, _ => r = r0
  end.

(** One call with contents before and after, up to order. *)
Definition fhm_call (full : bool) (l : list (K * V)) (o : fhm_op K V) (r : fhm_res K V)
    (l' : list (K * V)) : Prop :=
  if full then
    match spec_refused l o with
    | Some r0 => r = r0 /\ l' ≡ₚ l
    | None => l' ≡ₚ fst (spec_step true l o) /\ res_eq r (snd (spec_step true l o))
    end
  else l' ≡ₚ fst (spec_step false l o) /\ res_eq r (snd (spec_step false l o)).

Fixpoint fhm_trace (l : list (K * V)) (tr : list (fhm_op K V * bool * fhm_res K V))
    (l' : list (K * V)) : Prop :=
  match tr with
  | [] => l' = l
  | (o, full, r) :: tr => exists l1, fhm_call full l o r l1 /\ fhm_trace l1 tr l'
  end.

End spec.
