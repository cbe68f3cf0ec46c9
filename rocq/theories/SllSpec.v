(** What the singly linked list is meant to do, as seen by its users. *)
From stdpp Require Import base numbers option gmap fin_maps list.
From Verif Require Import Common SllModel.

Section spec.
Context {V : Type}.

(** The user's view: which elements each list holds, in order, and the data of
    every live element, listed or not. *)
Record view : Type := View { lists : gmap nat (list nat); vals : gmap nat V }.

Definition unlisted (A : view) (e : nat) : Prop := forall l xs, lists A !! l = Some xs -> e ∉ xs.
Definition unused (A : view) (p : nat) : Prop := p <> 0 /\ vals A !! p = None /\ lists A !! p = None.

(** [l] becomes [xs]; the elements [gone] are freed if [fr]. *)
Definition set_list (A : view) (l : nat) (xs : list nat) (fr : bool) (gone : list nat) : view :=
  View (<[l := xs]> (lists A)) (if fr then foldr delete (vals A) gone else vals A).

(** [run] is moved from list [cl] to just after [pos] in list [pl]; [pos] may be
    the sentinel of [pl]. Nothing else changes place. *)
Definition moved (A : view) (pl pos cl : nat) (run : list nat) (A' : view) : Prop :=
  exists pre post u v,
    lists A !! cl = Some (pre ++ run ++ post) /\
    <[cl := pre ++ post]> (lists A) !! pl = Some (u ++ v) /\
    last (pl :: u) = Some pos /\
    A' = View (<[pl := u ++ run ++ v]> (<[cl := pre ++ post]> (lists A))) (vals A).

Definition runs (b e : nat) (run : list nat) : Prop := head run = Some b /\ last run = Some e.

(** Permitted calls, their answer and effect; [al] says which lists allocate. *)
Inductive call (al : gmap nat bool) (A : view) : sll_op V -> sll_res V -> view -> Prop :=
  | call_new e v g : unused A e ->
      call al A (SNew e v g) (RPtr e) (View (lists A) (<[e := v]> (vals A)))
  | call_push l e ans xs v : lists A !! l = Some xs -> al !! l = Some false ->
      vals A !! e = Some v -> unlisted A e ->
      call al A (SPushFront l e ans) (RPtr e) (set_list A l (e :: xs) false [])
  | call_push_alloc l e ans xs v : lists A !! l = Some xs -> al !! l = Some true ->
      vals A !! e = Some v -> unused A ans ->
      call al A (SPushFront l e ans) (RPtr ans)
        (View (<[l := ans :: xs]> (lists A)) (<[ans := v]> (vals A)))
  | call_push_refused l e xs : lists A !! l = Some xs -> al !! l = Some true ->
      call al A (SPushFront l e 0) (RPtr 0) A
  | call_pop l x xs fr : lists A !! l = Some (x :: xs) -> al !! l = Some fr ->
      call al A (SPopFront l) (RResult OK) (set_list A l xs fr [x])
  | call_pop_empty l : lists A !! l = Some [] ->
      call al A (SPopFront l) (RResult INPUT_ERR) A
  | call_front l xs : lists A !! l = Some xs ->
      call al A (SFront l) (RPtr (hd 0 xs)) A
  | call_erase l e pre post fr : lists A !! l = Some (pre ++ [e] ++ post) -> al !! l = Some fr ->
      call al A (SErase l e) (RPtr (hd 0 post)) (set_list A l (pre ++ post) fr [e])
  | call_extract l e pre post : lists A !! l = Some (pre ++ [e] ++ post) ->
      call al A (SExtract l e) (RPtr (hd 0 post)) (set_list A l (pre ++ post) false [])
  | call_erase_range l b e pre run post fr : lists A !! l = Some (pre ++ run ++ post) ->
      runs b e run -> al !! l = Some fr ->
      call al A (SEraseRange l b e) (RPtr (hd 0 post)) (set_list A l (pre ++ post) fr run)
  | call_extract_range l b e pre run post : lists A !! l = Some (pre ++ run ++ post) ->
      runs b e run ->
      call al A (SExtractRange l b e) (RPtr (hd 0 post)) (set_list A l (pre ++ post) false [])
  | call_splice pl pos cl e A' : moved A pl pos cl [e] A' ->
      call al A (SSplice pl pos cl e) (RResult OK) A'
  | call_splice_self pl cl e xs ys : lists A !! pl = Some xs -> lists A !! cl = Some ys -> e ∈ ys ->
      call al A (SSplice pl e cl e) (RResult OK) A
  | call_splice_range pl pos cl b e run A' : moved A pl pos cl run A' -> runs b e run ->
      call al A (SSpliceRange pl pos cl b e) (RResult OK) A'
  | call_splice_range_self pl pos cl b e xs ys : lists A !! pl = Some xs -> lists A !! cl = Some ys ->
      b ∈ ys -> e ∈ ys -> pos = b \/ pos = e ->
      call al A (SSpliceRange pl pos cl b e) (RResult OK) A
  | call_clear l fn xs fr : lists A !! l = Some xs -> al !! l = Some fr ->
      call al A (SClear l fn) (RDestroyed OK (if fn then map (fun x => (x, vals A !! x)) xs else []))
        (set_list A l [] fr xs)
  | call_iter l ps : lists A !! l = Some (map fst ps) ->
      Forall (fun p => vals A !! fst p = Some (snd p)) ps ->
      call al A (SIter l) (RElems ps) A
  | call_size l xs : lists A !! l = Some xs ->
      call al A (SSize l) (RNum (Z.of_nat (length xs))) A
  | call_is_empty l xs : lists A !! l = Some xs ->
      call al A (SIsEmpty l) (RBool (length xs =? 0)) A
  | call_validate l xs : lists A !! l = Some xs ->
      call al A (SValidate l) (RBool true) A.

Inductive calls (al : gmap nat bool) : view -> list (sll_op V) -> list (sll_res V) -> view -> Prop :=
  | calls_nil A : calls al A [] [] A
  | calls_cons A o r A1 os rs A2 : call al A o r A1 -> calls al A1 os rs A2 ->
      calls al A (o :: os) (r :: rs) A2.

(** All lists empty, no elements. *)
Definition start (ls : list (nat * bool)) : view :=
  View (list_to_map (map (fun x => (fst x, [])) ls)) ∅.

(** The memory holds what the user sees: every element of every list can be read
    through begin and next, in order, and sizes agree. *)
Definition shows (s : smem V) (A : view) : Prop :=
  forall l xs, lists A !! l = Some xs ->
    sll_size s l = Ok (Z.of_nat (length xs)) /\
    exists ps, sll_iter s l = Ok ps /\ map fst ps = xs /\
      Forall (fun p => vals A !! fst p = Some (snd p)) ps.

End spec.
Arguments view V : clear implicits.
