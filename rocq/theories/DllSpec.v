(** What the doubly linked list does for its users, and where it stops doing so. *)
From stdpp Require Import base numbers option gmap fin_maps list.
From Verif Require Import Common DllModel.

Section spec.
Context {V : Type}.

(** The user's view: the elements of each list in order, the data of every live
    element, and the lists that are worn. A list is worn from the moment its
    front was popped, by pop_front or clear, until something is pushed at its
    front: during that time the link back from its first element (or from the
    sentinel of an empty list) is out of date, and only calls that do not use
    that link keep to the specification. *)
Record view : Type := View { lists : gmap nat (list nat); vals : gmap nat V; worn : gset nat }.

Definition unlisted (A : view) (e : nat) : Prop := forall l xs, lists A !! l = Some xs -> e ∉ xs.
Definition unused (A : view) (p : nat) : Prop := p <> 0 /\ vals A !! p = None /\ lists A !! p = None.
Definition has (A : view) (l : nat) (xs : list nat) : Prop := lists A !! l = Some xs.
Definition sound (A : view) (l : nat) (xs : list nat) : Prop := lists A !! l = Some xs /\ l ∉ worn A.

(** [l] becomes [xs]; the elements [gone] are freed if [fr]. *)
Definition set_list (A : view) (l : nat) (xs : list nat) (fr : bool) (gone : list nat) : view :=
  View (<[l := xs]> (lists A)) (if fr then foldr delete (vals A) gone else vals A) (worn A).
Definition wear (A : view) (l : nat) : view := View (lists A) (vals A) ({[l]} ∪ worn A).
Definition mend (A : view) (l : nat) : view := View (lists A) (vals A) (worn A ∖ {[l]}).
Definition add_val (A : view) (e : nat) (v : V) : view := View (lists A) (<[e := v]> (vals A)) (worn A).

(** What is linked in by a push of [e], and the data then live: [e] itself, or
    without a refusal the copy at [ans]. *)
Inductive pushed (al : gmap nat bool) (A : view) (l e ans : nat) : nat -> view -> Prop :=
  | pushed_own v : al !! l = Some false -> vals A !! e = Some v -> unlisted A e ->
      pushed al A l e ans e A
  | pushed_copy v : al !! l = Some true -> vals A !! e = Some v -> unused A ans ->
      pushed al A l e ans ans (add_val A ans v).

(** [run] is moved from list [cl], where it stands between [pre] and [post], to
    just before [pos] in list [pl]; [pos] may be the sentinel of [pl]. *)
Definition moved (A : view) (pl pos cl : nat) (pre run post : list nat) (A' : view) : Prop :=
  pl ∉ worn A /\ cl ∉ worn A /\
  exists u v,
    lists A !! cl = Some (pre ++ run ++ post) /\
    <[cl := pre ++ post]> (lists A) !! pl = Some (u ++ v) /\
    pos = hd pl v /\
    A' = View (<[pl := u ++ run ++ v]> (<[cl := pre ++ post]> (lists A))) (vals A) (worn A).

(** Permitted calls, their answer and effect; [al] says which lists allocate,
    [ndebug] that assertions are compiled out. *)
Inductive call (ndebug : bool) (al : gmap nat bool) (A : view) : dll_op V -> dll_res V -> view -> Prop :=
  | call_new e v g g' : unused A e ->
      call ndebug al A (DNew e v g g') (RPtr e) (add_val A e v)
  | call_push_front l e ans xs x A1 : has A l xs -> pushed al A l e ans x A1 ->
      call ndebug al A (DPushFront l e ans) (RPtr x) (mend (set_list A1 l (x :: xs) false []) l)
  | call_push_back l e ans xs x A1 : has A l xs -> pushed al A l e ans x A1 ->
      xs <> [] \/ l ∉ worn A ->
      call ndebug al A (DPushBack l e ans) (RPtr x) (set_list A1 l (xs ++ [x]) false [])
  | call_push_refused l e xs o : has A l xs -> al !! l = Some true ->
      o = DPushFront l e 0 \/ o = DPushBack l e 0 ->
      call ndebug al A o (RPtr 0) A
  | call_emplace_front l v ans xs : has A l xs -> al !! l = Some true -> unused A ans ->
      call ndebug al A (DEmplaceFront l v ans) (RPtr ans)
        (mend (set_list (add_val A ans v) l (ans :: xs) false []) l)
  | call_emplace_back l v ans xs : has A l xs -> al !! l = Some true -> unused A ans ->
      xs <> [] \/ l ∉ worn A ->
      call ndebug al A (DEmplaceBack l v ans) (RPtr ans) (set_list (add_val A ans v) l (xs ++ [ans]) false [])
  | call_emplace_refused l v ans xs o : has A l xs -> al !! l = Some false \/ ans = 0 ->
      o = DEmplaceFront l v ans \/ o = DEmplaceBack l v ans ->
      call ndebug al A o (RPtr 0) A
  | call_insert l e ans u v x A1 : sound A l (u ++ v) -> pushed al A l e ans x A1 ->
      call ndebug al A (DInsert l (hd l v) e ans) (RPtr x) (set_list A1 l (u ++ [x] ++ v) false [])
  | call_insert_refused l e u v : sound A l (u ++ v) -> al !! l = Some true ->
      call ndebug al A (DInsert l (hd l v) e 0) (RPtr 0) A
  | call_pop_front l x xs fr : has A l (x :: xs) -> al !! l = Some fr ->
      call ndebug al A (DPopFront l) (RResult OK) (wear (set_list A l xs fr [x]) l)
  | call_pop_back l xs x fr : has A l (xs ++ [x]) -> al !! l = Some fr ->
      xs <> [] \/ l ∉ worn A ->
      call ndebug al A (DPopBack l) (RResult OK) (set_list A l xs fr [x])
  | call_pop_empty l o : has A l [] -> o = DPopFront l \/ o = DPopBack l ->
      call ndebug al A o (RResult INPUT_ERR) A
  | call_front l xs : has A l xs ->
      call ndebug al A (DFront l) (RPtr (hd 0 xs)) A
  | call_back l xs : has A l xs ->
      call ndebug al A (DBack l) (RPtr (hd 0 (rev xs))) A
  | call_erase l e pre post fr : sound A l (pre ++ [e] ++ post) -> al !! l = Some fr ->
      call ndebug al A (DErase l e) (RPtr (match post with [] => 0 | _ => e end))
        (set_list A l (pre ++ post) fr [e])
  | call_extract l e pre post : sound A l (pre ++ [e] ++ post) ->
      call ndebug al A (DExtract l e) (RPtr (hd 0 post)) (set_list A l (pre ++ post) false [])
  | call_erase_range l b pre run post fr : sound A l (pre ++ run ++ post) -> head run = Some b ->
      al !! l = Some fr ->
      call ndebug al A (DEraseRange l b (hd l post)) (RPtr (hd 0 post)) (set_list A l (pre ++ post) fr run)
  | call_erase_range_one l b pre post fr : sound A l (pre ++ [b] ++ post) -> al !! l = Some fr ->
      call ndebug al A (DEraseRange l b b) (RPtr (match post with [] => 0 | _ => b end))
        (set_list A l (pre ++ post) fr [b])
  | call_extract_range l b pre run post : sound A l (pre ++ run ++ post) -> head run = Some b ->
      call ndebug al A (DExtractRange l b (hd l post)) (RPtr (hd 0 post))
        (set_list A l (pre ++ post) false [])
  | call_extract_range_one l b pre post : sound A l (pre ++ [b] ++ post) ->
      call ndebug al A (DExtractRange l b b) (RPtr (hd 0 post)) (set_list A l (pre ++ post) false [])
  | call_splice pl pos cl pre e post A' : moved A pl pos cl pre [e] post A' ->
      call ndebug al A (DSplice pl pos cl e) (RResult OK) A'
  | call_splice_self pl cl e xs ys : has A pl xs -> has A cl ys -> e ∈ ys ->
      call ndebug al A (DSplice pl e cl e) (RResult OK) A
  | call_splice_range pl pos cl b pre run post A' : moved A pl pos cl pre run post A' ->
      head run = Some b ->
      (** with assertions on: the destination must be long enough *)
      pl = cl \/ ndebug = true \/ (exists xs, has A pl xs /\ length run <= S (length xs)) ->
      call ndebug al A (DSpliceRange pl pos cl b (hd cl post)) (RResult OK) A'
  | call_splice_range_self pl pos cl b e xs ys : has A pl xs -> has A cl ys -> b ∈ ys -> e ∈ cl :: ys ->
      pos = b \/ pos = e \/ b = e -> pos ∈ pl :: xs ->
      call ndebug al A (DSpliceRange pl pos cl b e) (RResult OK) A
  | call_clear l fn xs fr : has A l xs -> al !! l = Some fr ->
      call ndebug al A (DClear l fn) (RDestroyed OK (if fn then map (fun x => (x, vals A !! x)) xs else []))
        (let A' := set_list A l [] fr xs in match xs with [] => A' | _ => wear A' l end)
  | call_iter l ps : has A l (map fst ps) -> Forall (fun p => vals A !! fst p = Some (snd p)) ps ->
      call ndebug al A (DIter l) (RElems ps) A
  | call_riter l ps : sound A l (map fst ps) -> Forall (fun p => vals A !! fst p = Some (snd p)) ps ->
      call ndebug al A (DRIter l) (RElems (rev ps)) A
  | call_size l xs : has A l xs ->
      call ndebug al A (DSize l) (RNum (Z.of_nat (length xs))) A
  | call_is_empty l xs : has A l xs ->
      call ndebug al A (DIsEmpty l) (RBool (length xs =? 0)) A
  | call_validate l xs : sound A l xs ->
      call ndebug al A (DValidate l) (RBool true) A.

Inductive calls (ndebug : bool) (al : gmap nat bool)
  : view -> list (dll_op V) -> list (dll_res V) -> view -> Prop :=
  | calls_nil A : calls ndebug al A [] [] A
  | calls_cons A o r A1 os rs A2 : call ndebug al A o r A1 -> calls ndebug al A1 os rs A2 ->
      calls ndebug al A (o :: os) (r :: rs) A2.

(** All lists empty, no elements, nothing worn. *)
Definition start (ls : list (nat * bool)) : view :=
  View (list_to_map (map (fun x => (fst x, [])) ls)) ∅ ∅.

(** The memory holds what the user sees: forward traversal and size of every
    list, backward traversal of every list that is not worn. *)
Definition shows (s : dmem V) (A : view) : Prop :=
  forall l xs, lists A !! l = Some xs ->
    dll_size s l = Ok (Z.of_nat (length xs)) /\
    exists ps, map fst ps = xs /\ Forall (fun p => vals A !! fst p = Some (snd p)) ps /\
      dll_iter s l = Ok ps /\
      (l ∉ worn A -> dll_riter s l = Ok (rev ps) /\ dll_validate s l = Ok true).

End spec.
Arguments view V : clear implicits.
