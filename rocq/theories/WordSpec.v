(** What it means that the memory of a flat container is as large as its capacity says,
    and that a size in 64 bits is the size of the other models. *)
From stdpp Require Import base numbers list.
From Verif Require Import Common BufferModel FlatModel WordModel.
Local Open Scope Z_scope.

(** No allocator grants more than 2^60 bytes, and nobody has more bytes of elements. *)
Definition limit : Z := 2 ^ 60.

(** The block holds all the slots of the capacity, and the elements are in them. *)
Record fits (s : store) : Prop := Fits {
  fits_elem : 0 < elem s <= limit;
  fits_count : 0 <= count s <= cap s;
  fits_cap : elem s * cap s <= block s;
  fits_block : block s <= limit
}.

(** The answers of the allocator: it grants no request above the limit. *)
Definition granted (asks : list (Z * Z)) (yes : bool) : Prop :=
  yes = true -> Forall (fun p => snd p <= limit) asks.

(** Arguments of a call. A capacity the user asks for must have room for the elements,
    and its bytes must be a size_t; arrays the user passes are in memory; the hash map
    does not find more elements than its size says. *)
Definition reasonable (s : store) (o : word_op) : Prop :=
  match o with
  | WAlloc c _ => count s <= c /\ elem s * c < 2 ^ 64
  | WPlus n | WMinus n | WSet n => 0 <= n /\ count s + n < 2 ^ 64
  | WDeque n | WHeapify n => 0 <= n /\ elem s * n <= limit
  | WHash moved => 0 <= moved /\ 2 + moved <= Z.max 2 (count s)
  | _ => True
  end.

(** Histories of calls. *)
Inductive calls : store -> list (word_op * bool) -> store -> list (Z * Z) -> Prop :=
  | calls_nil s : calls s [] s []
  | calls_cons s o yes os s' qs :
      reasonable s o ->
      granted (asked (w_step s o yes)) yes ->
      calls (st (w_step s o yes)) os s' qs ->
      calls s ((o, yes) :: os) s' (asked (w_step s o yes) ++ qs).

(** A store and the buffer of the other models have the same sizes. *)
Definition sized (s : store) (c n : nat) (al : bool) : Prop :=
  cap s = Z.of_nat c /\ count s = Z.of_nat n /\ perm s = al.
Definition as_buf {A} (s : store) (b : buf A) : Prop := sized s (b_cap b) (b_sz b) (b_alloc b).
Definition as_map {K V} (alloc : bool) (s : store) (m : flat K V) : Prop :=
  sized s (FlatModel.cap m) (FlatModel.sz m) alloc.
