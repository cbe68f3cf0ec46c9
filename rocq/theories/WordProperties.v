(** Requests for memory (C57). *)
From stdpp Require Import base numbers list.
From Verif Require Import Common BufferModel WordModel WordSpec WordProofs WordSame WordCases.
From Verif Require FdeqModel FpqModel FhmModel FhmSpec FhmMapProofs FlatModel FrmModel FomModel.
Local Open Scope Z_scope.

(** C57. In every history every request to the allocator is for exactly the bytes of the
    capacity wanted, although sizes wrap at 2^64, and the block stays as large as the
    capacity says. Missing: capacities given by the user whose bytes are no size_t. *)
Theorem C57_covered_partial :
  forall s os s' qs, fits s -> calls s os s' qs ->
    fits s' /\ elem s' = elem s /\ Forall (fun p => snd p = elem s * fst p) qs.
Proof. intros s os s' qs Hf Hc. exact (calls_fit s os s' qs Hc Hf). Qed.

(** C57. Slots lie in the block: those returned, and those of every index below the
    capacity. *)
Theorem C57_inside :
  forall s, fits s ->
    (forall i, 0 <= i < cap s -> word (i * elem s) = i * elem s /\ i * elem s + elem s <= block s) /\
    (forall o yes p, reasonable s o -> granted (asked (w_step s o yes)) yes ->
      slot (w_step s o yes) = Some p -> 0 <= p /\ p + elem s <= block (st (w_step s o yes))).
Proof.
  intros s Hf. split; [intros i; exact (address_inside s i Hf)|].
  intros o yes p. exact (slot_inside s o yes p Hf).
Qed.

(** C57. A capacity whose bytes are no size_t is accepted: the buffer asks for 8 bytes,
    believes to have 2^61 + 1 slots, and the second push returns memory outside. *)
Theorem C57_alloc_refuted :
  exists s c, fits s /\ 0 <= c < 2 ^ 64 /\ count s <= c /\
    let r := w_alloc s c true true in
    ans r = OK /\ granted (asked r) true /\ cap (st r) = c /\ block (st r) < elem s * c /\
    let r2 := w_alloc_back (st (w_alloc_back (st r) true)) true in
    ans r2 = OK /\ asked r2 = [] /\ exists p, slot r2 = Some p /\ block (st r2) < p + elem s.
Proof.
  exists (Store 0 8 0 0 true), (2 ^ 61 + 1). cbn zeta. split; [split; cbn; unfold limit; lia|].
  split; [lia|]. split; [cbn; lia|]. split; [by vm_compute|]. split.
  { apply granted_ok. by vm_compute. }
  split; [by vm_compute|]. split; [by vm_compute|]. split; [by vm_compute|]. split; [by vm_compute|].
  exists 8. split; by vm_compute.
Qed.

(** C57. The models of the containers, which take sizes as natural numbers, compute the
    sizes the code computes in 64 bits. The buffer: *)
Theorem C57_buffer :
  forall (A : Type) s (b : buf A), fits s -> as_buf s b ->
    (forall c fn yes, elem s * Z.of_nat c < 2 ^ 64 ->
      as_buf (st (w_alloc s (Z.of_nat c) fn yes)) (fst (buf_alloc b c fn yes)) /\
      ans (w_alloc s (Z.of_nat c) fn yes) = snd (buf_alloc b c fn yes)) /\
    (forall yes,
      as_buf (st (w_alloc_back s yes)) (fst (buf_alloc_back b yes)) /\
      slot (w_alloc_back s yes) = (fun i => elem s * Z.of_nat i) <$> snd (buf_alloc_back b yes)) /\
    (forall n,
      as_buf (st (w_size_plus s (Z.of_N n))) (fst (buf_size_plus b n)) /\
      ans (w_size_plus s (Z.of_N n)) = snd (buf_size_plus b n)).
Proof.
  intros A s b Hf Hb. split_and!.
  - intros c fn yes. exact (same_alloc s b c fn yes Hf Hb).
  - intros yes. exact (same_alloc_back s b yes Hf Hb).
  - intros n. exact (same_plus s b n Hb).
Qed.

(** The double ended queue: *)
Theorem C57_deque :
  forall (A : Type) s (d : FdeqModel.fdeq A) n yes d' r, fits s -> as_buf s (FdeqModel.d_buf d) ->
    elem s * Z.of_nat n <= limit -> FdeqModel.maybe_resize d n yes = Ok (d', r) ->
    as_buf (st (w_deque s (Z.of_nat n) yes)) (FdeqModel.d_buf d') /\
    ans (w_deque s (Z.of_nat n) yes) = r.
Proof. intros A s d n yes d' r. exact (same_deque s d n yes d' r). Qed.

(** The flat priority queue: *)
Theorem C57_heap :
  forall (A : Type) (cmp : A -> A -> comparison) order s (b : buf A) yes b', fits s -> as_buf s b ->
    (forall e sl, granted (asked (w_heap_push s yes)) yes ->
      FpqModel.fpq_push cmp order b e yes = Ok (b', sl) -> as_buf (st (w_heap_push s yes)) b') /\
    (forall e sl, granted (asked (w_heap_emplace s yes)) yes ->
      FpqModel.fpq_emplace cmp order b e yes = Ok (b', sl) -> as_buf (st (w_heap_emplace s yes)) b') /\
    (forall l r, elem s * Z.of_nat (length l) <= limit ->
      FpqModel.fpq_heapify cmp order b l yes = Ok (b', r) ->
      as_buf (st (w_heapify s (Z.of_nat (length l)) yes)) b' /\
      ans (w_heapify s (Z.of_nat (length l)) yes) = r).
Proof.
  intros A cmp order s b yes b' Hf Hb. split_and!.
  - intros e sl. exact (same_push cmp order s b e yes b' sl Hf Hb).
  - intros e sl. exact (same_emplace cmp order s b e yes b' sl Hf Hb).
  - intros l r. exact (same_heapify cmp order s b l yes b' r Hf Hb).
Qed.

(** The hash map, where the elements moved to the new table are those of the map: *)
Theorem C57_hash :
  forall (K V : Type) wide (hash_fn : K -> N) (eqb : K -> K -> bool) s (h : buf (FhmModel.hcell K V)) l yes,
    FhmSpec.key_ok hash_fn eqb -> fits s -> as_buf s h -> FhmMapProofs.fhm_ok wide hash_fn eqb h l ->
    exists h' r moved, FhmModel.maybe_resize wide eqb h yes = Ok (h', r) /\ reasonable s (WHash moved) /\
      as_buf (st (w_hash s moved yes)) h' /\ ans (w_hash s moved yes) = r.
Proof.
  intros K V wide hash_fn eqb s h l yes Hk Hf Hb.
  exact (same_hash_moved wide eqb hash_fn Hk s h l yes Hf Hb).
Qed.

(** The flat ordered maps: *)
Theorem C57_maps :
  forall (K V : Type) alloc s (m : FlatModel.flat K V) yes junk m' o, fits s -> as_map alloc s m ->
    granted (asked (w_map_back s yes)) yes ->
    FlatModel.alloc_back alloc FrmModel.frm_seal m (if yes : bool then Some junk else None) = Ok (m', o) \/
    FlatModel.alloc_back alloc FomModel.fom_seal m (if yes : bool then Some junk else None) = Ok (m', o) ->
    as_map alloc (st (w_map_back s yes)) m' /\
    slot (w_map_back s yes) = (fun i => elem s * Z.of_nat i) <$> o.
Proof.
  intros K V alloc s m yes junk m' o Hf Hm Hg [H|H].
  - exact (same_map_back alloc FrmModel.frm_seal frm_seal_sizes s m yes junk m' o Hf Hm Hg H).
  - exact (same_map_back alloc FomModel.fom_seal fom_seal_sizes s m yes junk m' o Hf Hm Hg H).
Qed.

(** A history in which a buffer of elements of 24 bytes grows twice, is refused memory
    once, and is used as a hash map's table in the end. *)
Example C57_case :
  fits (Store 0 24 0 0 true) /\
  calls (Store 0 24 0 0 true)
    ((WDeque 3, true) :: replicate 8 (WPush, true) ++
     [(WPush, false); (WPush, true); (WMinus 2, true); (WHash 0, true); (WAlloc 20 true, true);
      (WPlus 10, true); (WHash 15, true)])
    (Store 888 24 37 17 true)
    [(8, 192); (16, 384); (16, 384); (20, 480); (37, 888)] /\
  as_buf (Store 192 24 8 5 true) (Buf (replicate 8 (Some tt)) 5 true).
Proof.
  split; [split; cbn; unfold limit; lia|]. split; [|done].
  apply run_calls. by vm_compute.
Qed.

Print Assumptions C57_covered_partial.
Print Assumptions C57_inside.
Print Assumptions C57_alloc_refuted.
Print Assumptions C57_buffer.
Print Assumptions C57_deque.
Print Assumptions C57_heap.
Print Assumptions C57_hash.
Print Assumptions C57_maps.
