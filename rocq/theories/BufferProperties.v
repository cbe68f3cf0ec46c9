(** Properties of the buffer (C01-C05). *)
From stdpp Require Import base numbers option list.
From Verif Require Import Common BufferModel BufferSpec BufferProofs.

(** C01. Every history of calls on a fresh buffer agrees, in every returned
    value and in the final contents, with the list specification [vec_run];
    no call is undefined. *)
Theorem C01_buffer_is_a_vector :
  forall (A : Type) (cap : nat) (grow : bool) (os : list (buf_op A)) v rs,
  vec_run (Vec [] cap grow) os = Some (v, rs) ->
  exists b, buf_run (fresh_buf cap grow) os = Ok (b, rs) /\
    buf_contents b = Some <$> v_list v /\
    buf_size b = length (v_list v) /\
    b_cap b = v_cap v /\ buf_size b <= b_cap b.
Proof. exact @history_refines. Qed.

Example C01_case :
  vec_run (Vec [] 1 true)
    [BPush 5 true; BPush 6 false; BPush 7 true; BPush 8 true; BSwap 0 2 ; BWrite 1 9; BPop;
     BCopy 0 1; BReserve 5 true true; BBack]
  = Some (Vec [9; 9] 5 true,
      [RRef (Some 0); RRef None; RRef (Some 1); RRef (Some 2); RRes OK; RRes OK; RRes OK;
       RRef (Some 0); RRes OK; RRef (Some 1)]).
Proof. vm_compute. reflexivity. Qed.

(** C02. The documented claim of insert is false: the new value is not
    stored ... *)
Theorem C02_insert_stores_data_refuted :
  exists (b : buf nat) (i x : nat) (b' : buf nat),
    i <= buf_size b /\ buf_size b < b_cap b /\
    buf_insert b i x true = Ok (b', Some i) /\
    buf_contents b' <> take i (buf_contents b) ++ Some x :: drop i (buf_contents b).
Proof.
  exists (Buf [Some 1; Some 2; None] 2 false), 0, 7,
         (Buf [Some 1; Some 1; Some 2] 3 false).
  vm_compute. repeat split; try lia. discriminate.
Qed.

(** ... and on a full buffer, where NULL is documented, memory after the
    buffer is written. *)
Theorem C02_insert_full_refuted :
  exists (b : buf nat) (i x : nat),
    i <= buf_size b /\ buf_size b = b_cap b /\ buf_insert b i x false = UB.
Proof.
  exists (Buf [Some 1; Some 2] 2 false), 0, 7. vm_compute. repeat split; lia.
Qed.

(** What does hold: below capacity a gap is opened at [i] (holding some value
    [y]), everything else keeps its order; at the end, insert is push_back.
    Missing: [y = x], and the full case. *)
Theorem C02_insert_partial :
  forall (A : Type) (b : buf A) i x ok,
  i < buf_size b -> buf_size b < b_cap b ->
  exists b', buf_insert b i x ok = Ok (b', Some i) /\
    buf_size b' = S (buf_size b) /\
    (exists y, buf_contents b' = take i (buf_contents b) ++ y :: drop i (buf_contents b)).
Proof. exact @insert_mid. Qed.

Theorem C02_insert_at_end_partial :
  forall (A : Type) (b : buf A) x ok, b_cap b <> 0 ->
  buf_insert b (buf_size b) x ok = buf_push_back b x ok.
Proof. exact @insert_at_end. Qed.

(** Past the end nothing is inserted. *)
Theorem C02_insert_beyond :
  forall (A : Type) (b : buf A) i x ok, buf_size b < i -> buf_insert b i x ok = Ok (b, None).
Proof.
  intros A b i x ok Hi. unfold buf_insert, buf_size in *. rewrite (proj2 (Nat.ltb_lt _ _) Hi). by rewrite orb_true_r.
Qed.

Example C02_case : let b := Buf [Some 1; Some 2; None] 2 false in
  1 < buf_size b /\ buf_size b < b_cap b.
Proof. vm_compute. lia. Qed.

(** C03. size_plus accepts a wrapping argument: size 3 plus 2^64 - 1 is
    reported OK and the size becomes 2. *)
Theorem C03_size_plus_wraps_refuted :
  exists (b : buf nat) (n : N) b',
    buf_size b <= b_cap b /\ (n < 2 ^ 64)%N /\
    (N.of_nat (b_cap b) < N.of_nat (buf_size b) + n)%N /\
    buf_size_plus b n = (b', OK) /\ buf_size b' < buf_size b.
Proof.
  exists (Buf [Some 1; Some 2; Some 3] 3 false), (2 ^ 64 - 1)%N,
         (Buf [Some 1; Some 2; Some 3] 2 false).
  vm_compute. repeat split; lia.
Qed.

(** alloc to a smaller capacity leaves the size above it. *)
Theorem C03_shrink_refuted :
  exists (b : buf nat) n b',
    buf_size b <= b_cap b /\ buf_alloc b n true true = (b', OK) /\
    b_cap b' < buf_size b'.
Proof.
  exists (Buf [Some 1; Some 2; Some 3] 3 true), 1, (Buf [Some 1] 3 true).
  vm_compute. repeat split; lia.
Qed.

(** Without wrap, size_plus accepts exactly the sizes that fit. *)
Theorem C03_size_plus_partial :
  forall (A : Type) (b : buf A) n,
  buf_size b <= b_cap b -> (N.of_nat (buf_size b) + n < 2 ^ 64)%N ->
  let '(b', r) := buf_size_plus b n in
  buf_size b' <= b_cap b' /\
  (r = OK <-> (N.of_nat (buf_size b) + n <= N.of_nat (b_cap b))%N) /\
  (r = OK -> N.of_nat (buf_size b') = (N.of_nat (buf_size b) + n)%N).
Proof. exact @size_plus_nowrap. Qed.

(** The three size setters never leave size above capacity, for any size_t. *)
Theorem C03_size_setters_bounded :
  forall (A : Type) (b : buf A) (n : N),
  buf_size b <= b_cap b -> (N.of_nat (b_cap b) < 2 ^ 64)%N ->
  buf_size (fst (buf_size_plus b n)) <= b_cap b /\
  buf_size (fst (buf_size_minus b n)) <= b_cap b /\
  buf_size (fst (buf_size_set b n)) <= b_cap b.
Proof. exact @size_le_cap_ops. Qed.

(** size_minus and size_set accept exactly the sizes there can be, and otherwise
    go to the nearest one; the elements stay where they are. *)
Theorem C03_size_minus_exact :
  forall (A : Type) (b : buf A) (n : N),
  let '(b', r) := buf_size_minus b n in
  b_slots b' = b_slots b /\
  ((n <= N.of_nat (buf_size b))%N -> r = OK /\ (N.of_nat (buf_size b') + n = N.of_nat (buf_size b))%N) /\
  ((N.of_nat (buf_size b) < n)%N -> r = INPUT_ERR /\ buf_size b' = 0).
Proof.
  intros A b n. unfold buf_size_minus, buf_size. destruct (N.ltb_spec (N.of_nat (b_sz b)) n); cbn; (split; [done|]);
    (split; intros; [|]; try lia); split; try done; lia.
Qed.

Theorem C03_size_set_exact :
  forall (A : Type) (b : buf A) (n : N),
  let '(b', r) := buf_size_set b n in
  b_slots b' = b_slots b /\
  ((n <= N.of_nat (b_cap b))%N -> r = OK /\ N.of_nat (buf_size b') = n) /\
  ((N.of_nat (b_cap b) < n)%N -> r = INPUT_ERR /\ buf_size b' = b_cap b).
Proof.
  intros A b n. unfold buf_size_set, buf_size. destruct (N.ltb_spec (N.of_nat (b_cap b)) n); cbn; (split; [done|]);
    (split; intros; [|]; try lia); split; try done; lia.
Qed.

Example C03_exact_case : let b := Buf [Some 1; Some 2; None] 2 false in
  buf_size_minus b 2 = (Buf [Some 1; Some 2; None] 0 false, OK) /\
  buf_size_minus b 3 = (Buf [Some 1; Some 2; None] 0 false, INPUT_ERR) /\
  buf_size_set b 3 = (Buf [Some 1; Some 2; None] 3 false, OK) /\
  buf_insert b 3 7 true = Ok (b, None).
Proof. by vm_compute. Qed.

Example C03_case : let b := Buf [Some 1; Some 2; None] 2 false in
  buf_size b <= b_cap b /\ (N.of_nat (buf_size b) + 1 < 2 ^ 64)%N /\
  buf_size_plus b 1 = (Buf [Some 1; Some 2; None] 3 false, OK).
Proof. vm_compute. repeat split; lia. Qed.

(** C04. erase is undefined as soon as two elements follow the erased one
    (memcpy between overlapping ranges) ... *)
Theorem C04_erase_overlap_refuted :
  forall (A : Type) (b : buf A) i, i + 2 < buf_size b -> buf_erase b i = UB.
Proof. exact @erase_overlap. Qed.

Example C04_refuted_case : exists b : buf nat, buf_size b <= b_cap b /\ 0 + 2 < buf_size b.
Proof. exists (Buf [Some 1; Some 2; Some 3] 3 false). vm_compute. lia. Qed.

(** ... and right when at most one element follows. Missing: the other
    indices. *)
Theorem C04_erase_partial :
  forall (A : Type) (b : buf A) i,
  buf_size b <= b_cap b -> i < buf_size b -> buf_size b <= i + 2 ->
  exists b', buf_erase b i = Ok (b', OK) /\
    buf_contents b' = delete i (buf_contents b) /\ buf_size b' = buf_size b - 1.
Proof. exact @erase_last. Qed.

Theorem C04_erase_out_of_range :
  forall (A : Type) (b : buf A) i,
  buf_size b <= i -> buf_erase b i = Ok (b, INPUT_ERR).
Proof. exact @erase_bad. Qed.

Example C04_case : let b := Buf [Some 1; Some 2; Some 3] 3 false in
  buf_size b <= b_cap b /\ 1 < buf_size b /\ buf_size b <= 1 + 2 /\
  buf_erase b 1 = Ok (Buf [Some 1; Some 3; Some 3] 2 false, OK).
Proof. vm_compute. repeat split; lia. Qed.

(** C05. Forward iteration reads the contents in order and terminates (any
    loop bound at least the size suffices). *)
Theorem C05_forward_iteration :
  forall (A : Type) (b : buf A) fuel,
  b_cap b <> 0 -> buf_size b <= b_cap b -> buf_size b <= fuel ->
  buf_walk fuel (buf_next b) b (buf_begin b) (buf_end b) = Ok (buf_contents b).
Proof.
  intros A b fuel Hc Hle Hf. unfold buf_begin.
  destruct (Nat.eqb_spec (b_cap b) 0); [done|].
  exact (walk_forward b (b_sz b) 0 Hc Hle eq_refl fuel Hf).
Qed.

(** Reverse iteration does not: from rbegin it reads one slot too many, past
    the stored elements, and on a full buffer past the memory. *)
Theorem C05_reverse_iteration_refuted :
  exists b : buf nat, buf_size b = 2 /\
    buf_walk 10 (buf_rnext b) b (buf_rbegin b) (buf_rend b)
    = Ok [Some 99; Some 2; Some 1].
Proof.
  exists (Buf [Some 1; Some 2; Some 99] 2 false). vm_compute. split; reflexivity.
Qed.

Theorem C05_reverse_iteration_full_refuted :
  forall (A : Type) (b : buf A) fuel, b_cap b <> 0 -> buf_size b = b_cap b ->
  buf_walk (S fuel) (buf_rnext b) b (buf_rbegin b) (buf_rend b) = UB.
Proof.
  intros A b fuel Hc Hs. unfold buf_rbegin, buf_rend, buf_size in *.
  destruct (Nat.eqb_spec (b_cap b) 0); [done|]. cbn [buf_walk].
  rewrite decide_False by (intros [=]; lia).
  destruct (Z.ltb_spec (Z.of_nat (b_sz b)) 0); [lia|].
  rewrite Nat2Z.id. unfold slot_get. rewrite lookup_ge_None_2; [done|].
  unfold b_cap in *. lia.
Qed.

(** Started one slot earlier, at the documented "last element", the reverse
    walk is right. *)
Theorem C05_reverse_iteration_partial :
  forall (A : Type) (b : buf A) fuel,
  b_cap b <> 0 -> buf_size b <= b_cap b -> buf_size b <= fuel ->
  buf_walk fuel (buf_rnext b) b (Some (Z.of_nat (buf_size b) - 1)%Z) (buf_rend b)
  = Ok (reverse (buf_contents b)).
Proof.
  intros A b fuel Hc Hle Hf. exact (walk_backward b (b_sz b) Hc Hle Hle fuel Hf).
Qed.

Example C05_case : let b := Buf [Some 1; Some 2; None] 2 false in
  b_cap b <> 0 /\ buf_size b <= b_cap b /\
  buf_walk 2 (buf_next b) b (buf_begin b) (buf_end b) = Ok [Some 1; Some 2].
Proof. vm_compute. repeat split; lia. Qed.

Print Assumptions C01_buffer_is_a_vector.
Print Assumptions C02_insert_stores_data_refuted.
Print Assumptions C02_insert_full_refuted.
Print Assumptions C02_insert_partial.
Print Assumptions C02_insert_at_end_partial.
Print Assumptions C03_size_plus_wraps_refuted.
Print Assumptions C03_shrink_refuted.
Print Assumptions C03_size_plus_partial.
Print Assumptions C03_size_setters_bounded.
Print Assumptions C03_size_minus_exact.
Print Assumptions C03_size_set_exact.
Print Assumptions C02_insert_beyond.
Print Assumptions C04_erase_overlap_refuted.
Print Assumptions C04_erase_partial.
Print Assumptions C04_erase_out_of_range.
Print Assumptions C05_forward_iteration.
Print Assumptions C05_reverse_iteration_refuted.
Print Assumptions C05_reverse_iteration_full_refuted.
Print Assumptions C05_reverse_iteration_partial.
