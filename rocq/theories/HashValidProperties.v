(** Properties of validate of the hash map: C46. *)
From stdpp Require Import base numbers option list list_numbers.
From Verif Require Import Common BufferModel FhmModel FhmSpec.
From Verif Require FhmValid.

(** C46. Validate of the hash map ends with an answer on any table whose hash words
    were written. *)
Theorem C46_decides :
  forall (K V : Type) (wide : bool) (h : buf (hcell K V)), FhmValid.written (b_slots h) ->
  exists b, fhm_validate wide h = Ok b.
Proof. exact @FhmValid.validate_decides. Qed.

(** If it is true then the size is the number of elements, each is found by its key,
    and everything done from then on is as specified. Missing: what validate does
    not look at, each shown to matter below. The size is under the capacity, the two
    swap slots are empty ([swap_empty]), no element sits right before its home
    ([no_full_turn]), stored hashes are those of the keys ([keyed]), and keys are
    [distinct]. *)
Theorem C46_usable_partial :
  forall (K V : Type) (wide : bool) (hash_fn : K -> N) (eqb : K -> K -> bool), key_ok hash_fn eqb ->
  forall h : buf (hcell K V), FhmValid.written (b_slots h) ->
  6 <= b_cap h -> (N.of_nat (b_cap h) < 2 ^ 64)%N -> b_sz h < b_cap h ->
  FhmValid.swap_empty (b_slots h) -> FhmValid.no_full_turn wide (b_slots h) ->
  FhmValid.keyed hash_fn (b_slots h) -> FhmValid.distinct eqb (b_slots h) ->
  fhm_validate wide h = Ok true ->
  exists l, fhm_iter h = Ok l /\ fhm_size h = N.of_nat (length l) /\
    (forall k, fhm_get wide hash_fn eqb h k = Ok (assoc eqb k l)) /\
    forall os, exists h' tr l', fhm_run wide hash_fn eqb h os = Ok (h', tr) /\ fhm_trace eqb l tr l' /\
      map (fun x => fst (fst x)) tr = os /\ fhm_size h' = N.of_nat (length l') /\
      forall k, fhm_get wide hash_fn eqb h' k = Ok (assoc eqb k l').
Proof.
  intros K V wide hash_fn eqb Hkey h HT Hc Hm Hsz Hsw Ht Hk Hd Hv.
  by apply (FhmValid.validate_usable wide hash_fn eqb Hkey h).
Qed.

(** Hashes are keys, reduced modulo the capacity of eleven slots: 3, 14 and 25 all
    start at slot 3, 4 at slot 4. *)
Definition hash (k : nat) : N := N.of_nat k.
Definition fhm4 : buf (hcell nat nat) :=
  match fhm_run false hash Nat.eqb (fresh_fhm 11 false) (map (fun k => HInsert (k, k * 10) true) [3; 14; 4; 25]) with
  | Ok (h, _) => h | _ => fresh_fhm 0 false
  end.
(** The user writes to the hash word, to the element, or to the size. *)
Definition rehashed (h : buf (hcell nat nat)) (i : nat) (w : N) : buf (hcell nat nat) :=
  Buf (alter (fun c => match c with Some (_, kv) => Some (w, kv) | None => None end) i (b_slots h)) (b_sz h) (b_alloc h).
Definition rekeyed (h : buf (hcell nat nat)) (i k : nat) : buf (hcell nat nat) :=
  Buf (alter (fun c => match c with Some (w, _) => Some (w, Some (k, 0)) | None => None end) i (b_slots h)) (b_sz h) (b_alloc h).

Definition all_cells (f : nat -> hcell nat nat -> bool) (T : slots (hcell nat nat)) : bool :=
  forallb (fun i => match T !! i with Some (Some c) => f i c | _ => false end) (seq 0 (length T)).
Lemma all_cells_sound f T : all_cells f T = true ->
  forall i c, T !! i = Some c -> exists x, c = Some x /\ f i x = true.
Proof.
  unfold all_cells. rewrite forallb_forall. intros H i c Hi. specialize (H i). rewrite in_seq, Hi in H.
  destruct c as [x|]; [exists x|]; specialize (H ltac:(apply lookup_lt_Some in Hi; lia)); done.
Qed.

Lemma written_check T : all_cells (fun _ c => (fst c <? 2 ^ 64)%N) T = true -> FhmValid.written T.
Proof.
  intros H i c Hi. destruct (all_cells_sound _ _ H i c Hi) as ([h kv] & -> & Hx). exists h, kv.
  by apply N.ltb_lt in Hx.
Qed.

Lemma unchecked_check T :
  all_cells (fun i c => (fst c =? 0)%N ||
    (2 <=? i) && negb (increment (length T) i =? to_i false (length T) (fst c)) &&
    match snd c with
    | Some kv => (fst c =? filter hash (fst kv))%N && all_cells (fun j c' => (i =? j) || (fst c' =? 0)%N ||
        match snd c' with Some kv' => negb (fst kv =? fst kv') | None => true end) T
    | None => false
    end) T && (2 <=? length T) = true ->
  FhmValid.swap_empty T /\ FhmValid.no_full_turn false T /\ FhmValid.keyed hash T /\ FhmValid.distinct Nat.eqb T.
Proof.
  intros [H Hlen%Nat.leb_le]%andb_true_iff. pose proof (all_cells_sound _ _ H) as Hall.
  assert (forall i h kvo, T !! i = Some (Some (h, kvo)) -> h <> 0%N -> 2 <= i /\
    increment (length T) i <> to_i false (length T) h /\ exists kv, kvo = Some kv /\ h = filter hash (fst kv) /\
    all_cells (fun j c' => (i =? j) || (fst c' =? 0)%N ||
        match snd c' with Some kv' => negb (fst kv =? fst kv') | None => true end) T = true) as Hx.
  { intros i h kvo Hi Hne. destruct (Hall _ _ Hi) as (x & [= <-] & Hx). apply orb_true_iff in Hx as [Hx|Hx].
    { by apply N.eqb_eq in Hx. }
    apply andb_true_iff in Hx as [[H1%Nat.leb_le H2%negb_true_iff%Nat.eqb_neq]%andb_true_iff Hx].
    split; [done|]. split; [done|]. cbn [snd] in Hx. destruct kvo as [kv|]; [|done]. exists kv.
    apply andb_true_iff in Hx as [Hk%N.eqb_eq Hx]. done. }
  split; [|split; [|split]].
  - intros i Hi. destruct (lookup_lt_is_Some_2 T i) as [c Hc]; [lia|]. destruct (Hall _ _ Hc) as ([h kv] & -> & _).
    destruct (decide (h = 0%N)) as [-> |Hne]; [eauto|]. destruct (Hx _ _ _ Hc Hne). lia.
  - intros i h kv Hi Hne. by destruct (Hx _ _ _ Hi Hne) as (_ & ? & _).
  - intros i h kvo Hi Hne. destruct (Hx _ _ _ Hi Hne) as (_ & _ & [k v] & -> & -> & _). eauto.
  - intros i j h h' kv kv' Hi Hj Hne Hne' He%Nat.eqb_eq. destruct (Hx _ _ _ Hi Hne) as (_ & _ & kv0 & [= <-] & _ & Ha).
    destruct (all_cells_sound _ _ Ha _ _ Hj) as (x & [= <-] & Hy). cbn [fst snd] in Hy.
    rewrite !orb_true_iff, N.eqb_eq, negb_true_iff, Nat.eqb_eq, Nat.eqb_neq in Hy. destruct Hy as [[]|]; done.
Qed.

(** As it is it validates. With an element lost in the middle of its run, an element in
    front of those that are farther from home, or a wrong size, it does not. *)
Example C46_case :
  b_cap fhm4 = 11 /\ b_sz fhm4 = 6 /\
  fhm_iter fhm4 = Ok [(3, 30); (14, 140); (25, 250); (4, 40)] /\
  FhmValid.written (b_slots fhm4) /\ fhm_validate false fhm4 = Ok true /\
  (FhmValid.swap_empty (b_slots fhm4) /\ FhmValid.no_full_turn false (b_slots fhm4) /\
   FhmValid.keyed hash (b_slots fhm4) /\ FhmValid.distinct Nat.eqb (b_slots fhm4)) /\
  FhmValid.written (b_slots (rehashed fhm4 4 0)) /\ fhm_validate false (rehashed fhm4 4 0) = Ok false /\
  fhm_validate false (with_size (rehashed fhm4 4 0) 5) = Ok false /\
  fhm_validate false (rehashed fhm4 4 4) = Ok false /\
  fhm_validate false (with_size fhm4 5) = Ok false.
Proof.
  repeat match goal with |- _ /\ _ => split; [first [apply written_check|apply unchecked_check|idtac]; by vm_compute|] end.
  by vm_compute.
Qed.

(** An element right before its home, a full turn away from it, is not looked at. Slot
    3 holds an element whose home is slot 4, which is empty: it is not found. *)
Definition astray : buf (hcell nat nat) :=
  Buf (<[3 := Some (4%N, Some (4, 40))]> (zeroed 11)) 3 false.
Theorem C46_full_turn_refuted :
  exists h : buf (hcell nat nat), FhmValid.written (b_slots h) /\ fhm_validate false h = Ok true /\ fhm_size h = 1%N /\
    fhm_iter h = Ok [(4, 40)] /\ fhm_get false hash Nat.eqb h 4 = Ok None.
Proof. exists astray. split_and!; [apply written_check; by vm_compute|by vm_compute..]. Qed.

(** Nor is an element in a swap slot, if its home is the first slot. *)
Theorem C46_swap_slot_refuted :
  exists h : buf (hcell nat nat), FhmValid.written (b_slots h) /\ fhm_validate false h = Ok true /\ fhm_size h = 1%N /\
    fhm_iter h = Ok [(2, 20)] /\ fhm_get false hash Nat.eqb h 2 = Ok None.
Proof.
  exists (Buf (<[0 := Some (2%N, Some (2, 20))]> (zeroed 11)) 3 false).
  split_and!; [apply written_check; by vm_compute|by vm_compute..].
Qed.

(** Keys are not compared with the stored hashes: a key the user changed is shown but
    not found. *)
Theorem C46_key_refuted :
  exists h : buf (hcell nat nat), FhmValid.written (b_slots h) /\ fhm_validate false h = Ok true /\ fhm_size h = 4%N /\
    fhm_iter h = Ok [(3, 30); (7, 0); (25, 250); (4, 40)] /\ fhm_get false hash Nat.eqb h 7 = Ok None.
Proof. exists (rekeyed fhm4 4 7). split_and!; [apply written_check; by vm_compute|by vm_compute..]. Qed.

(** Nor with each other: a removed key is still there. *)
Theorem C46_duplicate_refuted :
  exists (h h' : buf (hcell nat nat)) r, FhmValid.written (b_slots h) /\ fhm_validate false h = Ok true /\
    fhm_run false hash Nat.eqb h [HRemove 3] = Ok (h', r) /\ fhm_get false hash Nat.eqb h' 3 = Ok (Some (3, 0)).
Proof.
  exists (rekeyed (rehashed fhm4 4 3) 4 3). eexists _, _.
  split_and!; [apply written_check; by vm_compute|by vm_compute..].
Qed.

(** A table without an empty slot passes, and no key is found in it. *)
Definition crowded : buf (hcell nat nat) :=
  Buf (Some (0%N, None) :: Some (0%N, None) :: map (fun k => Some (N.of_nat k, Some (k, k * 10))) (seq 2 9)) 11 false.
Theorem C46_load_refuted :
  exists h : buf (hcell nat nat), FhmValid.written (b_slots h) /\ fhm_validate false h = Ok true /\ b_sz h = b_cap h /\
    fhm_iter h = Ok (map (fun k => (k, k * 10)) (seq 2 9)) /\
    forall k, fhm_get false hash Nat.eqb h k = Ok None.
Proof. exists crowded. split_and!; [apply written_check; by vm_compute|by vm_compute..|]. intros k. reflexivity. Qed.

Print Assumptions C46_decides.
Print Assumptions C46_usable_partial.
Print Assumptions C46_full_turn_refuted.
Print Assumptions C46_swap_slot_refuted.
Print Assumptions C46_key_refuted.
Print Assumptions C46_duplicate_refuted.
Print Assumptions C46_load_refuted.
