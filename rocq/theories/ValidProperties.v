(** Properties of validate: C45. *)
From stdpp Require Import base numbers option gmap fin_maps list.
From Verif Require Import Common LinkHeap OrderSpec MapOps MapSpec TreeModel WavlModel FlatOps FlatSpec FlatModel ValidSpec.
From Verif Require TreeProofs WavlFrame OmmOps OmmSpec OmmModel OmmValid OmModel OmValid RomModel RomValid FomModel FomProofs FrmModel FlatValid.

(** To establish [readable] of a given memory. *)
Section readable.
Context {K V : Type} (nil : nat) (null : nat -> bool) (dat : gmap nat (K * V)) (h : links).
Definition targetb (p : nat) : bool := (p =? nil) || bool_decide (is_Some (dat !! p)).
Definition readableb : bool :=
  bool_decide (is_Some (pa h !! nil)) &&
  forallb (fun x => negb (x =? nil) && negb (null x) &&
    match lf h !! x, rt h !! x, pa h !! x with
    | Some l, Some r, Some p => (targetb l || null l) && (targetb r || null r) && targetb p
    | _, _, _ => false
    end) (map fst (map_to_list dat)).
Lemma targetb_sound p : targetb p = true -> target nil dat p.
Proof. unfold targetb. rewrite orb_true_iff, Nat.eqb_eq, bool_decide_eq_true. done. Qed.
Lemma readableb_sound : readableb = true -> readable nil null dat h.
Proof.
  unfold readableb. rewrite andb_true_iff, bool_decide_eq_true, forallb_forall. intros [H0 H]. split; [done|].
  intros x [kv Hx]. specialize (H x). rewrite <- elem_of_list_In in H.
  specialize (H ltac:(apply elem_of_list_fmap; exists (x, kv); split; [done|by apply elem_of_map_to_list])).
  apply andb_true_iff in H as [[Hx1 Hx2]%andb_true_iff H]. apply negb_true_iff in Hx1, Hx2. apply Nat.eqb_neq in Hx1.
  destruct (lf h !! x) as [l|]; [|done]. destruct (rt h !! x) as [r|]; [|done]. destruct (pa h !! x) as [p|]; [|done].
  rewrite !andb_true_iff, !orb_true_iff in H.
  destruct H as [[Hl Hr] Hp]. split_and!; try done. exists l, r, p.
  split_and!; try done; [destruct Hl|destruct Hr|]; auto using targetb_sound.
Qed.
End readable.

(** C45. In memory of any content validate of the ordered map ends with an answer.
    If it is true then the size is the number of elements seen by walks in either
    direction, keys ascend, and each of them is found. *)
Theorem C45_om_validate :
  forall (K V : Type) (cmp : K -> K -> comparison), total_preorder cmp ->
  forall (s : OmModel.om K V), OmValid.om_memory s ->
  (exists b, OmModel.om_validate cmp s = Ok b) /\
  (OmModel.om_validate cmp s = Ok true ->
    consistent cmp (OmModel.om_size s) (OmModel.om_iter s true) (OmModel.om_iter s false)
      (fun k e => exists s', OmModel.om_get cmp s k = Ok (s', e))).
Proof.
  intros K V cmp Hcmp s Hm. split; [by apply OmValid.validate_decides|by apply OmValid.validate_consistent].
Qed.

(** Everything done with a validated map from then on is as specified. *)
Theorem C45_om_usable :
  forall (K V : Type) (cmp : K -> K -> comparison), total_preorder cmp ->
  forall (s : OmModel.om K V) (alloc : bool), OmValid.om_memory s -> OmModel.om_validate cmp s = Ok true ->
  (alloc = true -> forall ps, OmModel.om_iter s true = Ok ps -> Forall (fun p => fst p ∈ OmModel.heap s) ps) ->
  exists A, ascending cmp A /\
    shown A (OmModel.om_size s) (OmModel.om_iter s true) (OmModel.om_iter s false) (OmModel.om_validate cmp s) /\
    vals A = OmModel.dat s /\
    forall ops rs A', calls cmp (Contract alloc true false) A ops rs A' ->
    exists s' rs', OmModel.om_run cmp alloc s ops = Ok (s', rs') /\ Forall2 agree rs rs' /\
      shown A' (OmModel.om_size s') (OmModel.om_iter s' true) (OmModel.om_iter s' false) (OmModel.om_validate cmp s').
Proof. exact @OmValid.validate_usable. Qed.

(** A map of five elements as calls leave it. *)
Definition five : list (map_op nat nat) :=
  [MTryInsertW 5 50 10; MTryInsertW 2 20 20; MTryInsertW 8 80 30; MTryInsertW 3 30 40; MTryInsertW 6 60 50].
Definition om5 : OmModel.om nat nat :=
  match OmModel.om_run Nat.compare true OmModel.om_init five with Ok (s, _) => s | _ => OmModel.om_init end.
(** The user writes to the links, the key or the size. *)
Definition om_spoilt (s : OmModel.om nat nat) (e l r p : nat) : OmModel.om nat nat :=
  OmModel.set_lk s (put_links (OmModel.lk s) e l r p).
Definition om_rekeyed (s : OmModel.om nat nat) (e k : nat) : OmModel.om nat nat :=
  OmModel.Om (OmModel.lk s) (<[e := (k, 0)]> (OmModel.dat s)) (OmModel.heap s) (OmModel.root s) (OmModel.sz s).

Lemma om_memory_check (s : OmModel.om nat nat) :
  readableb OmModel.nil (fun p => p =? 0) (OmModel.dat s) (OmModel.lk s) &&
    match lf (OmModel.lk s) !! OmModel.nil, rt (OmModel.lk s) !! OmModel.nil, pa (OmModel.lk s) !! OmModel.nil with
    | Some _, Some _, Some _ => true | _, _, _ => false
    end && (targetb OmModel.nil (OmModel.dat s) (OmModel.root s) || (OmModel.root s =? 0)) = true ->
  OmValid.om_memory s.
Proof.
  rewrite !andb_true_iff, orb_true_iff, Nat.eqb_eq. intros [[H1 H2] H3].
  split; [by apply readableb_sound|]. split; [unfold TreeProofs.live|].
  { destruct (lf _ !! _); [|done]; destruct (rt _ !! _); [|done]; by destruct (pa _ !! _). }
  destruct H3; auto using targetb_sound.
Qed.

(** As it is it validates. If an element is zeroed, made its own child, rekeyed out
    of order, or linked under a wrong parent, or if the size is wrong, it does not. *)
Example C45_om_case :
  OmValid.om_memory om5 /\ OmModel.om_validate Nat.compare om5 = Ok true /\
  OmModel.om_iter om5 true = Ok [(20, (2, 20)); (40, (3, 30)); (10, (5, 50)); (50, (6, 60)); (30, (8, 80))] /\
  OmValid.om_memory (om_spoilt om5 30 0 0 OmModel.nil) /\
  OmModel.om_validate Nat.compare (om_spoilt om5 30 0 0 OmModel.nil) = Ok false /\
  OmValid.om_memory (om_spoilt om5 30 30 OmModel.nil 50) /\
  OmModel.om_validate Nat.compare (om_spoilt om5 30 30 OmModel.nil 50) = Ok false /\
  OmValid.om_memory (om_spoilt om5 30 OmModel.nil OmModel.nil 20) /\
  OmModel.om_validate Nat.compare (om_spoilt om5 30 OmModel.nil OmModel.nil 20) = Ok false /\
  OmValid.om_memory (om_rekeyed om5 40 7) /\ OmModel.om_validate Nat.compare (om_rekeyed om5 40 7) = Ok false /\
  OmModel.om_validate Nat.compare (OmModel.set_sz om5 4) = Ok false.
Proof. split_and!; try (apply om_memory_check; by vm_compute); by vm_compute. Qed.

(** False without the condition on parents: a parent link that is NULL is
    dereferenced after it was found wrong. *)
Theorem C45_om_null_parent_refuted :
  exists (s : OmModel.om nat nat) x, OmValid.om_memory s /\ OmModel.om_validate Nat.compare s = Ok true /\
    is_Some (OmModel.dat s !! x) /\
    OmModel.om_validate Nat.compare (OmModel.set_lk s (Links (lf (OmModel.lk s)) (rt (OmModel.lk s)) (<[x := 0]> (pa (OmModel.lk s))))) = UB.
Proof.
  exists om5, 30. split_and!; [apply om_memory_check; by vm_compute|by vm_compute|by eexists; vm_compute|by vm_compute].
Qed.

(** The realtime ordered map: each element is found, in some number of steps.
    Missing: the balance. *)
Theorem C45_rom_validate_partial :
  forall (K V : Type) (cmp : K -> K -> comparison), total_preorder cmp ->
  forall (s : RomModel.rom K V), RomValid.rom_memory s ->
  (exists b, RomModel.rom_validate cmp s = Ok b) /\
  (RomModel.rom_validate cmp s = Ok true ->
    consistent cmp (RomModel.rom_size s) (RomModel.rom_iter s true) (RomModel.rom_iter s false)
      (fun k e => exists n, RomValid.rom_get_in cmp n s k = Ok e)).
Proof.
  intros K V cmp Hcmp s Hm. split; [by apply RomValid.validate_decides|by apply RomValid.validate_consistent].
Qed.

Definition rom5 : RomModel.rom nat nat :=
  match RomModel.rom_run Nat.compare true RomModel.rom_init five with Ok (s, _) => s | _ => RomModel.rom_init end.
Definition rom_spoilt (s : RomModel.rom nat nat) (e l r p : nat) : RomModel.rom nat nat :=
  RomModel.set_tr s (with_links (RomModel.tr s) (put_links (wl (RomModel.tr s)) e l r p)).

Lemma rom_memory_check (s : RomModel.rom nat nat) :
  readableb RomModel.nil (fun p => p =? 0) (RomModel.dat s) (wl (RomModel.tr s)) &&
    bool_decide (is_Some (wp (RomModel.tr s) !! RomModel.nil)) &&
    (targetb RomModel.nil (RomModel.dat s) (wroot (RomModel.tr s)) || (wroot (RomModel.tr s) =? 0)) = true ->
  RomValid.rom_memory s.
Proof.
  rewrite !andb_true_iff, orb_true_iff, Nat.eqb_eq, bool_decide_eq_true. intros [[H1 H2] H3].
  split; [by apply readableb_sound|]. split; [done|]. destruct H3; auto using targetb_sound.
Qed.

Example C45_rom_case :
  RomValid.rom_memory rom5 /\ RomModel.rom_validate Nat.compare rom5 = Ok true /\
  RomModel.rom_iter rom5 true = Ok [(20, (2, 20)); (40, (3, 30)); (10, (5, 50)); (50, (6, 60)); (30, (8, 80))] /\
  RomValid.rom_memory (rom_spoilt rom5 50 0 0 RomModel.nil) /\
  RomModel.rom_validate Nat.compare (rom_spoilt rom5 50 0 0 RomModel.nil) = Ok false /\
  RomValid.rom_memory (rom_spoilt rom5 50 50 RomModel.nil 30) /\
  RomModel.rom_validate Nat.compare (rom_spoilt rom5 50 50 RomModel.nil 30) = Ok false /\
  RomValid.rom_memory (rom_spoilt rom5 50 RomModel.nil RomModel.nil 20) /\
  RomModel.rom_validate Nat.compare (rom_spoilt rom5 50 RomModel.nil RomModel.nil 20) = Ok false /\
  RomModel.rom_validate Nat.compare (RomModel.set_sz rom5 4) = Ok false.
Proof. split_and!; try (apply rom_memory_check; by vm_compute); by vm_compute. Qed.

(** False of the balance: twelve elements in a chain validate, although the last of
    them is not found in the number of steps that is allowed (C34). *)
Definition chain_links (nil : nat) (l : list nat) : links :=
  foldr (fun x h => put_links h x nil (if x =? 13 then nil else S x) (if x =? 2 then nil else x - 1))
    (put_links (Links ∅ ∅ ∅) nil nil nil nil) l.
Definition chain_wavl (nil : nat) : wavl :=
  Wavl (chain_links nil (seq 2 12)) (list_to_map ((nil, true) :: map (fun x => (x, true)) (seq 2 12))) 2.
Definition chain_dat : gmap nat (nat * nat) := list_to_map (map (fun x => (x, (x, x))) (seq 2 12)).
Definition rom_chain : RomModel.rom nat nat := RomModel.Rom (chain_wavl RomModel.nil) chain_dat ∅ 12.
Theorem C45_rom_balance_refuted :
  exists s : RomModel.rom nat nat, RomValid.rom_memory s /\ RomModel.rom_validate Nat.compare s = Ok true /\
    RomModel.rom_size s = Ok 12%Z /\ RomValid.rom_get_in Nat.compare 13 s 13 = Ok 13 /\
    RomModel.rom_get Nat.compare s 13 = Fuel.
Proof. exists rom_chain. split_and!; [apply rom_memory_check; by vm_compute|by vm_compute..]. Qed.

(** The flat ordered map. Missing: a lost root, and links to slots not in use. *)
Theorem C45_fom_validate_partial :
  forall (K V : Type) (cmp : K -> K -> comparison), total_preorder cmp ->
  forall (s : flat K V), FlatValid.flat_memory s ->
  (exists b, FomModel.fom_validate cmp s = Ok b) /\
  (FomModel.fom_validate cmp s = Ok true -> wroot (tr s) <> 0 \/ sz s <= 1 ->
    consistent cmp (Ok (Z.of_nat (flat_size s))) (flat_iter s true) (flat_iter s false)
      (fun k e => exists s', flat_get (FomModel.fom_find cmp) s k = Ok (s', Some e))).
Proof.
  intros K V cmp Hcmp s Hm. split; [by apply FlatValid.fom_validate_decides|by apply FlatValid.fom_validate_consistent].
Qed.

Theorem C45_fom_usable_partial :
  forall (K V : Type) (cmp : K -> K -> comparison), total_preorder cmp ->
  forall (s : flat K V) (alloc : bool),
  FlatValid.flat_memory s -> FomModel.fom_validate cmp s = Ok true -> wroot (tr s) <> 0 \/ sz s <= 1 ->
  exists A, fshown A (flat_size s) (flat_capacity s) (flat_iter s true) (flat_iter s false) (FomModel.fom_validate cmp s) /\
    (forall i kv, vals (fv A) !! i = Some kv <-> 1 <= i < sz s /\ dat s !! i = Some kv) /\
    (used A = true <-> 1 <= sz s /\ 2 <= cap s) /\
    forall ops rs A', fcalls cmp (FContract alloc true false false negb) A ops rs A' ->
    exists s' rs', FomModel.fom_run cmp alloc s ops = Ok (s', rs') /\ Forall2 fagree rs rs' /\
      fshown A' (flat_size s') (flat_capacity s') (flat_iter s' true) (flat_iter s' false) (FomModel.fom_validate cmp s').
Proof. exact @FlatValid.fom_validate_usable. Qed.

Definition zeroed (i : nat) : fnode := Node 0 0 0 false.
Definition el (k v : nat) : user nat nat := (Node 5 6 7 false, (k, v)).
Definition ffive : list (flat_op nat nat) :=
  [FInsert (el 5 50) (Some zeroed); FInsert (el 2 20) None; FInsert (el 8 80) None; FInsert (el 3 30) None; FInsert (el 6 60) None].
Definition fom5 : flat nat nat :=
  match FomModel.fom_run Nat.compare true (flat_init 0 zeroed) ffive with Ok (s, _) => s | _ => flat_init 0 zeroed end.
Definition frm5 : flat nat nat :=
  match FrmModel.frm_run Nat.compare true (flat_init 0 zeroed) ffive with Ok (s, _) => s | _ => flat_init 0 zeroed end.
Definition fspoilt (s : flat nat nat) (e l r p : nat) : flat nat nat :=
  set_tr s (with_links (tr s) (put_links (wl (tr s)) e l r p)).

Definition flat_memoryb (s : flat nat nat) : bool :=
  (sz s <=? cap s) && (wroot (tr s) <? sz s `max` 1) &&
  forallb (fun i => match lf (wl (tr s)) !! i, rt (wl (tr s)) !! i, pa (wl (tr s)) !! i, wp (tr s) !! i with
                    | Some _, Some _, Some _, Some _ => true | _, _, _, _ => false end) (seq 0 (cap s)) &&
  forallb (fun i => match lf (wl (tr s)) !! i, rt (wl (tr s)) !! i, pa (wl (tr s)) !! i, dat s !! i with
                    | Some l, Some r, Some p, Some _ => (l <? sz s) && (r <? sz s) && (p <? sz s) | _, _, _, _ => false end)
    (seq 1 (sz s - 1)).
Lemma flat_memory_check (s : flat nat nat) : flat_memoryb s = true -> FlatValid.flat_memory s.
Proof.
  unfold flat_memoryb. rewrite !andb_true_iff, !forallb_forall, Nat.leb_le, Nat.ltb_lt. intros [[[H1 H2] H3] H4]. split_and!.
  - done.
  - intros i Hi. specialize (H3 i). rewrite in_seq in H3. specialize (H3 ltac:(lia)). unfold WavlFrame.alive, TreeProofs.live.
    destruct (lf _ !! _); [|done]; destruct (rt _ !! _); [|done]; destruct (pa _ !! _); [|done]; by destruct (wp _ !! _).
  - done.
  - intros i Hi. specialize (H4 i). rewrite in_seq in H4. specialize (H4 ltac:(lia)).
    destruct (lf _ !! _) as [l|]; [|done]; destruct (rt _ !! _) as [r|]; [|done]; destruct (pa _ !! _) as [p|]; [|done].
    destruct (dat s !! i); [|done]. rewrite !andb_true_iff, !Nat.ltb_lt in H4. split; [done|]. exists l, r, p. tauto.
Qed.

Example C45_fom_case :
  FlatValid.flat_memory fom5 /\ FomModel.fom_validate Nat.compare fom5 = Ok true /\
  flat_iter fom5 true = Ok [(2, (2, 20)); (4, (3, 30)); (1, (5, 50)); (5, (6, 60)); (3, (8, 80))] /\
  FlatValid.flat_memory (fspoilt fom5 3 0 0 0) /\
  FomModel.fom_validate Nat.compare (fspoilt fom5 3 0 0 0) = Ok false /\
  FlatValid.flat_memory (fspoilt fom5 3 3 0 5) /\ FomModel.fom_validate Nat.compare (fspoilt fom5 3 3 0 5) = Ok false /\
  FomModel.fom_validate Nat.compare (set_sz fom5 5) = Ok false.
Proof. split_and!; try (apply flat_memory_check; by vm_compute); by vm_compute. Qed.

(** The first restriction: a root that is lost is not noticed. *)
Theorem C45_fom_lost_root_refuted :
  exists s : flat nat nat, FlatValid.flat_memory s /\ FomModel.fom_validate Nat.compare s = Ok true /\
    flat_size s = 5 /\ flat_iter s true = Ok [].
Proof. exists (set_root fom5 0). split_and!; [apply flat_memory_check; by vm_compute|by vm_compute..]. Qed.

(** The second: elements in slots that are not in use are not noticed either, and the
    next insertion overwrites one of them. Slot 1, beside the root in slot 2, is empty. *)
Definition fom_astray : flat nat nat :=
  Flat (Wavl (put_links (put_links (fresh blank zeroed (seq 0 4)).(wl) 3 0 0 2) 2 0 3 0)
    (fresh blank zeroed (seq 0 4)).(wp) 2) {[2 := (5, 50); 3 := (8, 80)]} 3 4.
Theorem C45_fom_slots_refuted :
  exists (s : flat nat nat) s' rs, FomModel.fom_validate Nat.compare s = Ok true /\
    flat_iter s true = Ok [(2, (5, 50)); (3, (8, 80))] /\ flat_size s = 2 /\
    FomModel.fom_run Nat.compare false s [FInsert (el 6 60) None; FContains 8] = Ok (s', rs) /\
    last rs = Some (XBool false).
Proof. exists fom_astray. eexists _, _. split_and!; by vm_compute. Qed.

(** The flat realtime map. Missing: the balance, a lost root, and links to slots not
    in use. *)
Theorem C45_frm_validate_partial :
  forall (K V : Type) (cmp : K -> K -> comparison), total_preorder cmp ->
  forall (s : flat K V), FlatValid.flat_memory s ->
  (exists b, FrmModel.frm_validate cmp s = Ok b) /\
  (FrmModel.frm_validate cmp s = Ok true -> wroot (tr s) <> 0 \/ sz s <= 1 ->
    consistent cmp (Ok (Z.of_nat (flat_size s))) (flat_iter s true) (flat_iter s false)
      (fun k e => exists n, FlatValid.frm_get_in cmp n s k = Ok (Some e))).
Proof.
  intros K V cmp Hcmp s Hm. split; [by apply FlatValid.frm_validate_decides|by apply FlatValid.frm_validate_consistent].
Qed.

Example C45_frm_case :
  FlatValid.flat_memory frm5 /\ FrmModel.frm_validate Nat.compare frm5 = Ok true /\
  flat_iter frm5 true = Ok [(2, (2, 20)); (4, (3, 30)); (1, (5, 50)); (5, (6, 60)); (3, (8, 80))] /\
  FlatValid.flat_memory (fspoilt frm5 3 0 0 0) /\
  FrmModel.frm_validate Nat.compare (fspoilt frm5 3 0 0 0) = Ok false /\
  FlatValid.flat_memory (fspoilt frm5 3 3 0 1) /\ FrmModel.frm_validate Nat.compare (fspoilt frm5 3 3 0 1) = Ok false /\
  FrmModel.frm_validate Nat.compare (set_sz frm5 5) = Ok false.
Proof. split_and!; try (apply flat_memory_check; by vm_compute); by vm_compute. Qed.

Theorem C45_frm_lost_root_refuted :
  exists s : flat nat nat, FlatValid.flat_memory s /\ FrmModel.frm_validate Nat.compare s = Ok true /\
    flat_size s = 5 /\ flat_iter s true = Ok [].
Proof. exists (set_root frm5 0). split_and!; [apply flat_memory_check; by vm_compute|by vm_compute..]. Qed.

Definition frm_chain : flat nat nat :=
  Flat (Wavl (foldr (fun x h => put_links h x 0 (if x =? 12 then 0 else S x) (x - 1)) (Links ∅ ∅ ∅) (seq 0 13))
    (list_to_map (map (fun x => (x, true)) (seq 0 13))) 1) (list_to_map (map (fun x => (x, (x, x))) (seq 1 12))) 13 13.
Theorem C45_frm_balance_refuted :
  exists s : flat nat nat, FlatValid.flat_memory s /\ FrmModel.frm_validate Nat.compare s = Ok true /\
    flat_size s = 12 /\ FlatValid.frm_get_in Nat.compare 13 s 12 = Ok (Some 12) /\
    flat_get (FrmModel.frm_find Nat.compare) s 12 = Fuel.
Proof. exists frm_chain. split_and!; [apply flat_memory_check; by vm_compute|by vm_compute..]. Qed.

(** The ordered multimap. Its validate does not look at the rings of duplicates, so
    the conclusion is subject to their being in order ([OmmValid.in_rings]). Then a
    validated multimap behaves as specified from then on. Missing: the rings. *)
Theorem C45_omm_usable_partial :
  forall (K V : Type) (cmp : K -> K -> comparison), total_preorder cmp ->
  forall (s : OmModel.om K V) D, OmmValid.omm_memory cmp s D ->
  (exists b, OmmModel.omm_validate cmp s = Ok b) /\
  forall (alloc : bool) off, OmmModel.omm_validate cmp s = Ok true ->
  (alloc = true -> forall x, is_Some (OmModel.dat s !! x) -> x ∈ OmModel.heap s) ->
  exists A, OmmSpec.vals A = OmModel.dat s /\ OmmSpec.mem A = OmModel.heap s /\
    OmmSpec.shown cmp A (OmmModel.omm_size s) (OmmModel.omm_iter s false) (OmmModel.omm_iter s true) (OmmModel.omm_validate cmp s) /\
    forall ops rs A', OmmSpec.calls cmp (OmmSpec.kept alloc off) A ops rs A' ->
    exists s', OmmModel.omm_run cmp alloc off s ops = Ok (s', rs) /\
      OmmSpec.shown cmp A' (OmmModel.omm_size s') (OmmModel.omm_iter s' false) (OmmModel.omm_iter s' true) (OmmModel.omm_validate cmp s').
Proof.
  intros K V cmp Hcmp s D Hm. split; [by apply (OmmValid.validate_decides cmp Hcmp s D)|].
  intros alloc off Hv Hh. by apply (OmmValid.validate_usable cmp Hcmp s D).
Qed.

(** Four elements, three of them with key 5. *)
Definition omm4 : OmModel.om nat nat :=
  match OmmModel.omm_run Nat.compare false 0 OmModel.om_init
    [OmmOps.ONew 2 5 50 0 0 0 false; OmmOps.ONew 3 5 51 0 0 0 false; OmmOps.ONew 4 5 52 0 0 0 false; OmmOps.ONew 5 2 20 0 0 0 false;
     OmmOps.OInsert 2 0; OmmOps.OInsert 3 0; OmmOps.OInsert 4 0; OmmOps.OInsert 5 0] with
  | Ok (s, _) => s | _ => OmModel.om_init
  end.
Definition omm4_rings (n : nat) : list nat := if n =? 2 then [3; 4] else [].

Lemma omm4_dat x : is_Some (OmModel.dat omm4 !! x) -> x ∈ [2; 3; 4; 5].
Proof.
  intros Hx%elem_of_dom. assert (dom (OmModel.dat omm4) = list_to_set (C := gset nat) [2; 3; 4; 5]) as Hd.
  { apply (bool_decide_unpack _). by vm_compute. }
  rewrite Hd in Hx. by apply elem_of_list_to_set in Hx.
Qed.

Lemma omm4_memory : OmmValid.omm_memory Nat.compare omm4 omm4_rings.
Proof.
  assert (forall n x, x ∈ omm4_rings n -> n = 2 /\ (x = 3 \/ x = 4)) as HD.
  { intros n x. unfold omm4_rings. destruct (Nat.eqb_spec n 2) as [-> |]; rewrite ?elem_of_cons, elem_of_nil; tauto. }
  split; [split_and!; by eexists; vm_compute|]. split; [left; right; by eexists; vm_compute|]. split; [split|].
  - intros n x [-> [-> | ->]]%HD; eexists _, _; split_and!; by vm_compute.
  - intros n. apply (bool_decide_unpack _). unfold omm4_rings. by destruct (n =? 2).
  - intros n m x [-> _]%HD [-> _]%HD. done.
  - intros n. unfold omm4_rings. destruct (Nat.eqb_spec n 2) as [-> |]; [|done]. split_and!; try by vm_compute.
    by repeat constructor.
  - intros n Hn. apply omm4_dat in Hn. rewrite !elem_of_cons, elem_of_nil in Hn.
    destruct Hn as [-> |[-> |[-> |[-> |[]]]]]; intros HDn Hout; try done; try by vm_compute.
    exfalso. apply (Hout 2). right. left.
  - intros x Hx. apply omm4_dat in Hx. rewrite !elem_of_cons, elem_of_nil in Hx. unfold target.
    destruct Hx as [-> |[-> |[-> |[-> |[]]]]]; split_and!; try done; eexists _, _, _; (split_and!; [by vm_compute..| | |]).
    all: try (left; first [by left|right; by eexists; vm_compute]).
    right. split; [done|]. exists 2. left.
Qed.

Example C45_omm_case :
  OmmValid.omm_memory Nat.compare omm4 omm4_rings /\ OmmModel.omm_validate Nat.compare omm4 = Ok true /\
  OmmModel.omm_iter omm4 true = Ok [(5, (2, 20)); (2, (5, 50)); (3, (5, 51)); (4, (5, 52))] /\
  OmmModel.omm_validate Nat.compare (om_spoilt omm4 2 0 0 5) = Ok false /\
  OmmModel.omm_validate Nat.compare (om_spoilt omm4 5 5 2 1) = Ok false /\
  OmmModel.omm_validate Nat.compare (om_rekeyed omm4 2 1) = Ok false /\
  OmmModel.omm_validate Nat.compare (OmModel.set_sz omm4 3) = Ok false.
Proof. split; [exact omm4_memory|]. split_and!; by vm_compute. Qed.

(** Not noticed: a duplicate with a key that is not the one of its ring. It is walked
    out of order and cannot be found. *)
Theorem C45_omm_ring_key_refuted :
  exists (s s' : OmModel.om nat nat), OmmModel.omm_validate Nat.compare s = Ok true /\
    OmmModel.omm_iter s true = Ok [(5, (2, 20)); (2, (5, 50)); (3, (5, 51)); (4, (1, 0))] /\
    OmmModel.omm_contains Nat.compare s 1 = Ok (s', false).
Proof. exists (om_rekeyed omm4 4 1). eexists. split_and!; by vm_compute. Qed.

(** A ring that is linked wrongly: counting its elements never comes to an end. The
    loop makes more steps than there are elements. *)
Theorem C45_omm_ring_loop_refuted :
  exists (s : OmModel.om nat nat) x y, is_Some (OmModel.dat s !! x) /\ is_Some (OmModel.dat s !! y) /\
    OmmModel.omm_validate Nat.compare s = Ok true /\
    OmmModel.omm_validate Nat.compare
      (OmModel.set_lk s (Links (lf (OmModel.lk s)) (<[x := y]> (rt (OmModel.lk s))) (pa (OmModel.lk s)))) = Fuel.
Proof. exists omm4, 3, 5. split_and!; [by eexists; vm_compute..| |]; by vm_compute. Qed.

Print Assumptions C45_om_validate.
Print Assumptions C45_om_usable.
Print Assumptions C45_om_null_parent_refuted.
Print Assumptions C45_rom_validate_partial.
Print Assumptions C45_rom_balance_refuted.
Print Assumptions C45_fom_validate_partial.
Print Assumptions C45_fom_usable_partial.
Print Assumptions C45_fom_lost_root_refuted.
Print Assumptions C45_fom_slots_refuted.
Print Assumptions C45_frm_validate_partial.
Print Assumptions C45_frm_lost_root_refuted.
Print Assumptions C45_frm_balance_refuted.
Print Assumptions C45_omm_usable_partial.
Print Assumptions C45_omm_ring_key_refuted.
Print Assumptions C45_omm_ring_loop_refuted.
