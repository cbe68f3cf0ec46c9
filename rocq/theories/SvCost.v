(** SvCostModel.v computes what SvModel.v does, and how many bytes the searches read. *)
From stdpp Require Import base numbers option list.
From Verif Require Import Common SvModel SvSpec SvFactor SvTwoWay SvSearch SvFind SvTokens SvCostModel.

(** ** Erasing the counts *)
Lemma val_bind {A B} (m : counted A) (o : outcome A) (f : A -> counted B) (f' : A -> outcome B) :
  val m = o -> (forall a, val (f a) = f' a) -> val (m ≫= f) = o ≫= f'.
Proof. intros <- H. unfold mbind, counted_bind, outcome_bind, cbind, obind. destruct (val m); [apply H|done|done]. Qed.
Ltac era := repeat first [reflexivity | eassumption | apply val_bind; [|intros ?] | progress (cbv zeta)
  | match goal with |- val (if ?b then _ else _) = _ => destruct b end
  | match goal with H : context [val (_ _) = _] |- _ => apply H end].

Lemma while_val ok p n : forall i, val (while_c n p ok i) = while_loop n p ok i.
Proof. induction n as [|n IH]; intros i; cbn [while_c while_loop]; era. Qed.
Lemma rchr_val p c i : val (rchr_c i p c) = rchr_loop i p c.
Proof. induction i as [|i IH]; cbn [rchr_c rchr_loop]; era. Qed.
Lemma window_val sz h step nw fuel : forall hw i, val (window_c fuel sz h step nw hw i) = window fuel sz h step nw hw i.
Proof. induction fuel as [|f IH]; intros hw i; cbn [window_c window]; era. Qed.
Lemma forward_val sz h back step nw hw : val (forward_c sz h back step nw hw) = forward sz h back step nw hw.
Proof. unfold forward_c, forward. apply val_bind; [apply window_val|intros i]. era. Qed.
Lemma rwindow_val h step nw i : forall iw, val (rwindow_c h step nw iw i) = rwindow h step nw iw i.
Proof. induction i as [|i IH]; intros iw; cbn [rwindow_c rwindow]; era. Qed.
Lemma backward_val sz h back step nw hw : val (backward_c sz h back step nw hw) = backward sz h back step nw hw.
Proof. unfold backward_c, backward. apply val_bind; [apply rwindow_val|intros i]. era. Qed.
Lemma word2_val p i : val (word2_c p i) = word2 p i.
Proof. unfold word2_c, word2. era. Qed.
Lemma word3_val p i : val (word3_c p i) = word3 p i.
Proof. unfold word3_c, word3. era. Qed.
Lemma rword3_val p i : val (rword3_c p i) = rword3 p i.
Proof. unfold rword3_c, rword3. era. Qed.
Lemma word4_val p i : val (word4_c p i) = word4 p i.
Proof. unfold word4_c, word4. era. Qed.
Ltac short W := repeat (apply val_bind; [apply W|intros ?]); first [apply forward_val | apply backward_val].

Section two_way.
Context (at_n at_h : nat -> counted N) (n hn : nat) (at_n' at_h' : nat -> outcome N).
Context (En : forall i, val (at_n i) = at_n' i) (Eh : forall i, val (at_h i) = at_h' i).

Lemma suffix_val flip fuel : forall m p j k, val (suffix_c at_n n fuel flip m p j k) = suffix_loop at_n' n fuel flip m p j k.
Proof.
  induction fuel as [|f IH]; intros m p j k; cbn [suffix_c suffix_loop]; [era|].
  destruct (j + k <? n); [|done]. apply val_bind; [apply En|intros a]. apply val_bind; [apply En|intros b].
  destruct (if flip then _ else _); [destruct (k =? p)| |]; apply IH.
Qed.
Lemma same_val k : forall i j, val (same_c at_n k i j) = same_loop at_n' k i j.
Proof. induction k as [|k IH]; intros i j; cbn [same_c same_loop]; era. Qed.
Lemma right_val k : forall l r, val (right_c at_n at_h k l r) = right_loop at_n' at_h' k l r.
Proof. induction k as [|k IH]; intros l r; cbn [right_c right_loop]; era. Qed.
Lemma left_val r : forall memo l, val (left_c at_n at_h r memo l) = left_loop at_n' at_h' r memo l.
Proof.
  induction r as [|r IH]; intros memo l; [done|]. cbn [left_c left_loop]. destruct (memo <? S r); [|done].
  apply val_bind; [apply En|intros a]. apply val_bind; [apply Eh|intros b]. destruct (a =? b)%N; [apply IH|done].
Qed.
Lemma memo_val p c fuel : forall l memo, val (memo_c at_n n at_h hn fuel p c l memo) = memo_loop at_n' n at_h' hn fuel p c l memo.
Proof.
  induction fuel as [|f IH]; intros l memo; cbn [memo_c memo_loop]; [era|]. destruct (l + n <=? hn); [|done].
  apply val_bind; [apply right_val|intros r]. destruct (r <? n); [apply IH|].
  apply val_bind; [apply left_val|intros r']. destruct (r' <=? memo); [done|apply IH].
Qed.
Lemma normal_val p c fuel : forall l, val (normal_c at_n n at_h hn fuel p c l) = normal_loop at_n' n at_h' hn fuel p c l.
Proof.
  induction fuel as [|f IH]; intros l; cbn [normal_c normal_loop]; [era|]. destruct (l + n <=? hn); [|done].
  apply val_bind; [apply right_val|intros r]. destruct (r <? n); [apply IH|].
  apply val_bind; [apply left_val|intros r']. destruct (r' =? 0); [done|apply IH].
Qed.
Lemma two_way_val : val (two_way_c at_n n at_h hn) = two_way at_n' n at_h' hn.
Proof.
  unfold two_way_c, two_way. apply val_bind; [apply suffix_val|intros a]. apply val_bind; [apply suffix_val|intros b].
  destruct (if fst b <? fst a then a else b) as [c p]. apply val_bind; [apply same_val|intros same].
  destruct same; [apply memo_val|apply normal_val].
Qed.
End two_way.

Lemma match_tw_val hn h n nd : val (match_tw_c hn h n nd) = sv_tw_match hn h n nd.
Proof. unfold match_tw_c, sv_tw_match. apply val_bind; [by apply two_way_val|done]. Qed.
Lemma rmatch_tw_val hn h n nd : val (rmatch_tw_c hn h n nd) = sv_tw_rmatch hn h n nd.
Proof.
  unfold rmatch_tw_c, sv_tw_rmatch. apply val_bind; [|by intros []].
  apply two_way_val; intros i; (apply val_bind; [done|intros j; done]).
Qed.
Lemma strnstrn_val hn h n nd : val (strnstrn_c hn h n nd) = sv_strnstrn hn h n nd.
Proof.
  unfold strnstrn_c, sv_strnstrn. destruct (_ || _); [done|].
  destruct n as [|[|[|[|[|n]]]]]; [apply match_tw_val| | | | |apply match_tw_val].
  - apply val_bind; [done|intros c; apply while_val].
  - short word2_val.
  - short word3_val.
  - short word4_val.
Qed.
Lemma rstrnstrn_val hn h n nd : val (rstrnstrn_c hn h n nd) = sv_rstrnstrn hn h n nd.
Proof.
  unfold rstrnstrn_c, sv_rstrnstrn. destruct (_ || _); [done|].
  destruct n as [|[|[|[|[|n]]]]]; [apply rmatch_tw_val| | | | |apply rmatch_tw_val].
  - apply val_bind; [done|intros c]. unfold sv_rstrnchr. apply val_bind; [apply rchr_val|done].
  - short word2_val.
  - short rword3_val.
  - short word4_val.
Qed.
Lemma find_val hay pos nd : val (find_c hay pos nd) = sv_find hay pos nd.
Proof. unfold find_c, sv_find. destruct (_ || _); [done|]. apply val_bind; [apply strnstrn_val|done]. Qed.
Lemma rfind_val hay pos nd : val (rfind_c hay pos nd) = sv_rfind hay pos nd.
Proof. unfold rfind_c, sv_rfind. destruct (_ || _); [done|]. apply val_bind; [apply rstrnstrn_val|done]. Qed.
Lemma contains_val hay nd : val (contains_c hay nd) = sv_contains hay nd.
Proof.
  unfold contains_c, sv_contains. destruct (_ <? _); [done|]. destruct (len hay =? 0); [done|]. destruct (len nd =? 0); [done|].
  apply val_bind; [apply strnstrn_val|done].
Qed.
Lemma match_val hay nd : val (match_c hay nd) = sv_match hay nd.
Proof. unfold match_c, sv_match. destruct (_ || _); [done|]. destruct (_ || _ || _); [done|]. apply val_bind; [apply strnstrn_val|done]. Qed.
Lemma rmatch_val hay nd : val (rmatch_c hay nd) = sv_rmatch hay nd.
Proof. unfold rmatch_c, sv_rmatch. destruct (is_null _); [done|]. destruct (_ || _); [done|]. apply val_bind; [apply rstrnstrn_val|done]. Qed.

Lemma after_val hay nd n : forall d i, val (after_c n hay nd d i) = after_loop n hay nd d i.
Proof. induction n as [|n IH]; intros d i; cbn [after_c after_loop]; era. Qed.
Lemma after_find_val hay nd : val (after_find_c hay nd) = sv_after_find hay nd.
Proof. unfold after_find_c, sv_after_find. destruct (_ <? _); [done|]. apply val_bind; [apply after_val|by intros []]. Qed.
Lemma begin_tok_val src nd : val (begin_tok_c src nd) = sv_begin_tok src nd.
Proof.
  unfold begin_tok_c, sv_begin_tok. destruct (is_null _); [done|]. destruct (is_null _); [done|].
  apply val_bind; [apply after_find_val|intros k]. destruct (k =? _); [done|]. apply val_bind; [done|intros n].
  apply val_bind; [apply find_val|done].
Qed.
Lemma next_tok_val src tok nd : val (next_tok_c src tok nd) = sv_next_tok src tok nd.
Proof.
  unfold next_tok_c, sv_next_tok. destruct (is_null _); [done|]. apply val_bind.
  { destruct (is_null _); [done|]. by apply val_bind. }
  intros []; [done|]. cbv zeta. destruct (_ <=? _); [done|]. apply val_bind; [done|intros d]. apply val_bind; [done|intros n].
  apply val_bind; [apply after_find_val|intros k]. apply val_bind; [done|intros n']. destruct (_ <=? _); [done|].
  apply val_bind; [apply strnstrn_val|done].
Qed.
Lemma tokens_loop_val src nd f : forall tok, val (tokens_loop_c f src tok nd) = tokens_loop f src tok nd.
Proof.
  induction f as [|f IH]; intros tok; cbn [tokens_loop_c tokens_loop]; (destruct (sv_end_tok _ _); [done|]); [done|].
  apply val_bind; [apply next_tok_val|intros next]. apply val_bind; [apply IH|done].
Qed.
Lemma tokens_val src nd : val (tokens_c src nd) = tokens src nd.
Proof. unfold tokens_c, tokens. apply val_bind; [apply begin_tok_val|intros tok]. apply tokens_loop_val. Qed.

(** ** Counting *)
Lemma cost_le {A B} (m : counted A) (f : A -> counted B) k1 k2 :
  cost m <= k1 -> (forall a, val m = Ok a -> cost (f a) <= k2) -> cost (m ≫= f) <= k1 + k2.
Proof.
  unfold mbind, counted_bind, cbind. intros H1 H2. destruct (val m) as [a| |]; cbn [cost]; [|lia..].
  specialize (H2 a eq_refl). lia.
Qed.
Lemma cost_Ok {A B} (m : counted A) (f : A -> counted B) a : val m = Ok a -> cost (m ≫= f) = cost m + cost (f a).
Proof. unfold mbind, counted_bind, cbind. by intros ->. Qed.
Lemma val_Ok {A B} (m : counted A) (f : A -> counted B) b : val (m ≫= f) = Ok b -> exists a, val m = Ok a /\ val (f a) = Ok b.
Proof. unfold mbind, counted_bind, cbind. destruct (val m) as [a| |]; [|done..]. cbn. intros H. by exists a. Qed.

Section two_way.
Context (at_n at_h : nat -> counted N) (n hn : nat).
Context (Cn : forall i, cost (at_n i) <= 1) (Ch : forall i, cost (at_h i) <= 1).

Lemma suffix_cost flip fuel : forall m p j k, cost (suffix_c at_n n fuel flip m p j k) <= 2 * fuel.
Proof.
  induction fuel as [|f IH]; intros m p j k; cbn [suffix_c]; [destruct (_ <? _); cbn; lia|].
  destruct (j + k <? n); [|cbn; lia]. etrans; [apply (cost_le _ _ 1 (1 + 2 * f)); [apply Cn|intros a _]|lia].
  apply cost_le; [apply Cn|intros b _]. destruct (if flip then _ else _); [destruct (k =? p)| |]; apply IH.
Qed.
Lemma same_cost k : forall i j, cost (same_c at_n k i j) <= 2 * k.
Proof.
  induction k as [|k IH]; intros i j; cbn [same_c]; [cbn; lia|].
  etrans; [apply (cost_le _ _ 1 (1 + 2 * k)); [apply Cn|intros a _]|lia].
  apply cost_le; [apply Cn|intros b _]. destruct (a =? b)%N; [apply IH|cbn; lia].
Qed.
Lemma right_cost k : forall l r r', val (right_c at_n at_h k l r) = Ok r' ->
  r <= r' <= r + k /\ cost (right_c at_n at_h k l r) <= 2 * (min (r' + 1) (r + k) - r).
Proof.
  induction k as [|k IH]; intros l r r' E; cbn [right_c] in *; [injection E as <-; cbn; lia|].
  apply val_Ok in E as (a & Ea & E). apply val_Ok in E as (b & Eb & E). rewrite (cost_Ok _ _ a Ea), (cost_Ok _ _ b Eb).
  pose proof (Cn r). pose proof (Ch (r + l)). destruct (a =? b)%N.
  - apply IH in E as [H1 H2]. lia.
  - injection E as <-. cbn [cost ret free]. lia.
Qed.
Lemma left_cost r : forall memo l, cost (left_c at_n at_h r memo l) <= 2 * r.
Proof.
  induction r as [|r IH]; intros memo l; [cbn; lia|]. cbn [left_c]. destruct (memo <? S r); [|cbn; lia].
  etrans; [apply (cost_le _ _ 1 (1 + 2 * r)); [apply Cn|intros a _]|lia].
  apply cost_le; [apply Ch|intros b _]. destruct (a =? b)%N; [apply IH|cbn; lia].
Qed.

(** The end of the part of the hay that was looked at. *)
Definition upto (r : option nat) : nat := match r with Some l => l + n | None => hn end.
Definition from (l : nat) (r : option nat) : Prop := match r with Some l' => l <= l' /\ l' + n <= hn | None => True end.

Lemma memo_cost p c (Hp : c <= p) (Hc : c <= n) fuel : forall l memo r, memo <= n -> val (memo_c at_n n at_h hn fuel p c l memo) = Ok r ->
  from l r /\ cost (memo_c at_n n at_h hn fuel p c l memo) <= 2 * ((upto r - (l + max c memo)) + (upto r - l)).
Proof.
  induction fuel as [|f IH]; intros l memo r Hm E; cbn [memo_c] in *.
  { destruct (l + n <=? hn); [done|]. injection E as <-. cbn. lia. }
  destruct (Nat.leb_spec (l + n) hn) as [Hin|Hout]; [|injection E as <-; cbn; lia].
  apply val_Ok in E as (q & Eq & E). rewrite (cost_Ok _ _ q Eq). apply right_cost in Eq as [Hq Cq].
  assert (forall r l', from l' r -> l <= l' -> l + n <= upto r /\ from l r) as Hfrom.
  { intros [l0|] l' Hf Hle; unfold from, upto in *; lia. }
  destruct (Nat.ltb_spec q n) as [Hqn|Hqn].
  - apply IH in E as [Hf Cr]; [|lia]. destruct (Hfrom _ _ Hf ltac:(lia)) as [Hu Hf']. split; [done|]. lia.
  - apply val_Ok in E as (q' & Eq' & E). rewrite (cost_Ok _ _ q' Eq'). pose proof (left_cost c memo l) as Cl.
    destruct (q' <=? memo).
    + injection E as <-. cbn [ret free cost]. unfold from, upto. lia.
    + apply IH in E as [Hf Cr]; [|lia]. destruct (Hfrom _ _ Hf ltac:(lia)) as [Hu Hf']. split; [done|]. lia.
Qed.
Lemma normal_cost c (Hc : c <= n) fuel : forall l r, val (normal_c at_n n at_h hn fuel (max c (n - c) + 1) c l) = Ok r ->
  from l r /\ cost (normal_c at_n n at_h hn fuel (max c (n - c) + 1) c l) <= 2 * ((upto r - (l + c)) + (upto r - l)).
Proof.
  induction fuel as [|f IH]; intros l r E; cbn [normal_c] in *.
  { destruct (l + n <=? hn); [done|]. injection E as <-. cbn. lia. }
  destruct (Nat.leb_spec (l + n) hn) as [Hin|Hout]; [|injection E as <-; cbn; lia].
  apply val_Ok in E as (q & Eq & E). rewrite (cost_Ok _ _ q Eq). apply right_cost in Eq as [Hq Cq].
  assert (forall r l', from l' r -> l <= l' -> l + n <= upto r /\ from l r) as Hfrom.
  { intros [l0|] l' Hf Hle; unfold from, upto in *; lia. }
  destruct (Nat.ltb_spec q n) as [Hqn|Hqn].
  - apply IH in E as [Hf Cr]. destruct (Hfrom _ _ Hf ltac:(lia)) as [Hu Hf']. split; [done|]. lia.
  - apply val_Ok in E as (q' & Eq' & E). rewrite (cost_Ok _ _ q' Eq'). pose proof (left_cost c 0 l) as Cl.
    destruct (q' =? 0).
    + injection E as <-. cbn [ret free cost]. unfold from, upto. lia.
    + apply IH in E as [Hf Cr]. destruct (Hfrom _ _ Hf ltac:(lia)) as [Hu Hf']. split; [done|]. lia.
Qed.

Context (x : nat -> N) (Hx : forall i, i < n -> val (at_n i) = Ok (x i)).
Context (Hb : forall i, i < n -> (x i < 256)%N) (Hn : 1 <= n).
Lemma two_way_cost r : val (two_way_c at_n n at_h hn) = Ok r -> from 0 r /\ cost (two_way_c at_n n at_h hn) <= 10 * n + 4 * upto r.
Proof.
  unfold two_way_c. intros E. apply val_Ok in E as (a & Ea & E). apply val_Ok in E as (b & Eb & E).
  rewrite (cost_Ok _ _ a Ea), (cost_Ok _ _ b Eb). unfold maximal_suffix_c in *.
  pose proof (suffix_cost false (2 * n) 0 1 0 1) as C1. pose proof (suffix_cost true (2 * n) 0 1 0 1) as C2.
  rewrite (suffix_val _ n (fun i => val (at_n i))) in Ea, Eb by done.
  destruct (maximal_suffix_Ok x n (fun i => val (at_n i)) Hx Hn false) as (m1 & p1 & E1 & F1).
  destruct (maximal_suffix_Ok x n (fun i => val (at_n i)) Hx Hn true) as (m2 & p2 & E2 & F2).
  unfold maximal_suffix in *. rewrite Ea in E1. rewrite Eb in E2. injection E1 as ->. injection E2 as ->. cbn [fst] in *.
  assert (exists c p, (if m2 <? m1 then (m1, p1) else (m2, p2)) = (c, p) /\ critical_at x n c p) as (c & p & Ecp & Hc).
  { destruct (Nat.ltb_spec m2 m1) as [Hlt|Hge].
    - exists m1, p1. split; [done|]. apply (critical_bytes x n Hb Hn false m1 p1 m2 p2); [done|done|lia].
    - exists m2, p2. split; [done|]. apply (critical_bytes x n Hb Hn true m2 p2 m1 p1); [done|done|lia]. }
  rewrite Ecp in *. cbv iota in *. pose proof Hc as (Hp1 & Hcp & Hp & HL).
  apply val_Ok in E as (same & Es & E). rewrite (cost_Ok _ _ same Es). pose proof (same_cost c 0 p) as C3.
  rewrite (same_val _ (fun i => val (at_n i))) in Es by done.
  destruct (same_loop_Ok x n _ Hx Hn c 0 p) as (sm & Es' & Hsame); [lia|lia|]. rewrite Es in Es'. injection Es' as <-.
  destruct same.
  - assert (c < p) as Hlt.
    { apply (HL p); [done|]. intros j Hj _ Hj'. destruct Hsame as [Hs _]. specialize (Hs eq_refl j Hj). cbn in Hs. rewrite Hs. f_equal. lia. }
    apply memo_cost in E as [Hf Cm]; [|lia..]. split; [done|]. lia.
  - apply normal_cost in E as [Hf Cm]; [|lia]. split; [done|]. lia.
Qed.
End two_way.

(** ** Needles of up to four bytes *)
Lemma while_cost ok p n : forall i r, val (while_c n p ok i) = Ok r -> i <= r <= i + n /\ cost (while_c n p ok i) <= min (r + 1) (i + n) - i.
Proof.
  induction n as [|n IH]; intros i r E; cbn [while_c] in *; [injection E as <-; cbn; lia|].
  apply val_Ok in E as (b & Eb & E). rewrite (cost_Ok _ _ b Eb). cbn [crd cost]. destruct (ok b).
  - apply IH in E. lia.
  - injection E as <-. cbn [ret free cost]. lia.
Qed.
Lemma window_cost sz h step nw fuel : forall hw i r, i <= sz -> val (window_c fuel sz h step nw hw i) = Ok r ->
  i <= r <= sz /\ cost (window_c fuel sz h step nw hw i) <= r - i \/ i = sz /\ cost (window_c fuel sz h step nw hw i) = 0 /\ sz <= r.
Proof.
  induction fuel as [|f IH]; intros hw i r Hi E; cbn [window_c] in *.
  { destruct (hw =? nw)%N; [|done]. injection E as <-. cbn. lia. }
  destruct (hw =? nw)%N; [injection E as <-; cbn; lia|]. cbv zeta in *. destruct (Nat.ltb_spec (i + 1) sz) as [Hlt|Hge].
  - apply val_Ok in E as (b & Eb & E). rewrite (cost_Ok _ _ b Eb). cbn [crd cost]. apply IH in E; [|lia]. lia.
  - injection E as <-. cbn [ret free cost]. lia.
Qed.
Lemma forward_cost sz h back step nw hw r : back < sz -> val (forward_c sz h back step nw hw) = Ok r ->
  r <= sz /\ cost (forward_c sz h back step nw hw) <= r.
Proof.
  unfold forward_c. intros Hb E. apply val_Ok in E as (i & Ei & E). rewrite (cost_Ok _ _ i Ei). apply window_cost in Ei; [|lia].
  destruct (Nat.leb_spec sz i) as [Hle|Hlt]; [injection E as <-; cbn [ret free cost]; lia|].
  cbn [free val cost] in *. unfold minus in E. destruct (Nat.leb_spec back (sz - (sz - i))); [|done]. injection E as <-. lia.
Qed.
Lemma rwindow_cost h step nw i : forall iw, cost (rwindow_c h step nw iw i) <= i.
Proof.
  induction i as [|i IH]; intros iw; cbn [rwindow_c]; (destruct (iw =? nw)%N; [cbn; lia|]); [cbn; lia|].
  apply (cost_le _ _ 1 i); [done|intros b _]. apply (cost_le _ _ 0 i); [done|intros w _]. apply IH.
Qed.
Lemma backward_cost sz h back step nw iw : cost (backward_c sz h back step nw iw) <= sz.
Proof.
  unfold backward_c. etrans; [apply (cost_le _ _ (sz - 1 - back) 0); [apply rwindow_cost|intros r _; cbn; lia]|lia].
Qed.
Lemma rchr_cost p c i : cost (rchr_c i p c) <= i.
Proof.
  induction i as [|i IH]; cbn [rchr_c]; [cbn; lia|]. apply (cost_le _ _ 1 i); [done|intros b _].
  destruct (b =? c)%N; [cbn; lia|done].
Qed.
Ltac wcost := repeat first [apply (cost_le _ _ 1); [done|intros ? _] | apply (cost_le _ _ 0); [done|intros ? _]]; apply le_n.
Lemma word2_cost p i : cost (word2_c p i) <= 2.
Proof. exact (ltac:(unfold word2_c; wcost) : cost (word2_c p i) <= 1 + (1 + 0)). Qed.
Lemma word3_cost p i : cost (word3_c p i) <= 3.
Proof. exact (ltac:(unfold word3_c; wcost) : cost (word3_c p i) <= 1 + (1 + (1 + (0 + (0 + 0))))). Qed.
Lemma rword3_cost p i : cost (rword3_c p i) <= 3.
Proof. exact (ltac:(unfold rword3_c; wcost) : cost (rword3_c p i) <= 1 + (1 + (1 + (0 + 0)))). Qed.
Lemma word4_cost p i : cost (word4_c p i) <= 4.
Proof. exact (ltac:(unfold word4_c; wcost) : cost (word4_c p i) <= 1 + (1 + (1 + (1 + (0 + (0 + 0)))))). Qed.

(** ** Every search *)
Section needle.
Context (nd : ptr) (t : text) (Hnd : SvSearch.reads nd t) (Hb : forall i, (nth_of t i < 256)%N) (Hne : t <> []).

Lemma nd_pos : 1 <= length t.
Proof. destruct t; [done|cbn; lia]. Qed.
Ltac fwdcase W C E :=
  let Ea := fresh in let Eb := fresh in
  apply val_Ok in E as (? & Ea & E); apply val_Ok in E as (? & Eb & E); rewrite (cost_Ok _ _ _ Ea), (cost_Ok _ _ _ Eb);
  apply forward_cost in E; [|lia]; pose proof (W nd 0); pose proof (C 0); cbn [length] in *; lia.
Lemma strnstrn_cost hn h r : val (strnstrn_c hn h (length t) nd) = Ok r ->
  r <= hn /\ cost (strnstrn_c hn h (length t) nd) <= 10 * length t + 4 * min hn (r + length t).
Proof.
  pose proof nd_pos as Hn. unfold strnstrn_c. intros E.
  destruct (Nat.eqb_spec hn 0) as [E0|E0]; cbn [orb] in *; [injection E as <-; cbn [ret free cost]; lia|].
  destruct (Nat.eqb_spec (length t) 0) as [E1|E1]; cbn [orb] in *; [lia|].
  destruct (Nat.ltb_spec hn (length t)) as [Hlt|Hge]; cbn [orb] in *; [injection E as <-; cbn [ret free cost]; lia|].
  assert (forall r, val (match_tw_c hn h (length t) nd) = Ok r ->
    r <= hn /\ cost (match_tw_c hn h (length t) nd) <= 10 * length t + 4 * min hn (r + length t)) as Htw.
  { clear E r. intros r E. unfold match_tw_c in *. apply val_Ok in E as (o & Eo & E). rewrite (cost_Ok _ _ o Eo).
    apply (two_way_cost (fwd_c nd (length t)) (fwd_c h hn) _ _ (fun i => le_n 1) (fun i => le_n 1) (nth_of t)) in Eo as [Hf Ho]; [|by apply Hnd|done|done].
    cbn [ret free cost]. injection E as <-. destruct o as [l|]; unfold from, upto in *; lia. }
  clear Hne. destruct (length t) as [|[|[|[|[|n]]]]] eqn:El; [lia| | | | |by apply Htw].
  - apply val_Ok in E as (c & Ec & E). rewrite (cost_Ok _ _ c Ec). apply while_cost in E. cbn [crd cost]. lia.
  - unfold two_c in *. fwdcase word2_cost (word2_cost h) E.
  - unfold three_c in *. fwdcase word3_cost (word3_cost h) E.
  - unfold four_c in *. fwdcase word4_cost (word4_cost h) E.
Qed.
Lemma rstrnstrn_cost h u : SvSearch.reads h u ->
  cost (rstrnstrn_c (length u) h (length t) nd) <= 10 * length t + 4 * length u.
Proof.
  intros Hh. pose proof nd_pos as Hn. unfold rstrnstrn_c. destruct (_ || _) eqn:E0; [cbn; lia|].
  apply orb_false_iff in E0 as [_ E0]. apply Nat.ltb_ge in E0.
  assert (cost (rmatch_tw_c (length u) h (length t) nd) <= 10 * length t + 4 * length u) as Htw.
  { destruct (tw_rmatch_Ok h u nd t Hh Hnd Hb Hn) as (r & E & _). rewrite <- rmatch_tw_val in E. unfold rmatch_tw_c in *.
    apply val_Ok in E as (o & Eo & E). rewrite (cost_Ok _ _ o Eo).
    assert (forall p sz i, cost (bwd_c p sz i) <= 1) as Hc by (intros p sz i; by apply (cost_le _ _ 0 1)).
    assert (forall i, i < length t -> val (bwd_c nd (length t) i) = Ok (nth_of t (length t - (i + 1)))) as Hx.
    { intros i Hi. unfold bwd_c. rewrite (val_bind _ _ _ (fun j => rd nd j) eq_refl); [|done]. cbn [free val]. unfold minus.
      destruct (Nat.leb_spec (i + 1) (length t)) as [_|]; [|lia]. cbn [obind mbind outcome_bind]. apply Hnd. lia. }
    apply (two_way_cost _ _ _ _ (Hc _ _) (Hc _ _) (fun i => nth_of t (length t - (i + 1))) Hx) in Eo as [Hf Ho]; [|done|done].
    destruct o as [l|]; unfold from, upto in *; cbn [ret free cost]; lia. }
  clear Hne. destruct (length t) as [|[|[|[|[|n]]]]] eqn:El; [lia| | | | |by apply Htw].
  - etrans; [apply (cost_le _ _ 1 (length u + 0)); [done|intros c _]; apply cost_le; [apply rchr_cost|intros ? _; cbn; lia]|lia].
  - etrans; [apply (cost_le _ _ 2 (2 + length u)); [apply word2_cost|intros c _]; apply cost_le; [apply word2_cost|intros ? _; apply backward_cost]|lia].
  - etrans; [apply (cost_le _ _ 3 (3 + length u)); [apply rword3_cost|intros c _]; apply cost_le; [apply rword3_cost|intros ? _; apply backward_cost]|lia].
  - etrans; [apply (cost_le _ _ 4 (4 + length u)); [apply word4_cost|intros c _]; apply cost_le; [apply word4_cost|intros ? _; apply backward_cost]|lia].
Qed.
End needle.

Lemma find_cost hay needle h n pos : shows hay h -> shows needle n -> n <> [] ->
  cost (find_c hay pos needle) <= 10 * length n + 4 * (length h - pos).
Proof.
  intros Hh Hn Hne. destruct (find_Ok hay needle h n Hh Hn Hne pos) as (r & E & _). rewrite <- find_val in E. unfold find_c in *.
  rewrite (shows_len _ _ Hh), (shows_len _ _ Hn) in *. destruct (_ || _); [cbn; lia|].
  apply val_Ok in E as (r' & Er & E). rewrite (cost_Ok _ _ r' Er).
  apply strnstrn_cost in Er as [_ Hr]; [|exact (shows_reads _ _ Hn)|intros i; exact (shows_bytes _ _ i Hn)|done]. cbn [ret free cost]. lia.
Qed.
Lemma contains_cost hay needle h n : shows hay h -> shows needle n -> n <> [] ->
  cost (contains_c hay needle) <= 10 * length n + 4 * length h.
Proof.
  intros Hh Hn Hne. destruct (contains_Ok hay needle h n Hh Hn Hne) as (r & E & _). rewrite <- contains_val in E. unfold contains_c in *.
  rewrite (shows_len _ _ Hh), (shows_len _ _ Hn) in *. do 3 (destruct (_ : bool) in E |- *; [cbn; lia|]).
  apply val_Ok in E as (r' & Er & E). rewrite (cost_Ok _ _ r' Er).
  apply strnstrn_cost in Er as [_ Hr]; [|exact (shows_reads _ _ Hn)|intros i; exact (shows_bytes _ _ i Hn)|done]. cbn [ret free cost]. lia.
Qed.
Lemma match_cost hay needle h n : shows hay h -> shows needle n -> n <> [] ->
  cost (match_c hay needle) <= 10 * length n + 4 * length h.
Proof.
  intros Hh Hn Hne. destruct (match_Ok hay needle h n Hh Hn Hne) as (r & E & _). rewrite <- match_val in E. unfold match_c in *.
  rewrite (shows_len _ _ Hh), (shows_len _ _ Hn) in *. destruct (_ || _); [cbn; lia|]. destruct (_ || _ || _); [cbn; lia|].
  apply val_Ok in E as (r' & Er & E). rewrite (cost_Ok _ _ r' Er).
  apply strnstrn_cost in Er as [_ Hr]; [|exact (shows_reads _ _ Hn)|intros i; exact (shows_bytes _ _ i Hn)|done]. cbn [ret free cost]. lia.
Qed.
Lemma rfind_cost hay needle h n pos : shows hay h -> shows needle n -> n <> [] ->
  cost (rfind_c hay pos needle) <= 10 * length n + 4 * min (length h) (pos + 1).
Proof.
  intros Hh Hn Hne. unfold rfind_c. rewrite (shows_len _ _ Hh), (shows_len _ _ Hn).
  destruct (Nat.eqb_spec (length h) 0) as [E0|E0]; cbn [orb]; [cbn; lia|]. destruct (_ <? _); [cbn; lia|]. cbv zeta.
  set (q := if length h <=? pos then length h - 1 else pos).
  assert (q + 1 = min (length h) (pos + 1)) as Eq by (unfold q; destruct (Nat.leb_spec (length h) pos); lia).
  pose proof (shows_take hay h (q + 1) Hh ltac:(lia)) as Ht. assert (length (take (q + 1) h) = q + 1) as El by (rewrite take_length; lia).
  etrans; [apply (cost_le _ _ (10 * length n + 4 * (q + 1)) 0)|lia]; [|intros r _; cbn; lia]. rewrite <- El at 1.
  etrans; [apply rstrnstrn_cost; [exact (shows_reads _ _ Hn)|intros i; exact (shows_bytes _ _ i Hn)|done|exact (shows_reads _ _ Ht)]|lia].
Qed.
Lemma rmatch_cost hay needle h n : shows hay h -> shows needle n -> n <> [] ->
  cost (rmatch_c hay needle) <= 10 * length n + 4 * length h.
Proof.
  intros Hh Hn Hne. unfold rmatch_c. rewrite (shows_len _ _ Hh), (shows_len _ _ Hn). destruct (is_null _); [cbn; lia|].
  destruct (_ || _); [cbn; lia|]. etrans; [apply (cost_le _ _ (10 * length n + 4 * length h) 0)|lia]; [|intros r _; cbn; lia].
  apply rstrnstrn_cost; [exact (shows_reads _ _ Hn)|intros i; exact (shows_bytes _ _ i Hn)|done|exact (shows_reads _ _ Hh)].
Qed.

(** ** Tokens *)
Section tokens.
Context (delim : view) (d : text) (Hd : shows delim d) (Hne : d <> []).

Lemma d_pos : 1 <= length d.
Proof. destruct d; [done|cbn; lia]. Qed.
Lemma after_cost u n : forall j i j' i', j < length d -> val (after_c n u delim j i) = Ok (i', j') ->
  i <= i' /\ j' < length d /\ cost (after_c n u delim j i) <= 2 * (i' + 1 - i).
Proof.
  pose proof d_pos as Hp. induction n as [|n IH]; intros j i j' i' Hj E; cbn [after_c] in *; [injection E as <- <-; cbn; lia|].
  apply val_Ok in E as (a & Ea & E). apply val_Ok in E as (b & Eb & E). rewrite (cost_Ok _ _ a Ea), (cost_Ok _ _ b Eb). cbn [crd cost].
  rewrite (shows_len _ _ Hd) in *. destruct (a =? b)%N; [|injection E as <- <-; cbn [ret free cost]; lia].
  destruct (Nat.eqb_spec (length d) 0); [lia|]. apply IH in E; [lia|]. apply Nat.mod_upper_bound. lia.
Qed.
Lemma after_find_cost u k : val (after_find_c u delim) = Ok k -> cost (after_find_c u delim) <= 2 * (k + length d).
Proof.
  pose proof d_pos as Hp. unfold after_find_c. intros E. destruct (_ <? _); [cbn; lia|].
  apply val_Ok in E as ([i j] & Ei & E). rewrite (cost_Ok _ _ _ Ei). apply after_cost in Ei; [|lia].
  cbn [free val cost] in *. unfold minus in E. destruct (Nat.leb_spec j i); [|done]. injection E as <-. lia.
Qed.

Context (src : view).
Local Notation fin := (off (s src) + len src).
Local Notation stops tok := (off (s tok) + len tok).
Lemma minus_inv a b c : minus a b = Ok c -> b <= a /\ c = a - b.
Proof. unfold minus. destruct (Nat.leb_spec b a); [|done]. by intros [= <-]. Qed.
(** Either the loop ends with the next token or that one is at least a delimiter later. *)
Lemma next_tok_cost tok next : val (next_tok_c src tok delim) = Ok next -> stops tok <= fin ->
  (sv_end_tok src next = true /\ cost (next_tok_c src tok delim) <= 17 * (fin - stops tok) + 1) \/
  (stops next <= fin /\ cost (next_tok_c src tok delim) + 17 * (fin - stops next) <= 17 * (fin - stops tok)).
Proof.
  pose proof d_pos as Hp. unfold next_tok_c. intros E Hle.
  destruct (is_null (s tok)); [injection E as <-; left; cbn; split; [done|lia]|].
  rewrite (shows_not_null _ _ Hd) in *. apply val_Ok in E as (stop & Es & E). rewrite (cost_Ok _ _ stop Es).
  apply val_Ok in Es as (b & Eb & Es). rewrite (cost_Ok _ _ b Eb). cbn [crd ret free cost] in *.
  destruct stop; [injection E as <-; left; cbn; split; [done|lia]|]. cbv zeta in *. cbn [plus off] in *. rewrite (shows_len _ _ Hd) in *.
  destruct (Nat.leb_spec fin (stops tok)) as [Hend|Hend]; [injection E as <-; left; cbn; split; [done|lia]|].
  apply val_Ok in E as (x & Ex & E). rewrite (cost_Ok _ _ x Ex). apply minus_inv in Ex as [Hx ->].
  apply val_Ok in E as (n & En & E). rewrite (cost_Ok _ _ n En). apply minus_inv in En as [Hn ->].
  apply val_Ok in E as (k & Ek & E). rewrite (cost_Ok _ _ k Ek). apply after_find_cost in Ek.
  apply val_Ok in E as (n & En & E). rewrite (cost_Ok _ _ n En). apply minus_inv in En as [Hn' ->]. cbn [free cost] in *.
  destruct (Nat.leb_spec fin (off (s tok) + len tok + length d + k)) as [Hend'|Hend'].
  { injection E as <-. left. split; [done|]. cbn [ret free cost]. lia. }
  apply val_Ok in E as (f & Ef & E). rewrite (cost_Ok _ _ f Ef). injection E as <-.
  apply (strnstrn_cost (s delim) d (shows_reads _ _ Hd) (fun i => shows_bytes _ _ i Hd) Hne) in Ef as [Hf Cf].
  right. cbn [s len plus off ret free cost]. lia.
Qed.
Lemma tokens_loop_cost f : forall tok vs, val (tokens_loop_c f src tok delim) = Ok vs -> stops tok <= fin ->
  cost (tokens_loop_c f src tok delim) <= 17 * (fin - stops tok) + 1.
Proof.
  induction f as [|f IH]; intros tok vs E Hle; cbn [tokens_loop_c] in *; (destruct (sv_end_tok src tok) eqn:Eend; [cbn; lia|]); [cbn; lia|].
  apply val_Ok in E as (next & En & E). rewrite (cost_Ok _ _ next En). apply val_Ok in E as (l & El & E). rewrite (cost_Ok _ _ l El).
  cbn [ret free cost]. destruct (next_tok_cost tok next En Hle) as [[He C]|[Hn C]].
  - assert (cost (tokens_loop_c f src next delim) = 0) as -> by (destruct f; cbn [tokens_loop_c]; by rewrite He). lia.
  - specialize (IH next l El Hn). lia.
Qed.
Lemma tokens_cost t : shows src t -> head d <> Some 0%N -> cost (tokens_c src delim) <= 17 * (length t + length d).
Proof.
  intros Ht Hz. pose proof d_pos as Hp. destruct (all_tokens_Ok delim d Hd Hne src t Ht Hz) as (l & vs & _ & E & _). rewrite <- tokens_val in E.
  unfold tokens_c in *. apply val_Ok in E as (tok & Et & E). rewrite (cost_Ok _ _ tok Et). pose proof (shows_len _ _ Ht) as Hl.
  enough (sv_end_tok src tok = true /\ cost (begin_tok_c src delim) <= 2 * (length t + length d) \/
    stops tok <= fin /\ cost (begin_tok_c src delim) + 17 * (fin - stops tok) <= 17 * length t + 16 * length d) as [[He C]|[Hs C]].
  - assert (cost (tokens_loop_c (S (len src)) src tok delim) = 0) as -> by (cbn [tokens_loop_c]; by rewrite He). lia.
  - apply tokens_loop_cost in E; [|done]. lia.
  - clear E. unfold begin_tok_c in *. rewrite (shows_not_null _ _ Ht), (shows_not_null _ _ Hd) in *.
    apply val_Ok in Et as (k & Ek & Et). rewrite (cost_Ok _ _ k Ek). apply after_find_cost in Ek as Ck.
    destruct (Nat.eqb_spec k (len src)) as [->|Hk]; [injection Et as <-; left; split; [done|cbn [ret free cost]; lia]|].
    apply val_Ok in Et as (n & En & Et). rewrite (cost_Ok _ _ n En). apply minus_inv in En as [Hn ->].
    apply val_Ok in Et as (f & Ef & Et). rewrite (cost_Ok _ _ f Ef). injection Et as <-. right. cbn [ret free cost s off plus len].
    unfold find_c in *. cbn [len s] in *. rewrite (shows_len _ _ Hd) in *.
    destruct (_ || _); [injection Ef as <-; cbn [ret free cost]; lia|].
    apply val_Ok in Ef as (r & Er & Ef). rewrite (cost_Ok _ _ r Er). injection Ef as <-.
    apply (strnstrn_cost (s delim) d (shows_reads _ _ Hd) (fun i => shows_bytes _ _ i Hd) Hne) in Er as [Hf Cf]. cbn [ret free cost]. lia.
Qed.
End tokens.
