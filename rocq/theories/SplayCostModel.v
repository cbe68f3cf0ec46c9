(** The functions of SplayModel.v that splay, with a count of the iterations of the
    loop of splay. Nothing but the count is added; the lemma says so. *)
From stdpp Require Import base numbers option gmap fin_maps list.
From Verif Require Import Common LinkHeap TreeModel CostModel CostErase SplayModel.

Section model.
Context {K V : Type} (cmp : K -> K -> comparison) (nil : nat).

(** remove_from_tree: [detach_by]. *)
Definition detach_by_c (link : links -> nat -> bool -> nat -> outcome links)
    (dat : gmap nat (K * V)) (h : links) (ret : nat) : outcome (links * nat * nat) :=
  l ← rd (lf h) ret;
  if l =? nil then
    r ← rd (rt h) ret;
    h1 ← link h nil false r;
    Ok (h1, r, 0)
  else
    kv ← value dat ret;
    '(h1, x, n) ← splay_by_c nil link (cmpk cmp dat (fst kv)) h l;
    r ← rd (rt h1) ret;
    h2 ← link h1 x true r;
    Ok (h2, x, n).

Lemma detach_by_erase link dat h ret :
  detach_by cmp nil link dat h ret = erase_count (detach_by_c link dat h ret).
Proof.
  unfold detach_by, detach_by_c. destruct (rd (lf h) ret) as [l| |]; try done. cbn [mbind outcome_bind obind].
  destruct (l =? nil).
  - destruct (rd (rt h) ret) as [r| |]; try done. cbn [mbind outcome_bind obind]. by destruct (link h nil false r).
  - destruct (value dat ret) as [kv| |]; try done. cbn [mbind outcome_bind obind]. rewrite splay_by_erase.
    destruct (splay_by_c _ _ _ _ _) as [[[h1 x] n]| |]; try done. cbn [erase_count mbind outcome_bind obind].
    destruct (rd (rt h1) ret) as [r| |]; try done. cbn [mbind outcome_bind obind]. by destruct (link h1 x true r).
Qed.
End model.
