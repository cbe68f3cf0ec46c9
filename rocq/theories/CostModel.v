(** The loops of the splay tree maps with a count of the iterations they run.
    Every function here is the function of the same name in TreeModel.v with
    nothing but the count added; CostErase.v proves so. *)
From stdpp Require Import base numbers option gmap fin_maps list.
From Verif Require Import Common LinkHeap TreeModel.

(** Work done by a call: iterations of the loop of splay, and iterations of the
    loops of min, max and next, which follow links from node to node. *)
Record work : Type := Work { turns : nat; hops : nat }.
Definition idle : work := Work 0 0.
Definition add_work (a b : work) : work := Work (turns a + turns b) (hops a + hops b).

Notation counted A := (outcome (A * work)).
Definition gratis {A} (m : outcome A) : counted A := a ← m; Ok (a, idle).
Definition still {A} (a : A) : counted A := Ok (a, idle).
Definition hopping {A} (m : outcome (A * nat)) : counted A := '(a, n) ← m; Ok (a, Work 0 n).
Definition cbind {A B} (f : A -> counted B) (m : counted A) : counted B :=
  '(a, w) ← m; '(b, w') ← f a; Ok (b, add_work w w').
Notation "x ⇐ y ; z" := (cbind (fun x => z) y)
  (at level 20, y at level 100, z at level 200, only parsing).
Notation "' x ⇐ y ; z" := (cbind (fun x => z) y)
  (at level 20, x pattern, y at level 100, z at level 200, only parsing).

Section model.
Context (nil : nat).

Fixpoint splay_loop_c (link : links -> nat -> bool -> nat -> outcome links) (probe : nat -> outcome comparison)
    (fuel : nat) (h : links) (sl sr root : nat) : outcome (links * nat * nat * nat * nat) :=
  match fuel with
  | 0 => Fuel
  | S f =>
    root_cmp ← probe root;
    let dir := is_gt root_cmp in
    if is_eq root_cmp then Ok (h, sl, sr, root, 1)
    else
      c ← rd (br h dir) root;
      if c =? nil then Ok (h, sl, sr, root, 1)
      else
        child_cmp ← probe c;
        '(h1, root1, stop) ←
          (if negb (is_eq child_cmp) && Bool.eqb dir (is_gt child_cmp) then
             g ← rd (br h (negb dir)) c;
             h1 ← link h root dir g;
             h2 ← link h1 c (negb dir) root;
             g' ← rd (br h2 dir) c;
             Ok (h2, c, g' =? nil)
           else Ok (h, root, false));
        if (stop : bool) then Ok (h1, sl, sr, root1, 1)
        else
          h2 ← link h1 (if dir then sl else sr) dir root1;
          next ← rd (br h2 dir) root1;
          '(r, n) ← splay_loop_c link probe f h2 (if dir then root1 else sl) (if dir then sr else root1) next;
          Ok (r, S n)
  end.

Definition splay_by_c (link : links -> nat -> bool -> nat -> outcome links) (probe : nat -> outcome comparison)
    (h : links) (root : nat) : outcome (links * nat * nat) :=
  h0 ← set_links h nil nil;
  '(h1, sl, sr, r, n) ← splay_loop_c link probe (S (size (lf h0))) h0 nil nil root;
  a ← rd (lf h1) r;
  h2 ← link h1 sl true a;
  b ← rd (rt h2) r;
  h3 ← link h2 sr false b;
  a' ← rd (rt h3) nil;
  h4 ← link h3 r false a';
  b' ← rd (lf h4) nil;
  h5 ← link h4 r true b';
  h6 ← link h5 nil false r;
  Ok (h6, r, n).

Fixpoint edge_loop_c (fuel : nat) (h : links) (d : bool) (n : nat) : outcome (nat * nat) :=
  match fuel with
  | 0 => Fuel
  | S f =>
    c ← rd (br h d) n;
    if c =? nil then Ok (n, 1) else '(r, i) ← edge_loop_c f h d c; Ok (r, S i)
  end.
Definition edge_c (h : links) (d : bool) (n : nat) : outcome (nat * nat) :=
  edge_loop_c (S (size (lf h))) h d n.

Fixpoint climb_c (fuel : nat) (h : links) (d : bool) (n p : nat) : outcome (nat * nat) :=
  match fuel with
  | 0 => Fuel
  | S f =>
    if p =? nil then Ok (p, 1)
    else
      c ← rd (br h (negb d)) p;
      if c =? n then Ok (p, 1)
      else p' ← rd (pa h) p; '(r, i) ← climb_c f h d p p'; Ok (r, S i)
  end.

Definition tree_next_c (h : links) (root : nat) (d : bool) (n : nat) : outcome (nat * nat) :=
  rp ← rd (pa h) root;
  _ ← oassert (rp =? nil);
  c ← rd (br h d) n;
  if negb (c =? nil) then edge_c h (negb d) c
  else p ← rd (pa h) n; climb_c (S (size (lf h))) h d n p.
End model.
