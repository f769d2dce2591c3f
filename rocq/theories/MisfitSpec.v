(** Vocabulary for assigning and adding objects of classes that an association
    does not lead to. *)
From stdpp Require Import prelude gmap.
From Verif Require Import PyStr PyHeap Schema AssocSpec.

(** [w] has no collection [q] to be entered in: what is raised. *)
Definition misfit (h : heap) (q : name) (w : val) (e : exn) : Prop :=
  match w with
  | VNone | VList _ => False
  | VRef y => is_Some (cls_of h y) ∧
      (view h y (Priv q) = None ∧ e = AttributeError ∨ ∃ v, view h y (Priv q) = Some (OV v) ∧ e = TypeError)
  | _ => e = AttributeError
  end.
(** A number or a string. *)
Definition atom (w : val) : Prop := match w with VBool _ | VInt _ | VFloat _ | VStr _ => True | _ => False end.

(** [x] has left the collection it was in and its end [p] is [w]; nothing else
    is different. *)
Record Breaks (V V' : nat → key → option ov) (x : nat) (p q : name) (w : val) : Prop := {
  br_self : V' x (Priv p) = Some (OV w);
  br_old : ∀ u xs, V x (Priv p) = Some (OV (VRef u)) → V u (Priv q) = Some (OL xs) →
    V' u (Priv q) = Some (OL (filter (λ y, y ≠ VRef x) xs));
  br_frame : ∀ o k, (o, k) ≠ (x, Priv p) → (k = Priv q → V x (Priv p) ≠ Some (OV (VRef o))) → V' o k = V o k
}.
(** The partner of [x] is free, the end [p] of [x] is [w]. *)
Record Parts (V V' : nat → key → option ov) (x : nat) (p q : name) (w : val) : Prop := {
  pa_self : V' x (Priv p) = Some (OV w);
  pa_old : ∀ u, V x (Priv p) = Some (OV (VRef u)) → w ≠ VRef u → V' u (Priv q) = Some (OV VNone);
  pa_frame : ∀ o k, (o, k) ≠ (x, Priv p) → (k = Priv q → w ≠ VRef o ∧ V x (Priv p) ≠ Some (OV (VRef o))) →
    (w = VRef o → k ≠ key_of q) → V' o k = V o k
}.
