(** Vocabulary for taking an object out of a graph. *)
From Coq Require Import String.
From stdpp Require Import prelude gmap.
From Verif Require Import PyStr PyHeap Schema Assoc AssocSpec History.

(** The ends of associations: the four kinds of properties with an inverse
    that is kept up to date. *)
Definition end_kind (k : option prop) : bool :=
  match k with Some (POneMany _ | PManyOne _ | POneOne _ | PManyMany _) => true | _ => false end.
Definition end_key (S : schema) (h : heap) (x : nat) (k : key) : bool :=
  match k with Priv p => end_kind (pkind S h x p) | Pub _ => false end.
(** [x] refers to [o] through the end [p]. *)
Definition points (S : schema) (h : heap) (x : nat) (p : name) (o : nat) : Prop :=
  end_kind (pkind S h x p) = true ∧
  (view h x (Priv p) = Some (OV (VRef o)) ∨ ∃ ys, view h x (Priv p) = Some (OL ys) ∧ VRef o ∈ ys).
(** What is left of an end when [o] is taken out, and when all is. *)
Definition forget (o : nat) (w : ov) : ov :=
  match w with
  | OV v => if decide (v = VRef o) then OV VNone else OV v
  | OL ys => OL (filter (λ y, y ≠ VRef o) ys)
  end.
Definition emptied (w : ov) : ov := match w with OV _ => OV VNone | OL _ => OL [] end.

(** A client that takes [o] out: [o.p = None] for single ends, [o.p = []] for
    the collections of one-to-many associations, and
    [o.removeP( *o.p )] for those of many-to-many associations (which cannot
    be reassigned, C12). *)
Definition clear (S : schema) (fuel : nat) (o : nat) (p : name) : M unit := λ h,
  match pkind S h o p with
  | Some (POneMany _) | Some (POneOne _) => run_op S fuel (OSet o p VNone) h
  | Some (PManyOne _) => run_op S fuel (OSetList o p []) h
  | Some (PManyMany _) =>
      (let* l := getattr S (VRef o) p in let* xs := iter_val l in remove S fuel (VRef o) p xs) h
  | _ => (inl tt, h)
  end.
Definition take_out (S : schema) (fuel : nat) (o : nat) (ps : list name) : M unit := for_each ps (clear S fuel o).
