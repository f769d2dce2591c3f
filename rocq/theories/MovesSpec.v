(** Vocabulary for the order of assignments. *)
From Coq Require Import String.
From stdpp Require Import prelude gmap.
From Verif Require Import PyStr PyHeap Schema AssocSpec History HistorySpec Assoc TableSpec.

(** An attribute or single end of an object, and the value it gets. *)
Definition move : Type := nat * key * val.

Section moves.
Context (S : schema) (h : heap).
(** Statements that give values to attributes and single ends of one-to-many
    associations, and the values they give: assignments of the attribute, of
    the end or of another name of it; add* and remove* of the collection at
    the other end. *)
Inductive moves : op → list move → Prop :=
  | mv_plain x a v : pkind S h x a = None → is_Some (cls_of h x) → public_name a → not_list v →
      moves (OSet x a v) [(x, Pub a, v)]
  | mv_single x p q v : pkind S h x p = Some (POneMany q) → has_slot h x p → fits_one_many S h x p q v →
      moves (OSet x p v) [(x, Priv p, v)]
  | mv_alias x a p c q v : pkind S h x a = Some (PAlias p c) →
      pkind S h x p = Some (POneMany q) → has_slot h x p → fits_one_many S h x p q v →
      moves (OSet x a v) [(x, Priv p, v)]
  | mv_add t q p' p ys xs : pkind S h t q = Some (PManyOne p') → view h t (Priv q) = Some (OL ys) →
      (∀ x, x ∈ xs → ends_one_many (pkind S h) x p t q ∧ resolves (pkind S h) x p' p ∧ has_slot h x p) →
      moves (OAdd t q xs) (map (λ x, (x, Priv p, VRef t)) xs)
  | mv_remove t q p' p xs : pkind S h t q = Some (PManyOne p') →
      (∀ x, x ∈ xs → pkind S h x p = Some (POneMany q) ∧ resolves (pkind S h) x p' p ∧ has_slot h x p) →
      moves (ORemove t q xs) (map (λ x, (x, Priv p, VNone)) xs).
End moves.

(** The two are the ends of an association ([ends_one_many]). *)
Definition joins (K : nat → name → option prop) (x : nat) (k : key) (t : nat) (q : name) : bool :=
  match k with
  | Priv p =>
      match K x p, K t q with
      | Some (POneMany q'), Some (PManyOne p') =>
          bool_decide (q' = q) && match K x p' with Some (PAlias p2 _) => bool_decide (p2 = p) | _ => bool_decide (p' = p) end
      | _, _ => false
      end
  | _ => false
  end.
(** The members of the collection [t.q] that get a new value at their end of it. *)
Definition leaves (K : nat → name → option prop) (l : list move) (t : nat) (q : name) (y : val) : bool :=
  existsb (λ m : move, bool_decide (y = VRef m.1.1) && joins K m.1.1 m.1.2 t q) l.
(** The objects that come to refer to [t], in turn. *)
Definition arrivals (K : nat → name → option prop) (l : list move) (t : nat) (q : name) : list val :=
  omap (λ m : move, if joins K m.1.1 m.1.2 t q && bool_decide (m.2 = VRef t) then Some (VRef m.1.1) else None) l.
(** What the moves do: the values are there, the collections at the other ends
    follow, and nothing else changes. *)
Record Moved (K : nat → name → option prop) (V V' : nat → key → option ov) (l : list move) : Prop := {
  md_value : ∀ x k v, (x, k, v) ∈ l → V' x k = Some (OV v);
  md_coll : ∀ t q p' ys, K t q = Some (PManyOne p') → V t (Priv q) = Some (OL ys) →
    V' t (Priv q) = Some (OL (filter (λ y, leaves K l t q y = false) ys ++ arrivals K l t q));
  md_frame : ∀ o k, (∀ v, (o, k, v) ∉ l) → (∀ q p' ys, k = Priv q → K o q = Some (PManyOne p') → V o k ≠ Some (OL ys)) → V' o k = V o k
}.
