(** Specification vocabulary for object graphs: what a caller can observe of a
    heap, and what it means for the references of a graph to be mutually
    consistent.  Nothing here uses the code model of Assoc.v except the lookup
    of a property in the class table. *)
From stdpp Require Import prelude gmap.
From Verif Require Import PyStr PyHeap Schema.

(** What a caller sees in a slot: a value, or the members of a list. *)
Inductive ov := OV (v : val) | OL (xs : list val).
Global Instance ov_eq_dec : EqDecision ov.
Proof. solve_decision. Defined.

Definition view (h : heap) (o : nat) (k : key) : option ov :=
  v ← slot h o k;
  match v with
  | VList l => OL <$> h_lists h !! l
  | v => Some (OV v)
  end.

(** Property table of the objects of a heap. *)
Definition pkind (S : schema) (h : heap) (o : nat) (p : name) : option prop :=
  c ← cls_of h o; lookup_prop S c p.

(** Memory hygiene: every list stored in a slot exists and is stored in that
    slot only. *)
Record Wf (h : heap) : Prop := {
  wf_lists : ∀ o k l, slot h o k = Some (VList l) → is_Some (h_lists h !! l);
  wf_unshared : ∀ o k o' k' l,
    slot h o k = Some (VList l) → slot h o' k' = Some (VList l) → o = o' ∧ k = k'
}.

Section links.
Context (K : nat → name → option prop) (V : nat → key → option ov).

(** The property the collection's members are reached by: [p], or the property
    [p] is an alias of. *)
Definition resolves (x : nat) (p' p : name) : Prop :=
  p' = p ∧ (∀ t c, K x p' ≠ Some (PAlias t c)) ∨ (∃ c, K x p' = Some (PAlias p c)).

(** [x.p] (single) and [t.q] (collection) are the two ends of one
    association. *)
Definition ends_one_many (x : nat) (p : name) (t : nat) (q : name) : Prop :=
  K x p = Some (POneMany q) ∧ ∃ p', K t q = Some (PManyOne p') ∧ resolves x p' p.
Definition ends_one_one (x : nat) (p : name) (y : nat) (q : name) : Prop :=
  K x p = Some (POneOne q) ∧ K y q = Some (POneOne p).
Definition ends_many_many (x : nat) (p : name) (y : nat) (q : name) : Prop :=
  K x p = Some (PManyMany q) ∧ K y q = Some (PManyMany p).

(** References are mutually consistent. *)
Record Links : Prop := {
  lk_single : ∀ x p q w, K x p = Some (POneMany q) → V x (Priv p) = Some w →
    w = OV VNone ∨
    ∃ t ys, w = OV (VRef t) ∧ ends_one_many x p t q ∧
            V t (Priv q) = Some (OL ys) ∧ VRef x ∈ ys;
  lk_coll : ∀ t q p' w, K t q = Some (PManyOne p') → V t (Priv q) = Some w →
    ∃ ys, w = OL ys ∧ NoDup ys ∧
          ∀ y, y ∈ ys → ∃ x p, y = VRef x ∧ ends_one_many x p t q ∧
                              V x (Priv p) = Some (OV (VRef t));
  lk_one_one : ∀ x p q w, K x p = Some (POneOne q) → V x (Priv p) = Some w →
    w = OV VNone ∨
    ∃ y, w = OV (VRef y) ∧ ends_one_one x p y q ∧ V y (Priv q) = Some (OV (VRef x));
  lk_many_many : ∀ x p q w, K x p = Some (PManyMany q) → V x (Priv p) = Some w →
    ∃ ys, w = OL ys ∧
          ∀ e, e ∈ ys → ∃ y xs, e = VRef y ∧ ends_many_many x p y q ∧
                                V y (Priv q) = Some (OL xs) ∧ VRef x ∈ xs
}.
End links.

(** A consistent object graph. *)
Definition Consistent (S : schema) (h : heap) : Prop :=
  Wf h ∧ Links (pkind S h) (view h).

(** No object appears, disappears or changes class. *)
Definition same_classes (h h' : heap) : Prop := ∀ o, cls_of h' o = cls_of h o.

(** Effect of an assignment [x.p = w] to the single end of a one-to-many
    association with inverse [q], from view [V] to view [V']. *)
Record SetSingle (V V' : nat → key → option ov) (x : nat) (p q : name) (w : val) : Prop := {
  ss_self : V' x (Priv p) = Some (OV w);
  ss_new : ∀ t ys, w = VRef t → V t (Priv q) = Some (OL ys) →
    V' t (Priv q) = Some (OL (filter (λ y, y ≠ VRef x) ys ++ [VRef x]));
  ss_old : ∀ u xs, V x (Priv p) = Some (OV (VRef u)) → w ≠ VRef u →
    V u (Priv q) = Some (OL xs) →
    V' u (Priv q) = Some (OL (filter (λ y, y ≠ VRef x) xs));
  ss_frame : ∀ o k, (o, k) ≠ (x, Priv p) →
    (k = Priv q → w ≠ VRef o ∧ V x (Priv p) ≠ Some (OV (VRef o))) →
    V' o k = V o k
}.

(** Effect of [x.p = w] on a one-to-one association with inverse [q]. *)
Record SetPair (V V' : nat → key → option ov) (x : nat) (p q : name) (w : val) : Prop := {
  sp_self : V' x (Priv p) = Some (OV w);
  sp_new : ∀ y, w = VRef y → V' y (Priv q) = Some (OV (VRef x));
  sp_old : ∀ u, V x (Priv p) = Some (OV (VRef u)) → w ≠ VRef u →
    V' u (Priv q) = Some (OV VNone);
  sp_widow : ∀ y z, w = VRef y → V y (Priv q) = Some (OV (VRef z)) → z ≠ x →
    V' z (Priv p) = Some (OV VNone);
  sp_frame : ∀ o k, (o, k) ≠ (x, Priv p) →
    (k = Priv q → w ≠ VRef o ∧ V x (Priv p) ≠ Some (OV (VRef o))) →
    (k = Priv p → ∀ y, w = VRef y → V y (Priv q) ≠ Some (OV (VRef o))) →
    V' o k = V o k
}.

(** Effect of assigning the collection [t.q = [ys...]], whose inverse is
    [p]. *)
Record SetColl (K : nat → name → option prop) (V V' : nat → key → option ov)
    (t : nat) (q p : name) (ys : list nat) : Prop := {
  sc_self : V' t (Priv q) = Some (OL (map VRef ys));
  sc_new : ∀ y, y ∈ ys → V' y (Priv p) = Some (OV (VRef t));
  sc_old : ∀ xs z pz, V t (Priv q) = Some (OL xs) → VRef z ∈ xs → z ∉ ys →
    ends_one_many K z pz t q → V' z (Priv pz) = Some (OV VNone);
  sc_frame : ∀ o k, (o, k) ≠ (t, Priv q) →
    (o ∈ ys → k ≠ Priv p) →
    (∀ xs pz, k = Priv pz → V t (Priv q) = Some (OL xs) → VRef o ∈ xs → ¬ ends_one_many K o pz t q) →
    V' o k = V o k
}.

(** Effect of [x.addP(y)] on a many-to-many association with inverse [q]: [y]
    is appended to [x.p], and [x] to [y.q] unless it is there already. *)
Record AddMany (V V' : nat → key → option ov) (x : nat) (p : name) (y : nat) (q : name) : Prop := {
  am_self : ∀ ps, V x (Priv p) = Some (OL ps) → V' x (Priv p) = Some (OL (ps ++ [VRef y]));
  am_other : ∀ qs, V y (Priv q) = Some (OL qs) →
    V' y (Priv q) = Some (OL (if decide (VRef x ∈ qs) then qs else qs ++ [VRef x]));
  am_frame : ∀ o k, (o, k) ≠ (x, Priv p) → (o, k) ≠ (y, Priv q) → V' o k = V o k
}.

(** Effect of [x.removeP(y)] on a many-to-many association: one [y] leaves
    [x.p] and one [x] leaves [y.q]. *)
Record RemoveMany (V V' : nat → key → option ov) (x : nat) (p : name) (y : nat) (q : name) : Prop := {
  rm_self : ∃ a b, V x (Priv p) = Some (OL (a ++ VRef y :: b)) ∧ VRef y ∉ a ∧
    V' x (Priv p) = Some (OL (a ++ b));
  rm_other : ∃ a b, V y (Priv q) = Some (OL (a ++ VRef x :: b)) ∧ VRef x ∉ a ∧
    V' y (Priv q) = Some (OL (a ++ b));
  rm_frame : ∀ o k, (o, k) ≠ (x, Priv p) → (o, k) ≠ (y, Priv q) → V' o k = V o k
}.

(** Many-to-many collections without repetitions. *)
Definition MMNoDup (K : nat → name → option prop) (V : nat → key → option ov) : Prop :=
  ∀ x p q ys, K x p = Some (PManyMany q) → V x (Priv p) = Some (OL ys) → NoDup ys.

(** Effect of assigning [w] to the single end [p] of every object of [xs] in
    turn, where [q] is the inverse of [p]: [addQ] with [w] the collection's
    owner, [removeQ] with [w] None.  Objects listed twice count once, at their
    last position ([remove_dups] keeps last occurrences). *)
Record AssignAll (V V' : nat → key → option ov) (xs : list nat) (p q : name) (w : val) : Prop := {
  aa_member : ∀ x, x ∈ xs → V' x (Priv p) = Some (OV w);
  aa_new : ∀ t ys, w = VRef t → V t (Priv q) = Some (OL ys) →
    V' t (Priv q) = Some (OL (filter (λ y, y ∉ map VRef xs) ys ++ remove_dups (map VRef xs)));
  aa_old : ∀ u zs, w ≠ VRef u → V u (Priv q) = Some (OL zs) →
    V' u (Priv q) = Some (OL (filter (λ y, y ∉ map VRef (filter (λ x, V x (Priv p) = Some (OV (VRef u))) xs)) zs));
  aa_frame : ∀ o k, (k = Priv p → o ∉ xs) →
    (k = Priv q → xs ≠ [] → w ≠ VRef o) → (k = Priv q → ∀ x, x ∈ xs → V x (Priv p) ≠ Some (OV (VRef o))) →
    V' o k = V o k
}.
