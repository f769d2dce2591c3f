(** Vocabulary for histories: the references of a graph as a table, and what
    each statement of a client does to the table. *)
From Coq Require Import String.
From stdpp Require Import prelude gmap.
From Verif Require Import PyStr PyHeap Schema AssocSpec History HistorySpec Assoc TableSpec Reader ReaderSpec.

(** The class of every object, the object each single end refers to, and the
    pairs of every many-to-many association. *)
Record graph := Graph { g_cls : nat → option name; g_one : nat → name → option nat; g_many : nat → name → nat → Prop }.

Section graph.
Context (S : schema).
Definition g_kind (G : graph) (o : nat) (p : name) : option prop := c ← g_cls G o; lookup_prop S c p.
Definition single (k : option prop) : Prop := match k with Some (POneMany _ | POneOne _) => True | _ => False end.

(** A heap with these references: single ends show the table, one-to-many
    collections the objects that refer to their owner, many-to-many
    collections the pairs. *)
Record Shows (h : heap) (G : graph) : Prop := {
  sh_cls : ∀ o, cls_of h o = g_cls G o;
  sh_one : ∀ x p t, g_one G x p = Some t ↔ single (g_kind G x p) ∧ view h x (Priv p) = Some (OV (VRef t));
  sh_none : ∀ x p w, single (g_kind G x p) → view h x (Priv p) = Some w → g_one G x p = None → w = OV VNone;
  sh_coll : ∀ t q p' ys, g_kind G t q = Some (PManyOne p') → view h t (Priv q) = Some (OL ys) →
    NoDup ys ∧ ∀ v, v ∈ ys ↔ ∃ x p, v = VRef x ∧ ends_one_many (g_kind G) x p t q ∧ g_one G x p = Some t;
  sh_many : ∀ x p q ys, g_kind G x p = Some (PManyMany q) → view h x (Priv p) = Some (OL ys) →
    NoDup ys ∧ ∀ v, v ∈ ys ↔ ∃ y, v = VRef y ∧ g_many G x p y;
  sh_pairs : ∀ x p y, g_many G x p y → ∃ q ys, g_kind G x p = Some (PManyMany q) ∧ view h x (Priv p) = Some (OL ys)
}.

(** The object a value refers to. *)
Definition target (v : val) : option nat := match v with VRef t => Some t | _ => None end.
(** The end [p] of all of [xs] refers to [w]. *)
Definition put (one : nat → name → option nat) (xs : list nat) (p : name) (w : option nat) : nat → name → option nat :=
  λ o r, if decide (r = p ∧ o ∈ xs) then w else one o r.
(** [x.p] refers to [w] and [w.q] back to [x]; the former partners of both refer
    to nothing. *)
Definition pair_up (one : nat → name → option nat) (x : nat) (p q : name) (w : option nat) : nat → name → option nat :=
  λ o r, if decide (o = x ∧ r = p) then w
         else if decide (r = q ∧ w = Some o) then Some x
         else if decide (r = q ∧ one x p = Some o) then None
         else if decide (r = p ∧ (y ← w; one y q) = Some o) then None
         else one o r.
(** [ys] and nothing else refer to [t] by the associations with inverse
    [q]. *)
Definition gather (K : nat → name → option prop) (one : nat → name → option nat) (t : nat) (q p : name) (ys : list nat) : nat → name → option nat :=
  λ o r, if decide (r = p ∧ o ∈ ys) then Some t
         else if decide (one o r = Some t ∧ K o r = Some (POneMany q)) then None
         else one o r.
(** The pairs of [t] with [ys], from both ends. *)
Definition pairs (t : nat) (q p : name) (ys : list nat) (x : nat) (r : name) (y : nat) : Prop :=
  (x = t ∧ r = q ∧ y ∈ ys) ∨ (x ∈ ys ∧ r = p ∧ y = t).

(** What each assignment, add* and remove* call does. *)
Inductive changes (G : graph) : op → graph → Prop :=
  | ch_plain x a v : match g_kind G x a with None | Some PPrivate => True | _ => False end → changes G (OSet x a v) G
  | ch_plain_list x a ys : g_kind G x a = None → changes G (OSetList x a ys) G
  | ch_single x p q v : g_kind G x p = Some (POneMany q) →
      changes G (OSet x p v) (Graph (g_cls G) (put (g_one G) [x] p (target v)) (g_many G))
  | ch_alias x a p c v : g_kind G x a = Some (PAlias p c) →
      changes G (OSet x a v) (Graph (g_cls G) (put (g_one G) [x] p (target v)) (g_many G))
  | ch_pair x p q v : g_kind G x p = Some (POneOne q) →
      changes G (OSet x p v) (Graph (g_cls G) (pair_up (g_one G) x p q (target v)) (g_many G))
  | ch_gather t q p ys : g_kind G t q = Some (PManyOne p) →
      changes G (OSetList t q ys) (Graph (g_cls G) (gather (g_kind G) (g_one G) t q p ys) (g_many G))
  | ch_link t q p ys : g_kind G t q = Some (PManyMany p) →
      changes G (OSetList t q ys) (Graph (g_cls G) (g_one G) (λ x r y, g_many G x r y ∨ pairs t q p ys x r y))
  | ch_add t q p' p ys : g_kind G t q = Some (PManyOne p') → (∀ y, y ∈ ys → resolves (g_kind G) y p' p) →
      changes G (OAdd t q ys) (Graph (g_cls G) (put (g_one G) ys p (Some t)) (g_many G))
  | ch_add_link t q p ys : g_kind G t q = Some (PManyMany p) →
      changes G (OAdd t q ys) (Graph (g_cls G) (g_one G) (λ x r y, g_many G x r y ∨ pairs t q p ys x r y))
  | ch_remove t q p' p ys : g_kind G t q = Some (PManyOne p') → (∀ y, y ∈ ys → resolves (g_kind G) y p' p) →
      changes G (ORemove t q ys) (Graph (g_cls G) (put (g_one G) ys p None) (g_many G))
  | ch_unlink t q p ys : g_kind G t q = Some (PManyMany p) →
      changes G (ORemove t q ys) (Graph (g_cls G) (g_one G) (λ x r y, g_many G x r y ∧ ¬ pairs t q p ys x r y)).

(** A new object without references. *)
Definition created (G : graph) (o : nat) (ck : name) : graph :=
  Graph (λ x, if decide (x = o) then Some ck else g_cls G x) (g_one G) (g_many G).
(** The single references a constructor sets, in the order of its statements. *)
Definition ref_names (c : cls) : list name :=
  flat_map (λ s, match s with SOne p => [p] | SImpedance => [u "SequenceImpedance"; u "PhaseImpedance"; u "PerLengthImpedance"] | _ => [] end) (c_steps c).
(** The references given to the constructors of a class and its bases: every
    class takes the arguments that are among its parameters and passes on the
    others. *)
Fixpoint given (cs : list cls) (kw : list (name * val)) : list (name * val) :=
  match cs with
  | [] => []
  | c :: r =>
      omap (λ p, _ ← assoc p (c_params c); v ← assoc p kw; if decide (v = VNone) then None else Some (p, v)) (ref_names c) ++
      given r (filter (λ '(k, _), assoc k (c_params c) = None) kw)
  end.
Definition plain_args (vs : list (name * val)) : list (name * arg) := map (λ '(n, v), (n, AVal v)) vs.

(** A history: a creation makes an object without references, and then assigns
    the references given to the constructor. *)
Inductive history : graph → list op → graph → Prop :=
  | hi_nil G : history G [] G
  | hi_op G c G1 cs G2 : changes G c G1 → history G1 cs G2 → history G (c :: cs) G2
  | hi_new G o ck vs cs G2 : g_cls G o = None →
      history (created G o ck) (map (λ '(p, v), OSet o p v) (given (mro S ck) vs) ++ cs) G2 →
      history G (ONew ck (plain_args vs) :: cs) G2.
End graph.

(** Statements that create objects without collections among the arguments, and
    admissible statements about references.  Objects can always be created
    with a UUID and nothing else. *)
Definition links_op (S : schema) (pm : list (name * name)) (fuel : nat) (h : heap) (c : op) : Prop :=
  match c with
  | ONew ck kw =>
      (∃ s, kw = plain_args [(u "UUID", VStr s)] ∧ (∃ tag, assoc tag pm = Some ck) ∧ ck ∉ unconstructible) ∨
      (∃ vs, kw = plain_args vs ∧ Forall (λ nv, not_list nv.2) vs ∧ adm_op S fuel h c)
  | c => adm_op S fuel h c
  end.
Fixpoint links_ops (S : schema) (pm : list (name * name)) (fuel : nat) (h : heap) (cs : list op) : Prop :=
  match cs with
  | [] => True
  | c :: r => links_op S pm fuel h c ∧ ∀ h', run_op S fuel c h = (inl tt, h') → links_ops S pm fuel h' r
  end.

(** Statements that may change the reference [x.p], whose value is [v]. *)
Definition mentions (x : nat) (v : val) (c : op) : Prop :=
  match c with
  | ONew _ _ => False
  | OSet x' _ _ => x' = x
  | OSetList t _ ys => v = VRef t ∨ x ∈ ys
  | OAdd _ _ ys | ORemove _ _ ys => x ∈ ys
  end.
(** The same values, and lists with the same members. *)
Definition same_members (w w' : option ov) : Prop :=
  w' = w ∨ ∃ ys ys', w = Some (OL ys) ∧ w' = Some (OL ys') ∧ ys ≡ₚ ys'.
