(** Vocabulary for the statements about imports: the modules of CIM14 and CIM15,
    their dotted names, and the interpreters in which some of them have been
    imported. *)
From Coq Require Import String PArith.
From stdpp Require Import prelude gmap.
From Verif Require Import PyStr PyHeap Schema Names Reader VocabSpec Imports TabImports.

Definition table : gmap positive module := list_to_map modules.

(** The dotted name of a module, from its own last component and those of the
    packages it is in. *)
Fixpoint dots (ms : list positive) : pystr :=
  match ms with
  | [] => []
  | [m] => match table !! m with Some M => m_last M | None => [] end
  | m :: r => dots r ++ u "." ++ match table !! m with Some M => m_last M | None => [] end
  end.
Definition dotted (m : positive) : pystr := dots (m :: match table !! m with Some M => m_up M | None => [] end).
(** The dotted name of the class [n] that a module makes. *)
Definition class_path (m : positive) (n : name) : pystr := dotted m ++ u "." ++ n.

(** The module has been imported, or is being imported. *)
Definition in_sys (s : session) (m : positive) : Prop := is_Some (s !! m).
(** The package or a module in it, at any depth. *)
Definition inside (d m : positive) : Prop := m = d ∨ ∃ M, table !! m = Some M ∧ d ∈ m_up M.

(** [x] is a package that [m] is in, or a module it imports from; the modules that an
    import of [m] leads to. *)
Definition uses (m x : positive) : Prop := ∃ M, table !! m = Some M ∧ (x ∈ m_up M ∨ ∃ n, SFrom x n ∈ m_body M).
Definition needs : positive → positive → Prop := rtc uses.

(** Interpreters in which any modules have been imported in any order, each import
    having succeeded. *)
Inductive interpreter (fuel : nat) : session → Prop :=
| int_fresh : interpreter fuel ∅
| int_import s m s' : interpreter fuel s → import_module table fuel m s = (None, s') → interpreter fuel s'.

Local Open Scope positive_scope.
(** CIM14.IEC61970.Dynamics and CIM14.IEC61970.Wires *)
Definition dynamics : positive := 740.
Definition wires : positive := 1043.
(** CIM14.ENTSOE.Dynamics.IEC61970.Dynamics and CIM14.ENTSOE.Dynamics.IEC61970.Wires *)
Definition entsoe_dynamics : positive := 386.
Definition entsoe_wires : positive := 466.

Local Close Scope positive_scope.
(** The module cannot be imported now: it is in one of the two packages for
    dynamics and the package for wires that goes with it is not imported. *)
Definition too_early (s : session) (m : positive) : Prop :=
  inside dynamics m ∧ ¬ in_sys s wires ∨ inside entsoe_dynamics m ∧ ¬ in_sys s entsoe_wires.

(** The packages of the objects of a document, in their order: an element asks for
    the package of its tag if it names an object and the map knows the tag.  The
    root element counts only as long as it has its attributes. *)
Section asks.
Context (base rdf : pystr) (pk : list (name * positive)).
Definition asks_for (cleared : bool) (e : elem) (p : positive) : Prop :=
  (e_root e = true → cleared = false) ∧ ∃ l id, names_object base rdf e l id ∧ first_is l p pk.
Inductive asks : bool → list event → list positive → Prop :=
| asks_nil c : asks c [] []
| asks_ns c n v evs ps : asks c evs ps → asks c (ENs n v :: evs) ps
| asks_start c e evs ps : asks true evs ps → asks c (EStart e :: evs) ps
| asks_object c e p evs ps : asks_for c e p → asks true evs ps → asks c (EEnd e :: evs) (p :: ps)
| asks_other c e evs ps : (∀ p, ¬ asks_for c e p) → asks true evs ps → asks c (EEnd e :: evs) ps.
End asks.

(** Every package for dynamics comes when its wires are imported: they were before,
    or a package before it needs them. *)
Definition timely (s : session) (ps : list positive) : Prop :=
  ∀ ps1 p ps2, ps = ps1 ++ p :: ps2 → ∀ d w, (d, w) ∈ [(dynamics, wires); (entsoe_dynamics, entsoe_wires)] →
    inside d p → in_sys s w ∨ ∃ q, q ∈ ps1 ∧ needs q w.

(** Interpreters in which any imports have been tried in any order, whether or not
    they succeeded. *)
Inductive tried (fuel : nat) : session → Prop :=
| tr_fresh : tried fuel ∅
| tr_import s m e s' : tried fuel s → import_module table fuel m s = (e, s') → tried fuel s'.
