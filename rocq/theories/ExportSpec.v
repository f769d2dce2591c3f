(** Vocabulary for exporting what was read. *)
From Coq Require Import String ZArith.
From stdpp Require Import prelude gmap.
From Verif Require Import PyStr PyHeap Schema Reader ReaderSpec TableSpec.

(** A class the reader can create, all of whose references that are not
    collections are ends of associations or aliases of them (not compounds such
    as Asset.status). *)
Definition only_ends (S : schema) (k : name) : Prop := ∀ c r, c ∈ mro S k → r ∈ c_refs c → r ∉ c_many c →
  match lookup_prop S k r with Some (POneMany _ | POneOne _ | PAlias _ _) => True | _ => False end.
Definition exports (S : schema) (pm : list (name * name)) (k : name) : Prop :=
  (∃ tag, assoc tag pm = Some k) ∧ k ∉ unconstructible ∧ only_ends S k.
