(** Vocabulary for exporting a graph, reading it back and exporting it again. *)
From Coq Require Import String ZArith.
From stdpp Require Import prelude gmap.
From Verif Require Import PyStr PyHeap Schema AssocSpec Reader ReaderSpec WriteSpec RoundSpec.

(** Every reference that is written leads to an object of the dictionary. *)
Definition no_way_out (S : schema) (h : heap) (d : dict) : Prop :=
  ∀ id o ck c p x, (id, VRef o) ∈ d → cls_of h o = Some ck → c ∈ mro S ck → p ∈ c_refs c → p ∉ c_many c →
    sees S h o p (VRef x) → ∃ i, (i, VRef x) ∈ d.
(** A document without the references to identifiers other than [ids]. *)
Definition kept (ids : list pystr) (p : pelem) : bool :=
  match p with
  | PResource _ (c :: i) => if decide (c = 35%N) then existsb (str_eqb i) ids else true
  | _ => true
  end.
Definition trim (ids : list pystr) (e : entry) : entry := Entry (en_class e) (en_id e) (List.filter (kept ids) (en_props e)).
(** One round trip: [a] is exported, the file is parsed and read with the same
    package map by a process with the memory [hr]; [b] is what it then has. *)
Section trips.
Context (writes : dict → heap → (unit + exn) * heap * pystr) (reads : source → heap → option exn * dict * heap) (ok : heap → Prop).
Definition trip (a b : heap * dict) : Prop :=
  ∃ h' text src hr, writes a.2 a.1 = (inl tt, h', text) ∧ parses_to text src ∧ ok hr ∧ reads src hr = (None, b.2, b.1).
End trips.
