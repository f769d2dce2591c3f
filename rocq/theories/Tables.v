(** The sixteen class tables and the facts about them that are checked by
    computation over every row. *)
From stdpp Require Import prelude gmap.
From Verif Require Import PyStr PyHeap Schema Names TabCIM14 TabCIM15 TabProfiles.

(** Every class table with its package map: CIM14/__init__.py, CIM15/__init__.py
    and the __init__.py of each profile package. *)
Definition tables : list (schema * list (name * name)) :=
  (cim14, cim14_map) :: (cim15, cim15_map) :: profiles.
