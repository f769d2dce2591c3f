(** Class tables: what a generated CIM class declares. *)
From stdpp Require Import prelude gmap.
From Verif Require Import PyStr PyHeap.

(** The code shapes of a property (the setter decides; [tools/gen_tables.py]
    checks that every setter, getter, add and remove method in CIM14 and CIM15
    has one of these shapes).  The argument is the inverse property's name. *)
Inductive prop :=
  | POneMany (q : name)   (* single here, collection there: CIM14/IEC61970/Core/Terminal.py:101-109 *)
  | PManyOne (q : name)   (* collection here, single there: CIM14/IEC61970/Core/Terminal.py:118-123 *)
  | POneOne (q : name)    (* single on both ends: CIM14/IEC61970/Core/Terminal.py:289-296 *)
  | PManyMany (q : name)  (* collections: CIM15/IEC61970/Core/PowerSystemResource.py:125-132 *)
  | PPrivate              (* no inverse: CIM15/IEC61970/OperationalLimits/CheckPoint.py:43-49 *)
  | PManyOneDbl (q : name)(* as PManyOne but add/remove also touch the list: CIM15/IEC61970/Core/Equipment.py:136-153 *)
  | PAlias (target c : name). (* view of [target] for class [c]: CIM15/IEC61970/Wires/ACLineSegment.py:116-127, 202-213 *)
Global Instance prop_eq_dec : EqDecision prop.
Proof. solve_decision. Defined.

(** Statements of a generated constructor, in source order
    (CIM14/IEC61970/Core/Terminal.py:46-85). *)
Inductive step :=
  | SAttr (p : name)      (* self.p = p: CIM14/IEC61970/Core/Terminal.py:46 *)
  | SOne (p : name)       (* self._p = None; self.p = p: CIM14/IEC61970/Core/Terminal.py:51-52 *)
  | SMany (p : name)      (* self._p = []; self.p = [] if p is None else p: CIM14/IEC61970/Core/Terminal.py:54-55 *)
  | SPlainMany (p : name) (* self.p = [] if p is None else p: CIM14/IEC61970/Protection/ProtectionEquipment.py:50 *)
  | SPriv (p : name)      (* self._p = p: CIM15/IEC61970/OperationalLimits/CheckPoint.py:32 *)
  | SImpedance.           (* CIM15/IEC61970/Wires/ACLineSegment.py:72-87 *)

(** One class statement (CIM14/IEC61970/Core/Terminal.py:23-133).  The docstrings
    and [_attr_types] (line 90), which no code reads, are left out. *)
Record cls := Cls {
  c_key : name;                    (* dotted name of the class (module path) *)
  c_name : name;                   (* __name__ *)
  c_base : option name;            (* key of the base class; None for object *)
  c_params : list (name * val);    (* constructor parameters with their defaults *)
  c_steps : list step;             (* constructor body *)
  c_kw : bool;                     (* constructor has the star parameters args and kw_args *)
  c_super_ok : bool;               (* super(C, self): C is not shadowed by a parameter *)
  c_attrs : list name;             (* _attrs *)
  c_defaults : list (name * val);  (* _defaults *)
  c_enums : list (name * name);    (* _enums *)
  c_refs : list name;              (* _refs *)
  c_many : list name;              (* _many_refs *)
  c_props : list (name * prop);    (* properties defined by this class *)
}.

(** The classes of a package and its sub-packages (CIM14/__init__.py:24-503). *)
Definition schema := list cls.

(** Dictionary lookup (PyCIM/RDFXMLReader.py:97, 135, 186, 253, 268;
    PyCIM/RDFXMLWriter.py:76, 85). *)
Fixpoint assoc {B} (k : name) (xs : list (name * B)) : option B :=
  match xs with
  | [] => None
  | (k', b) :: r => if str_eqb k k' then Some b else assoc k r
  end.

(** The class statement of a dotted name ([__import__] and [getattr],
    PyCIM/RDFXMLReader.py:104-106). *)
Fixpoint find_cls (S : schema) (k : name) : option cls :=
  match S with
  | [] => None
  | c :: r => if str_eqb k (c_key c) then Some c else find_cls r k
  end.

(** [C.mro()] without [object]: all CIM classes have a single base.  [fuel]
    bounds the depth; no chain is longer than the table.
    PyCIM/RDFXMLWriter.py:68. *)
Fixpoint mro_fuel (fuel : nat) (S : schema) (k : name) : list cls :=
  match fuel with
  | O => []
  | Datatypes.S f =>
      match find_cls S k with
      | None => []
      | Some c => c :: match c_base c with None => [] | Some b => mro_fuel f S b end
      end
  end.
(* PyCIM/RDFXMLWriter.py:68 *)
Definition mro (S : schema) (k : name) : list cls := mro_fuel (length S) S k.

(** Attribute lookup on the class: the first class along the mro defining
    property [p] (CIM14/IEC61970/Core/Terminal.py:111 defines one). *)
Fixpoint lookup_in (cs : list cls) (p : name) : option prop :=
  match cs with
  | [] => None
  | c :: r => match assoc p (c_props c) with Some x => Some x | None => lookup_in r p end
  end.
(* CIM14/IEC61970/Core/Terminal.py:111 *)
Definition lookup_prop (S : schema) (k p : name) : option prop := lookup_in (mro S k) p.
