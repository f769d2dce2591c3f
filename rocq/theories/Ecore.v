(** The UML models that the classes are meant to implement: Model/**/*.ecore.

    Simplifications: of an ecore model only classes, their single supertype,
    attributes with their types, references with multiplicity and opposite are
    kept; documentation, annotations, lower bounds, containment and [abstract]
    are left out.  Classes are named by the dotted name of the Python class that
    implements them: the class [C] in packages [a], [b] of model [M] is
    [M.a.b.C.C]. *)
From stdpp Require Import prelude.
From Verif Require Import PyStr PyHeap Schema.

(** Types of attributes: text, dates, floating-point numbers, integers, big
    integers, Booleans, enumerations with their literals
    (Model/CIM14/CIM14.ecore:29-32, 38-46).  A data type
    of the model counts as the type it is an instance of. *)
Inductive etype := TText | TDate | TFloat | TInt | TBig | TBool | TEnum (n : name) (literals : list name).
(** A reference: its name, the class it leads to, whether it is a collection, the
    opposite reference of that class (Model/CIM15/CIM15.ecore:19508-19511). *)
Record eref := ERef { f_name : name; f_type : name; f_many : bool; f_opposite : option name }.
(** A class: dotted name, name, supertype, attributes, references
    (Model/CIM15/CIM15.ecore:19507-19511). *)
Record eclass := EClass { ec_key : name; ec_name : name; ec_super : option name;
  ec_attrs : list (name * etype); ec_refs : list eref }.
