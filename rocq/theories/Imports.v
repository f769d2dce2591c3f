(** Importing the modules of CIM14 and CIM15: every class is defined in a module
    of its own, which imports the module of its base class; every package
    imports the modules of its classes (CIM14/IEC61970/Core/Terminal.py:21,
    CIM14/IEC61970/Core/__init__.py:24-54).  cimread imports the package of a
    class when it meets the first object of it (PyCIM/RDFXMLReader.py:104-106).

    Simplifications: a module is known by a number; class statements and
    assignments of literals at the top level only bind their name; a class is
    known by the module that defines it, as no module is executed twice unless
    an import failed.  The locks of the import system, its finders and caches
    of byte code, and namespaces beyond the names bound at the top level are
    left out. *)
From Coq Require Import String PArith.
From stdpp Require Import prelude gmap.
From Verif Require Import PyStr PyHeap Schema.

(** Top-level statements: [from M import N], a class statement with its base
    (None for a built-in type), an assignment
    (CIM14/IEC61970/Core/Terminal.py:21-23, CIM14/__init__.py:22-40). *)
Inductive stmt := SFrom (m : positive) (n : name) | SClass (n : name) (base : option name) | SAssign (n : name).
(** A module: the last component of its name, the packages it is in (nearest
    first), whether it is a package, its statements
    (CIM14/IEC61970/Core/Terminal.py:21-23, CIM14/IEC61970/Core/__init__.py:24-58). *)
Record module := Mod { m_last : name; m_up : list positive; m_pkg : bool; m_body : list stmt }.
(** What a name is bound to: a class made by a module, a module, or something
    else (CIM14/IEC61970/Core/__init__.py:24-58). *)
Inductive binding := BClass (m : positive) (n : name) | BModule (m : positive) | BValue.
(** Errors of an import statement or of a class statement
    (CIM14/IEC61970/Wires/SynchronousMachine.py:21-23). *)
Inductive import_error := ModuleNotFoundError | ImportError | NameError | BaseTypeError | ImportRecursion | ImportUnmodelled.
(** The namespace of a module, latest bindings first
    (CIM14/IEC61970/Core/__init__.py:24-58). *)
Notation space := (list (name * binding)).
(** [sys.modules]: the modules executed so far or being executed
    (PyCIM/RDFXMLReader.py:104). *)
Notation session := (gmap positive space).

(** The module has [n] bound to [b] (CIM14/IEC61970/Core/__init__.py:24). *)
Definition bind_name (m : positive) (n : name) (b : binding) (s : session) : session := alter (cons (n, b)) m s.
(** [module.n] (PyCIM/RDFXMLReader.py:106, CIM14/IEC61970/Core/Terminal.py:21). *)
Definition look (s : session) (m : positive) (n : name) : option binding := ns ← s !! m; assoc n ns.

Section imports.
Context (P : gmap positive module).
(* CIM14/IEC61970/Core/Terminal.py:21 *)
Definition is_pkg (m : positive) : bool := match P !! m with Some M => m_pkg M | None => false end.
(* CIM14/IEC61970/Core/Terminal.py:21 *)
Definition ups (m : positive) : list positive := match P !! m with Some M => m_up M | None => [] end.

Section execute.
Context (imp : positive → session → option import_error * session).
(** One statement of module [m] (CIM14/IEC61970/Core/Terminal.py:21-23,
    CIM14/IEC61970/Core/__init__.py:24-58).  A name that is missing from a
    package would be looked for among its modules; no statement does that. *)
Definition run_stmt (m : positive) (c : stmt) (s : session) : option import_error * session :=
  match c with
  | SFrom t n =>
      match imp t s with
      | (None, s') =>
          match look s' t n with
          | Some b => (None, bind_name m n b s')
          | None => (Some (if is_pkg t then ImportUnmodelled else ImportError), s')
          end
      | r => r
      end
  | SClass n None => (None, bind_name m n (BClass m n) s)
  | SClass n (Some b) =>
      match look s m b with
      | Some (BClass _ _) => (None, bind_name m n (BClass m n) s)
      | Some _ => (Some BaseTypeError, s)
      | None => (Some NameError, s)
      end
  | SAssign n => (None, bind_name m n BValue s)
  end.
(* CIM14/IEC61970/Core/__init__.py:24-58 *)
Fixpoint run_body (m : positive) (cs : list stmt) (s : session) : option import_error * session :=
  match cs with
  | [] => (None, s)
  | c :: r => match run_stmt m c s with (None, s') => run_body m r s' | e => e end
  end.
(** A module is entered into [sys.modules] before it is executed, taken out
    again when that fails, and otherwise bound in its package at the end
    (CIM14/IEC61970/Core/__init__.py:24-58). *)
Definition load (m : positive) (s : session) : option import_error * session :=
  match P !! m with
  | None => (Some ModuleNotFoundError, s)
  | Some M =>
      match run_body m (m_body M) (<[m := []]> s) with
      | (None, s') => (None, match m_up M with p :: _ => bind_name p (m_last M) (BModule m) s' | [] => s' end)
      | (e, s') => (e, delete m s')
      end
  end.
(** A module and the packages it is in, nearest first: nothing is done if it is in
    [sys.modules]; else its package is imported, which may import the module
    too (PyCIM/RDFXMLReader.py:104, CIM14/IEC61970/Core/Terminal.py:21). *)
Fixpoint load_chain (ms : list positive) (s : session) : option import_error * session :=
  match ms with
  | [] => (None, s)
  | m :: up =>
      match s !! m with
      | Some _ => (None, s)
      | None =>
          match load_chain up s with
          | (None, s') => match s' !! m with Some _ => (None, s') | None => load m s' end
          | e => e
          end
      end
  end.
End execute.
(** [import m] (PyCIM/RDFXMLReader.py:104, CIM14/IEC61970/Core/Terminal.py:21). *)
Fixpoint import_module (fuel : nat) (m : positive) (s : session) : option import_error * session :=
  match fuel with
  | O => (Some ImportRecursion, s)
  | S f => load_chain (import_module f) (m :: ups m) s
  end.
(** [getattr(__import__(p, ..., [tag], 0), tag)] (PyCIM/RDFXMLReader.py:104-106).
    A tag that the package does not bind would be looked for among its modules. *)
Definition import_class (fuel : nat) (p : positive) (tag : name) (s : session) : (binding + import_error) * session :=
  match import_module fuel p s with
  | (None, s') => (match look s' p tag with Some b => inl b | None => inr ImportUnmodelled end, s')
  | (Some e, s') => (inr e, s')
  end.
End imports.
