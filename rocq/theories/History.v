(** Client programs: sequences of constructor calls, assignments, [add*] and
    [remove*] calls on CIM objects. *)
From Coq Require Import String.
From stdpp Require Import prelude gmap.
From Verif Require Import PyStr PyHeap Schema Assoc.

(** A keyword argument written at a call site: a value, or a list display
    (PyCIM/RDFXMLReader.py:109 is a call site; the parameters are those of
    CIM14/IEC61970/Core/Terminal.py:27). *)
Inductive arg := AVal (v : val) | AList (ys : list nat).

(** One statement of a client; PyCIM/RDFXMLReader.py:109, 174-178, 198 and 201
    are such statements.  [o] and [ys] are objects the client holds.
    - [ONew ck kw]: [C(kw...)]
    - [OSet o p v]: [o.p = v] where [v] is a scalar, None or an object
    - [OSetList o p ys]: [o.p = [y1, ..., yn]]
    - [OAdd o p ys]: [o.addP(y1, ..., yn)]
    - [ORemove o p ys]: [o.removeP(y1, ..., yn)] *)
Inductive op :=
  | ONew (ck : name) (kw : list (name * arg))
  | OSet (o : nat) (p : name) (v : val)
  | OSetList (o : nat) (p : name) (ys : list nat)
  | OAdd (o : nat) (p : name) (ys : list nat)
  | ORemove (o : nat) (p : name) (ys : list nat).

(** Keyword arguments are evaluated left to right; a list display creates a
    list (a call site: PyCIM/RDFXMLReader.py:109). *)
Fixpoint eval_kw (kw : list (name * arg)) : M (list (name * val)) :=
  match kw with
  | [] => ret []
  | (n, AVal v) :: r => let* vs := eval_kw r in ret ((n, v) :: vs)
  | (n, AList ys) :: r =>
      let* l := new_list (map VRef ys) in let* vs := eval_kw r in ret ((n, l) :: vs)
  end.

Section history.
Context (S : schema) (fuel : nat).

(** Execution of a statement by the class code of Assoc.v
    (PyCIM/RDFXMLReader.py:109, 178, 198, 201). *)
Definition run_op (c : op) : M unit :=
  match c with
  | ONew ck kw => let* vs := eval_kw kw in construct S fuel ck [] vs ;;; ret tt
  | OSet o p v => setattr S fuel (VRef o) p v
  | OSetList o p ys => let* l := new_list (map VRef ys) in setattr S fuel (VRef o) p l
  | OAdd o p ys => add S fuel (VRef o) p (map VRef ys)
  | ORemove o p ys => remove S fuel (VRef o) p (map VRef ys)
  end.

(* a sequence of such statements: PyCIM/RDFXMLReader.py:124-215 *)
Definition run_ops (cs : list op) : M unit := for_each cs run_op.
End history.
