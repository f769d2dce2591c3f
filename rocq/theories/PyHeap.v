(** The Python object heap: instances with a class and an instance
    dictionary, mutable lists with identity, exceptions as values. *)
From stdpp Require Import prelude gmap.
From Verif Require Import PyStr.

(** Identifiers and class names (CIM14/IEC61970/Core/Terminal.py:89-94). *)
Definition name := pystr.

(** A key of an instance dictionary.  The sources use two kinds of names: [P]
    and [_P] (CIM14/IEC61970/Core/Terminal.py:46, 51); [Priv P] is the key spelt
    ["_" + P]. *)
Inductive key := Pub (n : name) | Priv (n : name).

(** The key of a name given as a string to [setattr] or [getattr]
    (PyCIM/RDFXMLReader.py:169, 178). *)
Definition key_of (n : name) : key :=
  match n with
  | 95%N :: r => Priv r
  | _ => Pub n
  end.

Global Instance key_eq_dec : EqDecision key.
Proof. solve_decision. Defined.
Global Instance key_countable : Countable key.
Proof.
  refine (inj_countable'
    (λ k, match k with Pub n => inl n | Priv n => inr n end)
    (λ s, match s with inl n => Pub n | inr n => Priv n end) _).
  by intros [].
Defined.

(** Python values.  [VFloat r] is the float whose [repr] is [r].  [VRef o] is
    a CIM object, [VList l] a list object (identity [l]).  The values the
    constructors store: CIM14/IEC61970/Core/Terminal.py:46-87. *)
Inductive val :=
  | VNone
  | VBool (b : bool)
  | VInt (z : Z)
  | VFloat (r : pystr)
  | VStr (s : pystr)
  | VRef (o : nat)
  | VList (l : nat).
Global Instance val_eq_dec : EqDecision val.
Proof. solve_decision. Defined.

(** Exceptions the modelled code can raise.  [Unmodelled] marks behaviour the
    model does not follow (see DESIGN.md); it is never caught.  Raised or
    caught at PyCIM/RDFXMLReader.py:64, 98, 136, 179, 187, 254, 271,
    PyCIM/SimpleXMLWriter.py:238-242 and
    CIM15/IEC61970/Wires/ACLineSegment.py:78, 83. *)
Inductive exn :=
  | AttributeError | TypeError | ValueError | KeyError | IndexError
  | RecursionError | ParseError | AssertionError | Unmodelled.
Global Instance exn_eq_dec : EqDecision exn.
Proof. solve_decision. Defined.

(** An instance of a class with its dictionary (CIM14/Element.py:22-30). *)
Record obj := Obj { o_cls : name; o_dict : gmap key val }.

(** Objects and lists by identity; the objects are made at
    PyCIM/RDFXMLReader.py:109 and by client code, the lists at
    CIM14/IEC61970/Core/Terminal.py:54, 104. *)
Record heap := Heap { h_objs : gmap nat obj; h_lists : gmap nat (list val) }.

(* the state before PyCIM/RDFXMLReader.py:58 *)
Definition heap_empty : heap := Heap ∅ ∅.

(** Class of an object (PyCIM/RDFXMLWriter.py:65), content of a slot of its
    instance dictionary (CIM14/IEC61970/Core/Terminal.py:99). *)
Definition cls_of (h : heap) (o : nat) : option name := o_cls <$> h_objs h !! o.
(* CIM14/IEC61970/Core/Terminal.py:99 *)
Definition slot (h : heap) (o : nat) (k : key) : option val :=
  ob ← h_objs h !! o; o_dict ob !! k.

(** Pure heap updates: an assignment to a slot
    (CIM14/IEC61970/Core/Terminal.py:106) and a change of a list
    (CIM14/IEC61970/Core/Terminal.py:109). *)
Definition hset (o : nat) (k : key) (v : val) (h : heap) : heap :=
  Heap (alter (λ ob, Obj (o_cls ob) (<[k := v]> (o_dict ob))) o (h_objs h)) (h_lists h).
(* CIM14/IEC61970/Core/Terminal.py:109 *)
Definition lset (l : nat) (xs : list val) (h : heap) : heap :=
  Heap (h_objs h) (<[l := xs]> (h_lists h)).
(** Identities of new lists and objects (CIM14/IEC61970/Core/Terminal.py:54,
    PyCIM/RDFXMLReader.py:109). *)
Definition fresh_list (h : heap) : nat := fresh (dom (h_lists h) : gset nat).
(* PyCIM/RDFXMLReader.py:109 *)
Definition fresh_obj (h : heap) : nat := fresh (dom (h_objs h) : gset nat).

(** The state-and-exception monad: an exception keeps the heap reached.  Two
    statements in sequence, for example CIM14/IEC61970/Core/Terminal.py:106-109. *)
Definition M (A : Type) : Type := heap → (A + exn) * heap.
(* CIM14/IEC61970/Core/Terminal.py:99 *)
Definition ret {A} (a : A) : M A := λ h, (inl a, h).
(* CIM15/IEC61970/Wires/ACLineSegment.py:78 *)
Definition raise {A} (e : exn) : M A := λ h, (inr e, h).
(* CIM14/IEC61970/Core/Terminal.py:106-109 *)
Definition bind {A B} (m : M A) (f : A → M B) : M B := λ h,
  match m h with
  | (inl a, h') => f a h'
  | (inr e, h') => (inr e, h')
  end.
Notation "'let*' x := m 'in' k" := (bind m (λ x, k))
  (at level 200, x name, m at level 100, k at level 200, right associativity).
Notation "m ;;; k" := (bind m (λ _, k)) (at level 100, right associativity).

(** [for x in xs: body] (CIM14/IEC61970/Core/Terminal.py:119-122, 128-129). *)
Fixpoint for_each {A} (xs : list A) (body : A → M unit) : M unit :=
  match xs with
  | [] => ret tt
  | x :: r => body x ;;; for_each r body
  end.

(** [v.k] for an instance-dictionary key: only CIM objects have one
    (CIM14/IEC61970/Core/Terminal.py:99). *)
Definition read_key (v : val) (k : key) : M val := λ h,
  match v with
  | VRef o => match slot h o k with Some w => (inl w, h) | None => (inr AttributeError, h) end
  | _ => (inr AttributeError, h)
  end.

(** [v.k = w]; None, numbers, strings and lists accept no attributes
    (CIM14/IEC61970/Core/Terminal.py:46, 104, 106). *)
Definition write_key (v : val) (k : key) (w : val) : M unit := λ h,
  match v with
  | VRef o => match h_objs h !! o with
              | Some _ => (inl tt, hset o k w h)
              | None => (inr Unmodelled, h) (* dangling identity: impossible in Python *)
              end
  | _ => (inr AttributeError, h)
  end.

(** Class of a value, for attribute lookup and [type(x) is C]
    (CIM15/IEC61970/Wires/ACLineSegment.py:119, 205). *)
Definition val_cls (h : heap) (v : val) : option name :=
  match v with VRef o => cls_of h o | _ => None end.

(** A list display or comprehension creates a new list
    (CIM14/IEC61970/Core/Terminal.py:54, 103). *)
Definition new_list (xs : list val) : M val := λ h,
  let l := fresh_list h in (inl (VList l), lset l xs h).

(** [for x in v]: lists and strings can be iterated.  Here the elements are read
    once at the start, which is what Python does when the body does not change the
    list; the bodies of the loops modelled this way never change an existing list
    (proved in LiveFacts.v).  CIM14/IEC61970/Core/Terminal.py:119, 121. *)
Definition iter_val (v : val) : M (list val) := λ h,
  match v with
  | VList l => match h_lists h !! l with Some xs => (inl xs, h) | None => (inr Unmodelled, h) end
  | VStr s => (inl (map (λ c, VStr [c]) s), h)
  | _ => (inr TypeError, h)
  end.

(** [x in v].  CIM objects compare by identity
    (CIM14/IEC61970/Core/Terminal.py:108). *)
Definition contains (x v : val) : M bool := λ h,
  match v with
  | VList l => match h_lists h !! l with
               | Some xs => (inl (bool_decide (x ∈ xs)), h)
               | None => (inr Unmodelled, h)
               end
  | _ => (inr TypeError, h)
  end.

(** [v.append(x)] and [v.remove(x)]: only lists have these methods
    (CIM14/IEC61970/Core/Terminal.py:109,
    CIM15/IEC61970/Core/Equipment.py:148, 153). *)
Definition append (v x : val) : M unit := λ h,
  match v with
  | VList l => match h_lists h !! l with
               | Some xs => (inl tt, lset l (xs ++ [x]) h)
               | None => (inr Unmodelled, h)
               end
  | _ => (inr AttributeError, h)
  end.

(** The list without the first occurrence of [x]
    (CIM15/IEC61970/Core/Equipment.py:153). *)
Fixpoint remove_first (x : val) (xs : list val) : option (list val) :=
  match xs with
  | [] => None
  | y :: r => if decide (y = x) then Some r else (y ::.) <$> remove_first x r
  end.

(* CIM15/IEC61970/Core/Equipment.py:153 *)
Definition list_remove (v x : val) : M unit := λ h,
  match v with
  | VList l => match h_lists h !! l with
               | Some xs => match remove_first x xs with
                            | Some ys => (inl tt, lset l ys h)
                            | None => (inr ValueError, h)
                            end
               | None => (inr Unmodelled, h)
               end
  | _ => (inr AttributeError, h)
  end.

(** [q for q in xs if q != x] (CIM14/IEC61970/Core/Terminal.py:103). *)
Definition without (x : val) (xs : list val) : list val := filter (λ y, y ≠ x) xs.

(** [for x in v: body] where the body may change the list: Python keeps an index
    into the list and looks at the list anew in every turn.  [n] bounds the number
    of turns; a longer run ends in [Unmodelled].
    CIM15/IEC61970/Core/PowerSystemResource.py:129-131. *)
Fixpoint live_from (n : nat) (l i : nat) (body : val → M unit) : M unit := λ h,
  match h_lists h !! l with
  | None => (inr Unmodelled, h)
  | Some xs =>
      match xs !! i with
      | None => (inl tt, h)
      | Some x => match n with
                  | O => (inr Unmodelled, h)
                  | S n' => (body x ;;; live_from n' l (S i) body) h
                  end
      end
  end.
(** The loop of CIM15/IEC61970/Core/PowerSystemResource.py:129-131, whose body
    appends one object to lists that do not have it: at most one turn more than
    the list is long (proved in LiveFacts.v). *)
Definition live_each (v : val) (body : val → M unit) : M unit := λ h,
  match v with
  | VList l => match h_lists h !! l with
               | Some xs => live_from (S (length xs)) l 0 body h
               | None => (inr Unmodelled, h)
               end
  | _ => (let* xs := iter_val v in for_each xs body) h
  end.
