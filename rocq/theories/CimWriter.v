(** PyCIM/RDFXMLWriter.py.

    Simplifications, stated once for the whole file: the log message (line 109) is in
    WriterLog.v and the clock (lines 49, 109) is left out; the file is the text handed to its [write]
    method, so that a path as [source] and [w.flush()] (line 107, the flush
    method of the file) need no model; an attribute that holds a list or a CIM
    object has a [str] that depends on memory addresses, so writing one ends in
    [Unmodelled]. *)
From Coq Require Import String ZArith.
From stdpp Require Import prelude gmap.
From Verif Require Import PyStr PyHeap Schema Assoc Reader XmlWriter.

(** [str(v)] and the formatting of [v] by ["%s"] (PyCIM/RDFXMLWriter.py:78, 88, 99). *)
Definition py_str (v : val) : option pystr :=
  match v with
  | VNone => Some (u "None")
  | VBool true => Some (u "True")
  | VBool false => Some (u "False")
  | VInt z => Some (show_int z)
  | VFloat r => Some r
  | VStr s => Some s
  | VRef _ | VList _ => None
  end.

Section writer.
(** The class table; [fint r] is the integer that the float with [repr] [r] is
    equal to, if there is one; nsURI and nsPrefix of CIM15 (PyCIM/RDFXMLWriter.py:25). *)
Context (S : schema) (fint : pystr → option Z) (nsURI nsPrefix : pystr).

(** [a == b] (PyCIM/RDFXMLWriter.py:76): numbers compare by value, whatever their types; the
    zeros are equal and a nan is not equal to itself.  No default is a list or an
    object, so these are not equal to any default. *)
Definition py_num (v : val) : option Z :=
  match v with
  | VBool b => Some (if b then 1 else 0)%Z
  | VInt z => Some z
  | VFloat r => fint r
  | _ => None
  end.
(* PyCIM/RDFXMLWriter.py:76 *)
Definition py_zero (r : pystr) : bool := str_eqb r (u "0.0") || str_eqb r (u "-0.0").
(* PyCIM/RDFXMLWriter.py:76 *)
Definition py_eq (a b : val) : bool :=
  match a, b with
  | VFloat r, VFloat r' => str_eqb r r' && negb (str_eqb r (u "nan")) || py_zero r && py_zero r'
  | VBool _, (VBool _ | VInt _ | VFloat _) | VInt _, (VBool _ | VInt _ | VFloat _) | VFloat _, (VBool _ | VInt _) =>
      match py_num a, py_num b with Some x, Some y => Z.eqb x y | _, _ => false end
  | VNone, VNone => true
  | VStr s, VStr s' => str_eqb s s'
  | _, _ => false
  end.

(** The heap and the state of the XMLWriter (PyCIM/RDFXMLWriter.py:51).  Heap
    reads are those of PyCIM/RDFXMLWriter.py:75, 84 and 95, writer calls those of
    PyCIM/RDFXMLWriter.py:54, 61, 65, 77, 86, 97, 101 and 104. *)
Definition WM (A : Type) : Type := heap → writer → (A + exn) * heap * writer.
(* PyCIM/RDFXMLWriter.py:75 *)
Definition wret {A} (a : A) : WM A := λ h w, (inl a, h, w).
(* PyCIM/RDFXMLWriter.py:76 *)
Definition wraise {A} (e : exn) : WM A := λ h w, (inr e, h, w).
(* PyCIM/RDFXMLWriter.py:75-78 *)
Definition wbind {A B} (m : WM A) (k : A → WM B) : WM B := λ h w,
  match m h w with
  | (inl a, h', w') => k a h' w'
  | (inr e, h', w') => (inr e, h', w')
  end.
(* PyCIM/RDFXMLWriter.py:75, 84, 95 *)
Definition on_heap {A} (m : M A) : WM A := λ h w, let '(r, h') := m h in (r, h', w).
(* PyCIM/RDFXMLWriter.py:54, 61, 65, 101, 104 *)
Definition on_writer {A} (m : writer → (A + exn) * writer) : WM A := λ h w, let '(r, w') := m w in (r, h, w').
(** [for x in xs: body] (PyCIM/RDFXMLWriter.py:64, 72, 74). *)
Fixpoint wfor {A} (xs : list A) (body : A → WM unit) : WM unit :=
  match xs with
  | [] => wret tt
  | x :: r => wbind (body x) (λ _, wfor r body)
  end.

(** nsPrefixRDF and nsRDF (PyCIM/RDFXMLWriter.py:29-30), nsCIM (PyCIM/RDFXMLWriter.py:57; nsURI is not empty). *)
Definition rdf_prefix : pystr := u "rdf".
(* PyCIM/RDFXMLWriter.py:30 *)
Definition rdf_uri : pystr := u "http://www.w3.org/1999/02/22-rdf-syntax-ns#".
(* PyCIM/RDFXMLWriter.py:57 *)
Definition ns_cim : pystr := if bool_decide (last nsURI = Some 35%N) then nsURI else nsURI ++ u "#".

(** ["%s:%s.%s" % (nsPrefix, klass.__name__, a)] (PyCIM/RDFXMLWriter.py:77, 86, 97). *)
Definition prop_tag (c : cls) (a : name) : pystr := nsPrefix ++ u ":" ++ c_name c ++ u "." ++ a.
(** [str(val)] inside the loops (PyCIM/RDFXMLWriter.py:78, 88, 99). *)
Definition show (v : val) : WM pystr := match py_str v with Some s => wret s | None => wraise Unmodelled end.
(** [w.element(...)] (PyCIM/RDFXMLWriter.py:77, 86, 97). *)
Definition element (tag : pystr) (text : option pystr) (attrib : list (pystr * pystr)) : WM unit :=
  on_writer (w_element tag text attrib []).

(** [a in klass._enums] (PyCIM/RDFXMLWriter.py:73, 82). *)
Definition is_enum (c : cls) (a : name) : bool := match assoc a (c_enums c) with Some _ => true | None => false end.
(** Attributes of one class (PyCIM/RDFXMLWriter.py:73-78). *)
Definition write_attr (v : val) (c : cls) (a : name) : WM unit :=
  if is_enum c a then wret tt
  else
    wbind (on_heap (getattr S v a)) (λ x,
    match assoc a (c_defaults c) with
    | None => wraise KeyError
    | Some y => if py_eq x y then wret tt
                else wbind (show x) (λ s, element (prop_tag c a) (Some s) [])
    end).
(** Enumerations of one class (PyCIM/RDFXMLWriter.py:82-88). *)
Definition write_enum (v : val) (c : cls) (a : name) : WM unit :=
  match assoc a (c_enums c) with
  | None => wret tt
  | Some dt =>
      wbind (on_heap (getattr S v a)) (λ x,
      wbind (show x) (λ s,
      element (prop_tag c a) None [(rdf_prefix ++ u ":resource", ns_cim ++ dt ++ u "." ++ s)]))
  end.
(** References of one class (PyCIM/RDFXMLWriter.py:93-99). *)
Definition write_ref (v : val) (c : cls) (p : name) : WM unit :=
  if existsb (str_eqb p) (c_many c) then wret tt
  else
    wbind (on_heap (getattr S v p)) (λ x,
    if decide (x = VNone) then wret tt
    else wbind (on_heap (getattr S x (u "UUID"))) (λ i,
         wbind (show i) (λ s,
         element (prop_tag c p) None [(rdf_prefix ++ u ":resource", u "#" ++ s)]))).

(** [mro[2:]] (PyCIM/RDFXMLWriter.py:68-69, 72, 81, 91): base classes first, without [object]
    and [Element]. *)
Definition below_element (ck : name) : list cls := drop 1 (reverse (mro S ck)).

(** One dictionary entry (PyCIM/RDFXMLWriter.py:65-101).  [obj.UUID] is evaluated before the
    call of [start], which writes the tag before it finds that an identifier is
    not a string (SimpleXMLWriter.py:201-207). *)
Definition write_entry (v : val) : WM unit :=
  wbind (on_heap (getattr S v (u "UUID"))) (λ i, λ h w,
  match ck ← val_cls h v; find_cls S ck with
  | None => (inr Unmodelled, h, w)
  | Some k =>
      let tag := nsPrefix ++ u ":" ++ c_name k in
      match i with
      | VStr s =>
          wbind (on_writer (λ w, let '(n, w') := w_start tag [(rdf_prefix ++ u ":ID", s)] [] w in (inl n, w'))) (λ _,
          let cs := below_element (c_key k) in
          wbind (wfor cs (λ c, wfor (c_attrs c) (write_attr v c))) (λ _,
          wbind (wfor cs (λ c, wfor (c_attrs c) (write_enum v c))) (λ _,
          wbind (wfor cs (λ c, wfor (c_refs c) (write_ref v c))) (λ _,
          on_writer (w_end None))))) h w
      | _ => (inr AttributeError, h, snd (w_start tag [] [] w))
      end
  end).

(** [cimwrite] (PyCIM/RDFXMLWriter.py:34-109).  The result is the writer, whose [w_out] has
    been written to [source]. *)
Definition cimwrite_body (d : dict) : WM unit :=
  wbind (on_writer (λ w, (inl tt, w_declaration w))) (λ _,
  wbind (on_writer (λ w, let '(n, w') :=
      w_start (rdf_prefix ++ u ":RDF") [(u "xmlns:" ++ rdf_prefix, rdf_uri); (u "xmlns:" ++ nsPrefix, ns_cim)] [] w in (inl n, w'))) (λ rdf,
  wbind (wfor d (λ kv, write_entry (snd kv))) (λ _,
  on_writer (w_close rdf)))).
(* PyCIM/RDFXMLWriter.py:34-109 *)
Definition cimwrite (d : dict) (enc : pystr) (h : heap) : (unit + exn) * heap * writer :=
  cimwrite_body d h (w_init enc).
End writer.
