(** Vocabulary for the properties of cimwrite: what is to be written for an
    object, as XML and as the events of its parser. *)
From Coq Require Import String ZArith.
From stdpp Require Import prelude gmap.
From Verif Require Import PyStr PyHeap Schema AssocSpec Reader ReaderSpec XmlSpec.

(** *** Values *)
(** What [o.a] evaluates to, when it is not a list. *)
Definition sees (S : schema) (h : heap) (o : nat) (a : name) (v : val) : Prop :=
  ∃ ck, cls_of h o = Some ck ∧
  match lookup_prop S ck a with
  | Some (PAlias p c) => ∃ w, slot h o (Priv p) = Some w ∧ (val_cls h w = Some c ∧ v = w ∨ val_cls h w ≠ Some c ∧ v = VNone)
  | Some _ => view h o (Priv a) = Some (OV v)
  | None => view h o (key_of a) = Some (OV v)
  end.
(** The text of a value. *)
Inductive text_of : val → pystr → Prop :=
  | to_none : text_of VNone (u "None")
  | to_true : text_of (VBool true) (u "True")
  | to_false : text_of (VBool false) (u "False")
  | to_int z : text_of (VInt z) (show_int z)
  | to_float r : text_of (VFloat r) r
  | to_str s : text_of (VStr s) s.
(** Python equality of values that are not objects or lists.  [fint r] is the
    integer equal to the float with [repr] [r], if there is one. *)
Inductive number (fint : pystr → option Z) : val → Z → Prop :=
  | nu_true : number fint (VBool true) 1
  | nu_false : number fint (VBool false) 0
  | nu_int z : number fint (VInt z) z
  | nu_float r z : fint r = Some z → number fint (VFloat r) z.
Inductive equal (fint : pystr → option Z) : val → val → Prop :=
  | eq_none : equal fint VNone VNone
  | eq_str s : equal fint (VStr s) (VStr s)
  | eq_float r : r ≠ u "nan" → equal fint (VFloat r) (VFloat r)
  | eq_zeros r r' : r ∈ [u "0.0"; u "-0.0"] → r' ∈ [u "0.0"; u "-0.0"] → equal fint (VFloat r) (VFloat r')
  | eq_number a b z : number fint a z → number fint b z →
      (∀ r r', a = VFloat r → b ≠ VFloat r') → equal fint a b.

(** *** The elements to be written for an object *)
(** [<cim:tag>text</cim:tag>] (an empty element for the empty text) and
    [<cim:tag rdf:resource="uri"/>] *)
Inductive pelem := PText (tag text : pystr) | PResource (tag uri : pystr).
(** [<cim:class rdf:ID="id">props</cim:class>] *)
Record entry := Entry { en_class : pystr; en_id : pystr; en_props : list pelem }.

Inductive listed {A B} (P : A → list B → Prop) : list A → list B → Prop :=
  | listed_nil : listed P [] []
  | listed_cons x l r r' : P x r → listed P l r' → listed P (x :: l) (r ++ r').

Section entries.
Context (S : schema) (fint : pystr → option Z) (cim : pystr) (h : heap) (o : nat).
Definition ptag (c : cls) (a : name) : pystr := c_name c ++ u "." ++ a.
(** An attribute that is not an enumeration is written when it differs from its
    default. *)
Definition attr_out (c : cls) (a : name) (r : list pelem) : Prop :=
  assoc a (c_enums c) ≠ None ∧ r = [] ∨
  assoc a (c_enums c) = None ∧ ∃ v dflt, sees S h o a v ∧ assoc a (c_defaults c) = Some dflt ∧
    (equal fint v dflt ∧ r = [] ∨
     ¬ equal fint v dflt ∧ ∃ s, text_of v s ∧ r = [PText (ptag c a) s]).
(** An enumeration is always written, as the resource of the literal. *)
Definition enum_out (c : cls) (a : name) (r : list pelem) : Prop :=
  assoc a (c_enums c) = None ∧ r = [] ∨
  ∃ dt v s, assoc a (c_enums c) = Some dt ∧ sees S h o a v ∧ text_of v s ∧
    r = [PResource (ptag c a) (cim ++ dt ++ u "." ++ s)].
(** A reference that is not a collection is written when it is set. *)
Definition ref_out (c : cls) (p : name) (r : list pelem) : Prop :=
  p ∈ c_many c ∧ r = [] ∨
  p ∉ c_many c ∧ (sees S h o p VNone ∧ r = [] ∨
    ∃ t i s, sees S h o p (VRef t) ∧ sees S h t (u "UUID") i ∧ text_of i s ∧ r = [PResource (ptag c p) (u "#" ++ s)]).
(** All classes from the one below Element down to the object's own. *)
Definition Writes (e : entry) : Prop :=
  ∃ k top below as_ es rs, cls_of h o = Some (c_key k) ∧ find_cls S (c_key k) = Some k ∧ mro S (c_key k) = below ++ [top] ∧
    en_class e = c_name k ∧ sees S h o (u "UUID") (VStr (en_id e)) ∧
    listed (λ c, listed (attr_out c) (c_attrs c)) (reverse below) as_ ∧
    listed (λ c, listed (enum_out c) (c_attrs c)) (reverse below) es ∧
    listed (λ c, listed (ref_out c) (c_refs c)) (reverse below) rs ∧
    en_props e = as_ ++ es ++ rs.
End entries.
(** Every value of the dictionary is an object, and these are the elements to
    write for them. *)
Definition Writes_all (S : schema) (fint : pystr → option Z) (cim : pystr) (h : heap) (d : dict) (es : list entry) : Prop :=
  Forall2 (λ kv e, ∃ o, kv.2 = VRef o ∧ Writes S fint cim h o e) d es.

(** *** The document *)
Section tree.
Context (cim rdf : pystr).
Definition rdf_name (n : string) : pystr := u "{" ++ rdf ++ u "}" ++ u n.
Definition cim_name (n : pystr) : pystr := u "{" ++ cim ++ u "}" ++ n.
Definition pelem_tree (p : pelem) : xnode :=
  match p with
  | PText tag s => XElem [] (cim_name tag) [] (match s with [] => [] | _ => [XText s] end)
  | PResource tag uri => XElem [] (cim_name tag) [(rdf_name "resource", uri)] []
  end.
Definition entry_tree (e : entry) : xnode :=
  XElem [] (cim_name (en_class e)) [(rdf_name "ID", en_id e)] (map pelem_tree (en_props e)).
(** The root declares the two prefixes. *)
Definition doc_tree (decls : nsenv) (es : list entry) : xnode := XElem decls (rdf_name "RDF") [] (map entry_tree es).
End tree.

(** Every string written consists of characters that satisfy [P] (in text) and
    [Q] (in attribute values). *)
Definition chars_ok (P Q : N → bool) (e : entry) : Prop :=
  forallb Q (en_id e) = true ∧
  ∀ p, p ∈ en_props e → match p with PText _ s => forallb P s = true | PResource _ s => forallb Q s = true end.

(** What a reader sees of the strings: XML normalises line ends, and white space
    in attribute values. *)
Definition seen_attr (s : pystr) : pystr := map (λ c, if xml_space c then 32%N else c) (norm_eol s).
Definition norm_pelem (p : pelem) : pelem :=
  match p with PText t s => PText t (norm_eol s) | PResource t s => PResource t (seen_attr s) end.
Definition norm_entry (e : entry) : entry := Entry (en_class e) (seen_attr (en_id e)) (map norm_pelem (en_props e)).

(** *** The events of a document *)
(** [elem.text] is the text before the first child, None when there is none. *)
Definition text_before (kids : list xnode) : option pystr :=
  match kids with XText (c :: s) :: _ => Some (c :: s) | _ => None end.
Fixpoint xevents (root : bool) (x : xnode) : list event :=
  match x with
  | XText _ => []
  | XElem decls tag ats kids =>
      let e := Elem tag ats (text_before kids) root in
      map (λ d, ENs d.1 d.2) decls ++ EStart e :: flat_map (xevents false) kids ++ [EEnd e]
  end.
(** What [iterparse] makes of a well-formed document. *)
Definition parses_to (doc : pystr) (src : source) : Prop :=
  ∃ x, parse_ns doc = Some x ∧ src = Source (xevents true x) false.
