(** Vocabulary for the properties of the reader: documents as event streams,
    which elements describe objects and which properties, and the state of the
    read at a position of the document. *)
From Coq Require Import String.
From stdpp Require Import prelude gmap.
From Verif Require Import PyStr PyHeap Schema Assoc AssocSpec Reader.

(** *** Namespaces *)
(** The declarations before the first end event. *)
Fixpoint decls (evs : list event) : list (pystr * pystr) :=
  match evs with
  | ENs p v :: r => (p, v) :: decls r
  | EStart _ :: r => decls r
  | _ => []
  end.
(** A namespace with its trailing # added when it is missing. *)
Definition with_hash (s : pystr) : pystr := if bool_decide (last s = Some 35%N) then s else s ++ u "#".

(** The events of an element tree. *)
Inductive tree := Tree (tag : pystr) (attrs : list (pystr * pystr)) (text : option pystr) (kids : list tree).
Fixpoint tree_events (root : bool) (t : tree) : list event :=
  match t with
  | Tree tag attrs text kids =>
      let e := Elem tag attrs text root in
      EStart e :: flat_map (tree_events false) kids ++ [EEnd e]
  end.

Section vocabulary.
Context (base rdf : pystr).
Notation in_base := (in_base base).
Notation rdf_attr := (rdf_attr rdf).
Notation uuid_of := (uuid_of rdf).

(** Elements of the CIM namespace are objects when they carry an identifier
    and properties otherwise. *)
Definition is_object (e : elem) (id : pystr) : Prop := in_base e = true ∧ uuid_of (e_attrs e) = Some id.
Definition is_property (e : elem) (a : name) : Prop :=
  in_base e = true ∧ rdf_attr "ID" (e_attrs e) = None ∧ rdf_attr "about" (e_attrs e) = None ∧
  after_last_dot (local base e) = a.
Definition resource (e : elem) : option pystr := rdf_attr "resource" (e_attrs e).
(** [<cim:C.a>text</cim:C.a>], [<cim:C.a rdf:resource="#id"/>] and
    [<cim:C.a rdf:resource="uri"/>] *)
Definition attribute_elem (e : elem) (a : name) (t : option pystr) : Prop :=
  is_property e a ∧ resource e = None ∧ e_text e = t.
Definition reference_elem (e : elem) (a : name) (id : pystr) : Prop :=
  is_property e a ∧ resource e = Some (u "#" ++ id).
Definition enum_elem (e : elem) (a : name) (uri : pystr) : Prop :=
  is_property e a ∧ resource e = Some uri ∧ has_prefix (u "#") uri = false.

(** The root element is not in the CIM namespace: as in every RDF document,
    where it is rdf:RDF. *)
Definition foreign_root (evs : list event) : Prop :=
  ∀ e, EStart e ∈ evs ∨ EEnd e ∈ evs → e_root e = true → in_base e = false.

(** The object elements of known classes with their classes, in document
    order (of their closing tags). *)
Definition declared (pm : list (name * name)) (evs : list event) : list (pystr * name) :=
  omap (λ ev, match ev with
    | EEnd e => if in_base e then
                  id ← uuid_of (e_attrs e); k ← assoc (local base e) pm; Some (id, k)
                else None
    | _ => None
    end) evs.

(** A key list extended by the keys not in it yet. *)
Fixpoint add_keys (ks new : list pystr) : list pystr :=
  match new with
  | [] => ks
  | k :: r => add_keys (if existsb (str_eqb k) ks then ks else ks ++ [k]) r
  end.

(** The class of the last declaration of [id]. *)
Definition declared_class (pm : list (name * name)) (evs : list event) (id : pystr) : option name :=
  assoc id (reverse (declared pm evs)).

(** The property elements with the identifier of the object they are assigned
    to.  [known]: the dictionary has an object for the identifier. *)
Definition opens (known : pystr → bool) (e : elem) : option pystr :=
  if in_base e then
    match uuid_of (e_attrs e) with Some id => if known id then Some id else None | None => None end
  else None.
Definition has_id (e : elem) : bool :=
  match rdf_attr "ID" (e_attrs e), rdf_attr "about" (e_attrs e) with None, None => false | _, _ => true end.
Fixpoint statements (known : pystr → bool) (cur : option pystr) (evs : list event) : list (pystr * elem) :=
  match evs with
  | [] => []
  | ev :: r =>
      match cur, ev with
      | None, EStart e => statements known (opens known e) r
      | Some id, EEnd e =>
          if in_base e then
            if has_id e then statements known None r else (id, e) :: statements known cur r
          else statements known cur r
      | _, _ => statements known cur r
      end
  end.

(** *** Compatible statements *)
(** [a] is an ordinary (not a reference) attribute of class [ck]. *)
Definition plain_attr (S : schema) (ck a : name) : Prop :=
  key_of a = Pub a ∧ lookup_prop S ck a = None ∧ ∃ c, c ∈ mro S ck ∧ a ∈ c_attrs c.
(** The single reference [p] of class [ck] is one end of an association whose
    other end is the collection [q] of class [tk]. *)
Definition class_ends (S : schema) (ck p tk q : name) : Prop :=
  lookup_prop S ck p = Some (POneMany q) ∧ ∃ p', lookup_prop S tk q = Some (PManyOne p') ∧
    (p' = p ∨ ∃ c, lookup_prop S ck p' = Some (PAlias p c)).
(** An object of class [ck] can refer by [a] to one of class [tk]: the class
    tables declare the two ends to be inverses of each other.  The doubled
    collections (PManyOneDbl) are left out. *)
Definition links_to (S : schema) (ck a tk : name) : Prop :=
  match lookup_prop S ck a with
  | None => key_of a = Pub a ∧ ∀ c, c ∈ mro S ck → a ∉ c_attrs c
  | Some PPrivate => True
  | Some (POneMany q) => class_ends S ck a tk q
  | Some (PAlias p _) => ∃ q, class_ends S ck p tk q
  | Some (POneOne q) => lookup_prop S tk q = Some (POneOne a)
  | Some (PManyOne p') => ∃ p, class_ends S tk p ck a ∧ (p' = p ∨ ∃ c, lookup_prop S tk p' = Some (PAlias p c))
  | Some (PManyMany q) => lookup_prop S tk q = Some (PManyMany a)
  | Some (PManyOneDbl _) => False
  end.
(** A property element of an object of class [ck]; [cl] gives the classes of
    the objects referred to, dangling references are compatible. *)
Definition compatible (S : schema) (cl : pystr → option name) (ck : name) (e : elem) : Prop :=
  ∀ a, is_property e a →
  match resource e with
  | Some (35%N :: id) => ∀ tk, cl id = Some tk → links_to S ck a tk
  | _ => plain_attr S ck a
  end.
(** The class an identifier stands for after the first pass. *)
Definition class_in (pm : list (name * name)) (evs : list event) (d : dict) (h : heap) (id : pystr) : option name :=
  match declared_class pm evs id with
  | Some k => Some k
  | None => v ← assoc id d; val_cls h v
  end.
(** Every statement of the document is compatible. *)
Definition compatible_doc (S : schema) (pm : list (name * name)) (evs : list event) (d : dict) (h : heap) : Prop :=
  let cl := class_in pm evs d h in
  ∀ id e, (id, e) ∈ statements (λ id, match cl id with Some _ => true | None => false end) None evs →
    ∃ ck, cl id = Some ck ∧ compatible S cl ck e.

(** *** The state at a position *)
Context (S : schema) (pm : list (name * name)) (fuel : nat) (pf : pystr → option pystr).

Fixpoint run2 (d : dict) (evs : list event) (cur : option val) : M (option val) :=
  match evs with
  | [] => ret cur
  | ev :: r => let* cur' := pass2_step S fuel pf base rdf d cur ev in run2 d r cur'
  end.

(** Reading [root, pre ++ rest] from dictionary [d] and heap [h], the second
    pass gets past [pre]; it is then reading the properties of [cur], the
    dictionary is [d'] and the heap [hk]. *)
Definition Reaches (err : bool) (root : elem) (pre rest : list event) (d : dict) (h : heap)
    (cur : option val) (d' : dict) (hk : heap) : Prop :=
  ∃ h1, pass1 S pm fuel base rdf err (pre ++ rest) false d h = (None, d', h1) ∧
        run2 d' pre None h1 = (inl cur, hk).

(** The whole read. *)
Definition reads (err : bool) (root : elem) (evs : list event) (d : dict) (h : heap) : res :=
  read S pm fuel pf base rdf (Source (EStart root :: evs) err) d h.
End vocabulary.

(** *** Flat documents *)
(** An object description: an element with properties, which have no element
    children. *)
Record pel := Pel { p_tag : pystr; p_attrs : list (pystr * pystr); p_text : option pystr }.
Record item := Item { i_tag : pystr; i_attrs : list (pystr * pystr); i_text : option pystr; i_props : list pel }.
Definition pel_elem (base : pystr) (p : pel) : elem := Elem (base ++ p_tag p) (p_attrs p) (p_text p) false.
Definition item_elem (base : pystr) (i : item) : elem := Elem (base ++ i_tag i) (i_attrs i) (i_text i) false.
Definition pel_events (base : pystr) (p : pel) : list event := [EStart (pel_elem base p); EEnd (pel_elem base p)].
Definition item_events (base : pystr) (i : item) : list event :=
  EStart (item_elem base i) :: flat_map (pel_events base) (i_props i) ++ [EEnd (item_elem base i)].
Definition flat (base : pystr) (items : list item) : list event := flat_map (item_events base) items.
(** Objects have identifiers, properties have not. *)
Definition flat_ok (base rdf : pystr) (i : item) : Prop :=
  is_Some (uuid_of rdf (i_attrs i)) ∧
  ∀ p, p ∈ i_props i → rdf_attr rdf "ID" (p_attrs p) = None ∧ rdf_attr rdf "about" (p_attrs p) = None.

(** The class of the element is in the package map. *)
Definition known_class (pm : list (name * name)) (i : item) : Prop := is_Some (assoc (i_tag i) pm).
Global Instance known_class_dec pm i : Decision (known_class pm i).
Proof. unfold known_class. apply _. Defined.

(** *** Values *)
(** Decimal digits with single underscores between them, and their value. *)
Inductive int_body : pystr → N → Prop :=
  | ib_digit d : (d < 10)%N → int_body [48 + d]%N d
  | ib_more s n d : int_body s n → (d < 10)%N → int_body (s ++ [48 + d]%N) (n * 10 + d)
  | ib_under s n d : int_body s n → (d < 10)%N → int_body (s ++ [95; 48 + d]%N) (n * 10 + d).
Definition blank_char (c : N) : Prop := c ∈ [9; 10; 11; 12; 13; 28; 29; 30; 31; 32]%N.
(** The (ASCII) integer literals of Python's [int]. *)
Definition int_literal (t : pystr) (z : Z) : Prop :=
  ∃ ws1 sign s ws2 n, t = ws1 ++ sign ++ s ++ ws2 ∧ Forall blank_char ws1 ∧ Forall blank_char ws2 ∧ int_body s n ∧
    ((sign = [] ∨ sign = u "+") ∧ z = Z.of_N n ∨ sign = u "-" ∧ z = (- Z.of_N n)%Z).
(** A spelling of "true" in any mixture of cases. *)
Definition case_variant (t : pystr) : Prop :=
  ∃ a b c d, t = [a; b; c; d] ∧ (a = 84 ∨ a = 116)%N ∧ (b = 82 ∨ b = 114)%N ∧ (c = 85 ∨ c = 117)%N ∧ (d = 69 ∨ d = 101)%N.
(** What an attribute whose value is [cur] becomes when the text is [t]. *)
Inductive converts (pf : pystr → option pystr) : val → pystr → val → Prop :=
  | cv_int z0 t z : ascii t = true → int_literal t z → converts pf (VInt z0) t (VInt z)
  | cv_float r0 t r : pf t = Some r → converts pf (VFloat r0) t (VFloat r)
  | cv_str s0 t : converts pf (VStr s0) t (VStr t)
  | cv_true b0 t : case_variant t → converts pf (VBool b0) t (VBool true)
  | cv_false b0 t : ¬ case_variant t → converts pf (VBool b0) t (VBool false).

(** What [o.a] evaluates to, when it is not a list. *)
Definition shows (S : schema) (h : heap) (o : nat) (a : name) (v : val) : Prop :=
  ∃ ck, cls_of h o = Some ck ∧
  match lookup_prop S ck a with
  | Some (PAlias p c) => view h o (Priv p) = Some (OV v) ∧ val_cls h v = Some c
  | Some _ => view h o (Priv a) = Some (OV v)
  | None => view h o (key_of a) = Some (OV v)
  end.
(** [a] is an ordinary attribute of [o] with value [v]. *)
Definition plain_value (S : schema) (h : heap) (o : nat) (a : name) (v : val) : Prop :=
  key_of a = Pub a ∧ ∃ ck, cls_of h o = Some ck ∧ lookup_prop S ck a = None ∧ view h o (Pub a) = Some (OV v).
(** [a] is a method of class [ck]: [getP] and [setP] of a property, [addP] and
    [removeP] if it is a collection, [add_P] and [remove_P] of a collection
    that is no property. *)
Definition method_of (S : schema) (ck a : name) : Prop :=
  ∃ c p, c ∈ mro S ck ∧
    (p ∈ map fst (c_props c) ∧ (a = u "get" ++ p ∨ a = u "set" ++ p ∨ p ∈ c_many c ∧ (a = u "add" ++ p ∨ a = u "remove" ++ p)) ∨
     SPlainMany p ∈ c_steps c ∧ (a = u "add_" ++ p ∨ a = u "remove_" ++ p)).
(** Names every object has besides its attributes, properties and methods: those
    of Python's own ([__class__], ...) and the metadata of the CIM classes. *)
Definition reserved (a : name) : Prop :=
  (∃ r, a = u "__" ++ r) ∨
  a = u "_attrs" ∨ a = u "_attr_types" ∨ a = u "_defaults" ∨ a = u "_enums" ∨ a = u "_refs" ∨ a = u "_many_refs".
(** [o.a] is a method. *)
Definition has_method (S : schema) (h : heap) (o : nat) (a : name) : Prop :=
  ¬ reserved a ∧
  ∃ ck, cls_of h o = Some ck ∧ lookup_prop S ck a = None ∧ method_of S ck a ∧ slot h o (key_of a) = None.
(** [o] has no attribute, property or method [a]. *)
Definition lacks (S : schema) (h : heap) (o : nat) (a : name) : Prop :=
  ¬ reserved a ∧
  ∃ ck, cls_of h o = Some ck ∧ lookup_prop S ck a = None ∧ ¬ method_of S ck a ∧ slot h o (key_of a) = None.

(** *** Object graphs to read into *)
(** A consistent graph whose objects have all their reference slots and hold
    plain values (no objects, no lists) in their ordinary attributes: what
    constructors and the class's own methods produce. *)
Record Sound (S : schema) (h : heap) : Prop := {
  so_consistent : Consistent S h;
  so_slots : ∀ o p k, pkind S h o p = Some k →
    match k with POneMany _ | PManyOne _ | POneOne _ | PManyMany _ => is_Some (view h o (Priv p)) | _ => True end;
  so_plain : ∀ o ck a w, cls_of h o = Some ck → plain_attr S ck a → view h o (Pub a) = Some w →
    ∃ v, w = OV v ∧ match v with VRef _ | VList _ => False | _ => True end
}.
(** The dictionary holds references. *)
Definition all_refs (d : dict) : Prop := ∀ id v, assoc id d = Some v → ∃ o, v = VRef o.
(** The dictionary holds objects. *)
Definition dict_alive (d : dict) (h : heap) : Prop :=
  ∀ id v, assoc id d = Some v → ∃ o, v = VRef o ∧ is_Some (cls_of h o).

(** Both ends of every association agree. *)
Record Agree (S : schema) (h : heap) : Prop := {
  ag_one_many : ∀ x p t q w ys, ends_one_many (pkind S h) x p t q →
    view h x (Priv p) = Some w → view h t (Priv q) = Some (OL ys) → (w = OV (VRef t) ↔ VRef x ∈ ys);
  ag_once : ∀ t q p ys, pkind S h t q = Some (PManyOne p) → view h t (Priv q) = Some (OL ys) → NoDup ys;
  ag_one_one : ∀ x p y q v w, ends_one_one (pkind S h) x p y q →
    view h x (Priv p) = Some v → view h y (Priv q) = Some w → (v = OV (VRef y) ↔ w = OV (VRef x));
  ag_many_many : ∀ x p y q ps qs, ends_many_many (pkind S h) x p y q →
    view h x (Priv p) = Some (OL ps) → view h y (Priv q) = Some (OL qs) → (VRef y ∈ ps ↔ VRef x ∈ qs)
}.
(** One slot is written, nothing else changes. *)
Definition SetSlot (V V' : nat → key → option ov) (o : nat) (k : key) (v : val) : Prop :=
  V' o k = Some (OV v) ∧ ∀ o' k', (o', k') ≠ (o, k) → V' o' k' = V o' k'.
(** The effect of a reference from [a] of object [o] (class [ck]) to object
    [y]: the method or assignment for that kind of end, unless a single end is
    set already. *)
Definition ref_effect (S : schema) (h h' : heap) (o : nat) (ck a : name) (y : nat) : Prop :=
  let V := view h in let V' := view h' in
  match lookup_prop S ck a with
  | Some (POneMany q) => if decide (V o (Priv a) = Some (OV VNone)) then SetSingle V V' o a q (VRef y) else h' = h
  | Some (POneOne q) => if decide (V o (Priv a) = Some (OV VNone)) then SetPair V V' o a q (VRef y) else h' = h
  | Some (PManyOne p') => ∃ p, (p' = p ∨ ∃ tk c, cls_of h y = Some tk ∧ lookup_prop S tk p' = Some (PAlias p c)) ∧
      AssignAll V V' [y] p a (VRef o)
  | Some (PManyMany q) => AddMany V V' o a y q
  | Some (PAlias p c) => V o (Priv p) = Some (OV VNone) →
      ∃ q, lookup_prop S ck p = Some (POneMany q) ∧ SetSingle V V' o p q (VRef y)
  | Some PPrivate => V o (Priv a) = Some (OV VNone) → SetSlot V V' o (Priv a) (VRef y)
  | None => V o (Pub a) = Some (OV VNone) → SetSlot V V' o (Pub a) (VRef y)
  | Some (PManyOneDbl _) => True
  end.

(** *** Regions of the heap *)
(** Objects reachable from [D] through attributes and lists belong to [D].
    (No list of the region contains a list.) *)
Definition closed_region (h : heap) (D : nat → Prop) : Prop :=
  ∀ o k v, D o → slot h o k = Some v →
    match v with
    | VRef y => D y
    | VList l => ∀ xs v, h_lists h !! l = Some xs → v ∈ xs →
        match v with VRef y => D y | VList _ => False | _ => True end
    | _ => True
    end.
(** All values of a dictionary are objects of [D]. *)
Definition dict_in (d : dict) (D : nat → Prop) : Prop := ∀ k v, (k, v) ∈ d → ∃ o, v = VRef o ∧ D o.
