(** The reader PyCIM/RDFXMLReader.py, on the event stream of [iterparse].

    Simplifications, stated once for the whole file:
    - the source can be read any number of times (a path, or a file with
      [seek]) and yields the same events each time;
    - log messages and the counters of unknown attributes are in ReaderLog.v
      (lines 54-55, 99, 137, 153-157, 188, 217-225), the clock is left out;
    - values of [start_dict] are CIM objects of the class table in use; any
      other value makes the model answer [Unmodelled]. *)
From Coq Require Import String.
From stdpp Require Import prelude gmap.
From Verif Require Import PyStr PyHeap Schema Assoc.

Local Open Scope N_scope.

(** What [iterparse] hands out for an element: the tag and the attribute names
    are in the form ["{uri}local"]; [e_text] is the character data before the
    first child, None when there is none, and is complete at the end event
    (PyCIM/RDFXMLReader.py:85, 88, 164, 173, 178); [e_root]: the element is the
    root (PyCIM/RDFXMLReader.py:81). *)
Record elem := Elem { e_tag : pystr; e_attrs : list (pystr * pystr); e_text : option pystr; e_root : bool }.
(* the events asked for at PyCIM/RDFXMLReader.py:75, 119, 236 *)
Inductive event := EStart (e : elem) | EEnd (e : elem) | ENs (prefix uri : pystr).
(** The events [iterparse] yields, and whether it raises ParseError after the
    last one (PyCIM/RDFXMLReader.py:75, 119, 237). *)
Record source := Source { s_events : list event; s_error : bool }.

(** A dictionary in insertion order (PyCIM/RDFXMLReader.py:58); [d[k] = v] (PyCIM/RDFXMLReader.py:109) keeps the
    position of an existing key. *)
Definition dict := list (pystr * val).
(* PyCIM/RDFXMLReader.py:109 *)
Fixpoint dset (k : pystr) (v : val) (d : dict) : dict :=
  match d with
  | [] => [(k, v)]
  | (k', v') :: r => if str_eqb k k' then (k, v) :: r else (k', v') :: dset k v r
  end.

(** [xmlns] (PyCIM/RDFXMLReader.py:230-248): the namespace declarations seen before the first
    end event.  A dictionary again, so a later declaration of a prefix replaces
    an earlier one. *)
Fixpoint nsset (k v : pystr) (m : list (pystr * pystr)) : list (pystr * pystr) :=
  match m with
  | [] => [(k, v)]
  | (k', v') :: r => if str_eqb k k' then (k, v) :: r else (k', v') :: nsset k v r
  end.
(* PyCIM/RDFXMLReader.py:237-242 *)
Fixpoint xmlns_from (err : bool) (evs : list event) (m : list (pystr * pystr)) : list (pystr * pystr) + exn :=
  match evs with
  | [] => if err then inr ParseError else inl m
  | ENs p v :: r => xmlns_from err r (nsset p v m)
  | EEnd _ :: _ => inl m
  | EStart _ :: r => xmlns_from err r m
  end.
(* PyCIM/RDFXMLReader.py:230-248 *)
Definition xmlns (src : source) : list (pystr * pystr) + exn := xmlns_from (s_error src) (s_events src) [].

(** [get_rdf_ns] (PyCIM/RDFXMLReader.py:251-258). *)
Definition rdf_default : pystr := u "http://www.w3.org/1999/02/22-rdf-syntax-ns#".
(* PyCIM/RDFXMLReader.py:251-258 *)
Definition get_rdf_ns (m : list (pystr * pystr)) : pystr := default rdf_default (assoc (u "rdf") m).

(** [get_cim_ns] (PyCIM/RDFXMLReader.py:261-292): the namespace without a trailing "#", and
    whether the package map is CIM14's; it is CIM15's otherwise (PyCIM/RDFXMLReader.py:280-288).  [uri14] is CIM14.nsURI. *)
Definition strip_hash (s : pystr) : pystr :=
  match reverse s with
  | 35 :: r => reverse r
  | _ => s
  end.
(* PyCIM/RDFXMLReader.py:261-292 *)
Definition get_cim_ns (uri14 : pystr) (m : list (pystr * pystr)) : pystr * bool :=
  let ns := match assoc (u "cim") m with Some v => strip_hash v | None => [] end in
  (ns, str_eqb ns uri14).

Section reader.
(** The class table, the package map (tag to class), the recursion limit,
    [float(text)] as the [repr] of the result (None is the ValueError), and the
    strings [base] (PyCIM/RDFXMLReader.py:70) and [ns_rdf] (PyCIM/RDFXMLReader.py:62). *)
Context (S : schema) (pm : list (name * name)) (fuel : nat) (pf : pystr → option pystr) (base rdf : pystr).

(** [elem.tag[:m] == base] (PyCIM/RDFXMLReader.py:85, 126, 145). *)
Definition in_base (e : elem) : bool := has_prefix base (e_tag e).
(** [elem.get("{%s}name" % ns_rdf)] (PyCIM/RDFXMLReader.py:88, 90, 164). *)
Definition rdf_attr (n : string) (attrs : list (pystr * pystr)) : option pystr :=
  assoc (u "{" ++ rdf ++ u "}" ++ u n) attrs.
(** The identifier, PyCIM/RDFXMLReader.py:88-92 and 127-131. *)
Definition uuid_of (attrs : list (pystr * pystr)) : option pystr :=
  match rdf_attr "ID" attrs with
  | Some s => Some s
  | None => match rdf_attr "about" attrs with Some s => Some (drop 1 s) | None => None end
  end.
(** [elem.tag[m:]] (PyCIM/RDFXMLReader.py:95, 150). *)
Definition local (e : elem) : pystr := drop (length base) (e_tag e).

(** First pass, the loop body (PyCIM/RDFXMLReader.py:83-112).  [cleared]: [root.clear()] has
    been called, which removes the attributes of the root element, so that the
    root counts as an object only when its end event is the first event of the
    loop. *)
Definition pass1_step (cleared : bool) (ev : event) (d : dict) : M dict :=
  match ev with
  | EEnd e =>
      if in_base e then
        match uuid_of (if e_root e && cleared then [] else e_attrs e) with
        | Some id =>
            match assoc (local e) pm with
            | None => ret d
            | Some k => let* o := construct S fuel k [] [(u "UUID", VStr id)] in ret (dset id o d)
            end
        | None => ret d
        end
      else ret d
  | _ => ret d
  end.

(** A result carries the dictionary also when an exception leaves the call:
    [start_dict] is updated in place (PyCIM/RDFXMLReader.py:58, 109, 227). *)
Definition res : Type := (option exn) * dict * heap.
(* PyCIM/RDFXMLReader.py:75-112 *)
Fixpoint pass1 (err : bool) (evs : list event) (cleared : bool) (d : dict) (h : heap) : res :=
  match evs with
  | [] => (if err then Some ParseError else None, d, h)
  | ENs _ _ :: r => pass1 err r cleared d h (* not among the events asked for, PyCIM/RDFXMLReader.py:75 *)
  | ev :: r =>
      match pass1_step cleared ev d h with
      | (inl d', h') => pass1 err r true d' h'
      | (inr e, h') => (Some e, d, h')
      end
  end.

(** Names found on the class rather than in the instance dictionary: the
    methods of one class statement (CIM14/IEC61970/Core/Terminal.py:96-133; without
    a property CIM14/IEC61970/Protection/ProtectionEquipment.py:67-73), those of
    the class and its bases, and the metadata and special names. *)
Definition methods (c : cls) : list name :=
  flat_map (λ p, (u "get" ++ p.1) :: (u "set" ++ p.1) ::
    if existsb (str_eqb p.1) (c_many c) then [u "add" ++ p.1; u "remove" ++ p.1] else []) (c_props c) ++
  flat_map (λ st, match st with SPlainMany p => [u "add_" ++ p; u "remove_" ++ p] | _ => [] end) (c_steps c).
(* CIM14/IEC61970/Core/Terminal.py:96-133 *)
Definition accessor_name (ck a : name) : bool :=
  existsb (λ c, existsb (str_eqb a) (methods c)) (mro S ck).
(* the metadata, for example CIM14/IEC61970/Core/Terminal.py:89-94 *)
Definition special_name (a : name) : bool :=
  str_eqb (take 2 a) (u "__") ||
  existsb (λ n, str_eqb a (u n)) ["_attrs"; "_attr_types"; "_defaults"; "_enums"; "_refs"; "_many_refs"]%string.

(** What [hasattr(obj, attr)] and [getattr(obj, attr)] find (PyCIM/RDFXMLReader.py:152, 169,
    194). *)
Inductive found := Found (v : val) | Accessor | Special | Missing.
(* PyCIM/RDFXMLReader.py:152, 169, 194 *)
Definition find_attr (o : nat) (a : name) (h : heap) : found :=
  match fst (getattr S (VRef o) a h) with
  | inl v => Found v
  | inr _ =>
      if special_name a then Special
      else match cls_of h o with
           | Some ck => if accessor_name ck a then Accessor else Missing
           | None => Missing
           end
  end.

(** [typ(elem.text)] where [typ] is the type of the current value, with the
    special case for bool (PyCIM/RDFXMLReader.py:169-178).  [type(None)(text)] is a TypeError.
    A list is made of the characters; the type of a CIM object is its class,
    whose constructor gets the text as its first argument. *)
Definition ascii (s : pystr) : bool := forallb (λ c, c <? 128) s.
(* PyCIM/RDFXMLReader.py:169-178 *)
Definition convert (cur : val) (text : option pystr) : M val := λ h,
  match cur, text with
  | VBool _, Some t => (inl (VBool (str_eqb (title t) (u "True"))), h)
  | VBool _, None => (inr TypeError, h)
  | VInt _, Some t =>
      if ascii t then match parse_int t with Some z => (inl (VInt z), h) | None => (inr ValueError, h) end
      else (inr Unmodelled, h)
  | VInt _, None => (inr TypeError, h)
  | VFloat _, Some t => match pf t with Some r => (inl (VFloat r), h) | None => (inr ValueError, h) end
  | VFloat _, None => (inr TypeError, h)
  | VStr _, Some t => (inl (VStr t), h)
  | VStr _, None => (inl (VStr (u "None")), h)
  | VNone, _ => (inr TypeError, h)
  | VList _, Some t => new_list (map (λ c, VStr [c]) t) h
  | VList _, None => (inr TypeError, h)
  | VRef o, t =>
      match cls_of h o with
      | Some ck => construct S fuel ck [match t with Some t => VStr t | None => VNone end] [] h
      | None => (inr Unmodelled, h)
      end
  end.

(** [try: ... except TypeError: pass] (PyCIM/RDFXMLReader.py:168, 179-180). *)
Definition swallow_type (m : M unit) : M unit := λ h,
  match m h with
  | (inr TypeError, h') => (inl tt, h')
  | r => r
  end.

(** An attribute without rdf:resource (PyCIM/RDFXMLReader.py:166-180).  The type of a bound
    method refuses a single argument with a TypeError. *)
Definition set_text (o : nat) (a : name) (text : option pystr) : M unit := λ h,
  match find_attr o a h with
  | Missing | Accessor => (inl tt, h)
  | Special => (inr Unmodelled, h)
  | Found cur => swallow_type (let* v := convert cur text in setattr S fuel (VRef o) a v) h
  end.

(** A reference (PyCIM/RDFXMLReader.py:184-201).  [isinstance(default, list)] and
    [default == None] are false for a bound method. *)
Definition set_ref (d : dict) (o : nat) (a : name) (id : pystr) : M unit := λ h,
  match find_attr o a h with
  | Missing => (inl tt, h)
  | w =>
      match assoc id d with
      | None => (inl tt, h)
      | Some v =>
          match w with
          | Found VNone => setattr S fuel (VRef o) a v h
          | Found (VList _) =>
              (* [add_P] is a method of some classes *)
              if match a with 95 :: _ => true | _ => false end then (inr Unmodelled, h)
              else add S fuel (VRef o) a [v] h
          | Special => (inr Unmodelled, h)
          | _ => (inl tt, h)
          end
      end
  end.

(** An enumeration (PyCIM/RDFXMLReader.py:206-208). *)
Definition set_enum (o : nat) (a : name) (uri : pystr) : M unit := λ h,
  match find_attr o a h with
  | Missing => (inl tt, h)
  | w =>
      match rsplit1_1 uri with
      | None => (inr IndexError, h)
      | Some s =>
          match w with
          | Found _ => setattr S fuel (VRef o) a (VStr s) h
          | _ => (inr Unmodelled, h)
          end
      end
  end.

(** One property element of object [o] (PyCIM/RDFXMLReader.py:149-208).  [uuid2[0]] of the
    empty string is an IndexError. *)
Definition set_property (d : dict) (o : nat) (e : elem) : M unit := λ h,
  let a := after_last_dot (local e) in
  match rdf_attr "resource" (e_attrs e) with
  | None => set_text o a (e_text e) h
  | Some [] => match find_attr o a h with Missing => (inl tt, h) | _ => (inr IndexError, h) end
  | Some (c :: r) => if c =? 35 then set_ref d o a r h else set_enum o a (c :: r) h
  end.

(** Second pass: one event.  The state is the object whose properties are being
    read: Some inside the inner loop (PyCIM/RDFXMLReader.py:143-212), None in the outer loop
    (PyCIM/RDFXMLReader.py:124-140).  In a well-nested stream the end of the root
    is never met in the inner loop, which the end of an object leaves, so that
    [root.clear()] (PyCIM/RDFXMLReader.py:215) makes no difference here. *)
Definition pass2_step (d : dict) (cur : option val) (ev : event) : M (option val) :=
  match cur, ev with
  | None, EStart e =>
      if in_base e then
        match uuid_of (e_attrs e) with
        | Some id => ret (assoc id d)
        | None => ret None
        end
      else ret None
  | Some v, EEnd e =>
      if in_base e then
        match rdf_attr "ID" (e_attrs e), rdf_attr "about" (e_attrs e) with
        | None, None =>
            match v with
            | VRef o => set_property d o e ;;; ret cur
            | _ => raise Unmodelled
            end
        | _, _ => ret None
        end
      else ret cur
  | _, _ => ret cur
  end.
(* PyCIM/RDFXMLReader.py:119-215 *)
Fixpoint pass2 (d : dict) (err : bool) (evs : list event) (cur : option val) (h : heap) : option exn * heap :=
  match evs with
  | [] => (if err then Some ParseError else None, h)
  | ev :: r =>
      match pass2_step d cur ev h with
      | (inl cur', h') => pass2 d err r cur' h'
      | (inr e, h') => (Some e, h')
      end
  end.

(** [_, root = next(context)] (PyCIM/RDFXMLReader.py:81, 122): the first start or end event. *)
Fixpoint skip_root (evs : list event) : option (list event) :=
  match evs with
  | [] => None
  | ENs _ _ :: r => skip_root r
  | _ :: r => Some r
  end.

(** Both passes (PyCIM/RDFXMLReader.py:74-215, 227). *)
Definition read (src : source) (d : dict) (h : heap) : res :=
  match skip_root (s_events src) with
  | None => (Some (if s_error src then ParseError else Unmodelled), d, h)
  | Some evs =>
      match pass1 (s_error src) evs false d h with
      | (None, d', h') => let '(x, h2) := pass2 d' (s_error src) evs None h' in (x, d', h2)
      | r => r
      end
  end.
End reader.

(** [cimread] (PyCIM/RDFXMLReader.py:31-227).  [t14] and [t15] are the class tables and package
    maps of CIM14 and CIM15, a package map given by the caller comes with its
    class table.  Giving one argument as None and the other empty passes the
    check of PyCIM/RDFXMLReader.py:63 and is outside the model. *)
Definition cimread (fuel : nat) (pf : pystr → option pystr) (uri14 : pystr) (t14 t15 : schema * list (name * name))
    (src : source) (packageMap : option (schema * list (name * name))) (nsURI : option pystr)
    (start_dict : option dict) (h : heap) : res :=
  let d := default [] start_dict in
  match xmlns src with
  | inr e => (Some e, d, h)
  | inl m =>
      let rdf := get_rdf_ns m in
      let given := match packageMap with Some (_, _ :: _) => true | _ => false end in
      let given_ns := match nsURI with Some (_ :: _) => true | _ => false end in
      if negb (eqb given_ns given) then (Some ValueError, d, h)
      else match nsURI, packageMap with
      | None, None =>
          let '(ns, is14) := get_cim_ns uri14 m in
          let '(t, pm) := if is14 : bool then t14 else t15 in
          read t pm fuel pf (u "{" ++ ns ++ u "#}") rdf src d h
      | Some ns, Some (t, pm) => read t pm fuel pf (u "{" ++ ns ++ u "#}") rdf src d h
      | _, _ => (Some Unmodelled, d, h)
      end
  end.
