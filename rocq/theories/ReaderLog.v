(** What PyCIM/RDFXMLReader.py reports to its logger, beside the result that
    Reader.v computes.

    Simplifications: the clock and the name of the source are left out of the
    messages (PyCIM/RDFXMLReader.py:51, 54, 223, 225); the counts of unknown
    attributes are taken from the sequence of their texts at the end instead of
    being kept in a dictionary all along (PyCIM/RDFXMLReader.py:55, 153-157). *)
From Coq Require Import String.
From stdpp Require Import prelude gmap.
From Verif Require Import PyStr PyHeap Schema Assoc Reader.

Local Open Scope N_scope.

Inductive level := Info | Warning | Error.
(** The messages, with the values put into them. *)
Inductive message :=
  | MStart                          (* PyCIM/RDFXMLReader.py:54 *)
  | MNoRdf                          (* PyCIM/RDFXMLReader.py:256 *)
  | MNoCim                          (* PyCIM/RDFXMLReader.py:273 *)
  | MNoVersion                      (* PyCIM/RDFXMLReader.py:288 *)
  | MNoModule (tag id : pystr)      (* PyCIM/RDFXMLReader.py:99 *)
  | MNoObject (tag id : pystr)      (* PyCIM/RDFXMLReader.py:137 *)
  | MNoTarget (cls id : pystr)      (* PyCIM/RDFXMLReader.py:188 *)
  | MCount (text : pystr) (n : nat) (* PyCIM/RDFXMLReader.py:219-220 *)
  | MCreated (n : nat)              (* PyCIM/RDFXMLReader.py:223 *)
  | MEnd.                           (* PyCIM/RDFXMLReader.py:225 *)
(* the logger methods called at the lines above, PyCIM/RDFXMLReader.py:54-288 *)
Definition level_of (m : message) : level :=
  match m with
  | MStart | MCreated _ | MEnd => Info
  | MNoRdf | MNoVersion | MCount _ _ => Warning
  | MNoCim | MNoModule _ _ | MNoObject _ _ | MNoTarget _ _ => Error
  end.

(** A message, or a text whose occurrences are counted (PyCIM/RDFXMLReader.py:155). *)
Inductive note := Say (m : message) | Tally (text : pystr).
(* PyCIM/RDFXMLReader.py:99, 137, 188 *)
Definition said (ns : list note) : list message := omap (λ n, match n with Say m => Some m | Tally _ => None end) ns.
(** [logger_errors_grouped[text] += 1], or [= 1] for a new text
    (PyCIM/RDFXMLReader.py:154-157): a dictionary in insertion order. *)
Fixpoint bump (text : pystr) (m : list (pystr * nat)) : list (pystr * nat) :=
  match m with
  | [] => [(text, 1%nat)]
  | (k, n) :: r => if str_eqb text k then (k, Datatypes.S n) :: r else (k, n) :: bump text r
  end.
(* PyCIM/RDFXMLReader.py:55, 154-157 *)
Definition tallied (ns : list note) (m : list (pystr * nat)) : list (pystr * nat) :=
  fold_left (λ m n, match n with Say _ => m | Tally t => bump t m end) ns m.

Section log.
Context (S : schema) (pm : list (name * name)) (fuel : nat) (pf : pystr → option pystr) (base rdf : pystr).

(** First pass, one event: an object element whose class is not in the package
    map (PyCIM/RDFXMLReader.py:96-102). *)
Definition pass1_note (cleared : bool) (ev : event) : list note :=
  match ev with
  | EEnd e =>
      if in_base base e then
        match uuid_of rdf (if e_root e && cleared then [] else e_attrs e) with
        | Some id => match assoc (local base e) pm with None => [Say (MNoModule (local base e) id)] | Some _ => [] end
        | None => []
        end
      else []
  | _ => []
  end.
(** First pass, up to an exception (PyCIM/RDFXMLReader.py:75-112). *)
Fixpoint pass1_notes (evs : list event) (cleared : bool) (d : dict) (h : heap) : list note :=
  match evs with
  | [] => []
  | ENs _ _ :: r => pass1_notes r cleared d h
  | ev :: r =>
      pass1_note cleared ev ++
      match pass1_step S pm fuel base rdf cleared ev d h with
      | (inl d', h') => pass1_notes r true d' h'
      | (inr _, _) => []
      end
  end.

(** [obj.__class__.__name__] (PyCIM/RDFXMLReader.py:153, 190). *)
Definition class_name (h : heap) (o : nat) : pystr :=
  default [] (ck ← cls_of h o; c ← find_cls S ck; Some (c_name c)).
(** The text of PyCIM/RDFXMLReader.py:153. *)
Definition missing_text (cls a : pystr) : pystr := u "'" ++ cls ++ u "' has not attribute '" ++ a ++ u "'".
(** One property element of object [o]: an unknown attribute
    (PyCIM/RDFXMLReader.py:152-160), or else a reference to nothing
    (PyCIM/RDFXMLReader.py:164, 184-192). *)
Definition property_note (d : dict) (o : nat) (e : elem) (h : heap) : list note :=
  let a := after_last_dot (local base e) in
  match find_attr S o a h with
  | Missing => [Tally (missing_text (class_name h o) a)]
  | _ =>
      match rdf_attr rdf "resource" (e_attrs e) with
      | Some (c :: id) => if c =? 35 then match assoc id d with None => [Say (MNoTarget (class_name h o) id)] | Some _ => [] end else []
      | _ => []
      end
  end.
(** Second pass, one event (PyCIM/RDFXMLReader.py:124-212): an object element in the outer loop
    whose identifier is not in the dictionary (PyCIM/RDFXMLReader.py:132-140), or a property. *)
Definition pass2_note (d : dict) (cur : option val) (ev : event) (h : heap) : list note :=
  match cur, ev with
  | None, EStart e =>
      if in_base base e then
        match uuid_of rdf (e_attrs e) with
        | Some id => match assoc id d with None => [Say (MNoObject (local base e) id)] | Some _ => [] end
        | None => []
        end
      else []
  | Some v, EEnd e =>
      if in_base base e then
        match rdf_attr rdf "ID" (e_attrs e), rdf_attr rdf "about" (e_attrs e) with
        | None, None => match v with VRef o => property_note d o e h | _ => [] end
        | _, _ => []
        end
      else []
  | _, _ => []
  end.
(* PyCIM/RDFXMLReader.py:119-215 *)
Fixpoint pass2_notes (d : dict) (evs : list event) (cur : option val) (h : heap) : list note :=
  match evs with
  | [] => []
  | ev :: r =>
      pass2_note d cur ev h ++
      match pass2_step S fuel pf base rdf d cur ev h with
      | (inl cur', h') => pass2_notes d r cur' h'
      | (inr _, _) => []
      end
  end.

(** Both passes and the summary (PyCIM/RDFXMLReader.py:74-225). *)
Definition read_log (src : source) (d : dict) (h : heap) : list message :=
  match skip_root (s_events src) with
  | None => []
  | Some evs =>
      let n1 := pass1_notes evs false d h in
      match pass1 S pm fuel base rdf (s_error src) evs false d h with
      | (None, d', h') =>
          let n2 := pass2_notes d' evs None h' in
          said n1 ++ said n2 ++
          match pass2 S fuel pf base rdf d' (s_error src) evs None h' with
          | (None, _) => map (λ tn, MCount (fst tn) (snd tn)) (tallied n2 []) ++ [MCreated (length d'); MEnd]
          | (Some _, _) => []
          end
      | _ => said n1
      end
  end.
End log.

(** [get_rdf_ns] (PyCIM/RDFXMLReader.py:251-258). *)
Definition rdf_ns_log (m : list (pystr * pystr)) : list message :=
  match assoc (u "rdf") m with Some _ => [] | None => [MNoRdf] end.
(* PyCIM/RDFXMLReader.py:275 *)
Definition cim16_uri : pystr := u "http://iec.ch/TC57/2013/CIM-schema-cim16".
(** [get_cim_ns] (PyCIM/RDFXMLReader.py:261-292). *)
Definition cim_ns_log (uri14 uri15 : pystr) (m : list (pystr * pystr)) : list message :=
  let ns := fst (get_cim_ns uri14 m) in
  match assoc (u "cim") m with Some _ => [] | None => [MNoCim] end ++
  if str_eqb ns uri14 || str_eqb ns uri15 || str_eqb ns cim16_uri then [] else [MNoVersion].

(** [cimread] (PyCIM/RDFXMLReader.py:31-227), with the arguments of [Reader.cimread]. *)
Definition cimread_log (fuel : nat) (pf : pystr → option pystr) (uri14 uri15 : pystr) (t14 t15 : schema * list (name * name))
    (src : source) (packageMap : option (schema * list (name * name))) (nsURI : option pystr)
    (start_dict : option dict) (h : heap) : list message :=
  let d := default [] start_dict in
  MStart ::
  match xmlns src with
  | inr _ => []
  | inl m =>
      let rdf := get_rdf_ns m in
      rdf_ns_log m ++
      let given := match packageMap with Some (_, _ :: _) => true | _ => false end in
      let given_ns := match nsURI with Some (_ :: _) => true | _ => false end in
      if negb (eqb given_ns given) then []
      else match nsURI, packageMap with
      | None, None =>
          let '(ns, is14) := get_cim_ns uri14 m in
          let '(t, pm) := if is14 : bool then t14 else t15 in
          cim_ns_log uri14 uri15 m ++ read_log t pm fuel pf (u "{" ++ ns ++ u "#}") rdf src d h
      | Some ns, Some (t, pm) => read_log t pm fuel pf (u "{" ++ ns ++ u "#}") rdf src d h
      | _, _ => []
      end
  end.
