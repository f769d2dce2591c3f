(** The argument [source] of cimread: a path or a file object, with the position
    the three parses start from (PyCIM/RDFXMLReader.py:61, 75, 115-119, 237, 245-246).

    Simplifications: what [iterparse] yields for a text is given by the parameter
    [P], and how much of a text [xmlns] has taken from the file when it ends by
    the parameter [used] ([iterparse] reads in blocks); the position of a file
    after an exception is not modelled. *)
From Coq Require Import String.
From stdpp Require Import prelude gmap.
From Verif Require Import PyStr PyHeap Schema Assoc Reader.

(** A path, whose file is opened anew by every [iterparse], or a file object
    with or without a method [seek], with its position (PyCIM/RDFXMLReader.py:34, 75, 119, 237). *)
Inductive input := Path (text : pystr) | File (seeks : bool) (text : pystr) (pos : nat).
(** What is parsed (PyCIM/RDFXMLReader.py:75, 119, 237). *)
Definition remaining (i : input) : pystr :=
  match i with Path t => t | File _ t p => drop p t end.
(** [n] characters are taken from a file (PyCIM/RDFXMLReader.py:75, 119, 237). *)
Definition advance (n : nat) (i : input) : input :=
  match i with Path t => Path t | File b t p => File b t (p + n) end.
(** [if hasattr(source, "seek"): source.seek(0)]
    (PyCIM/RDFXMLReader.py:115-116, 245-246). *)
Definition rewind (i : input) : input :=
  match i with File true t _ => File true t 0 | _ => i end.
(** A parse to the end takes all that remains (PyCIM/RDFXMLReader.py:83-112, 124-212). *)
Definition to_end (i : input) : input := advance (length (remaining i)) i.

Section stream.
Context (P : pystr → source) (used : pystr → nat).

(** [xmlns] (PyCIM/RDFXMLReader.py:230-248). *)
Definition xmlns_input (i : input) : (list (pystr * pystr) + exn) * input :=
  let m := xmlns (P (remaining i)) in
  (m, match m with inl _ => rewind (advance (used (remaining i)) i) | inr _ => i end).

(** Both passes (PyCIM/RDFXMLReader.py:74-215, 227), each with a parse of its own. *)
Definition read_input (S : schema) (pm : list (name * name)) (fuel : nat) (pf : pystr → option pystr) (base rdf : pystr)
    (i : input) (d : dict) (h : heap) : res * input :=
  let s1 := P (remaining i) in
  match skip_root (s_events s1) with
  | None => ((Some (if s_error s1 then ParseError else Unmodelled), d, h), i)
  | Some evs1 =>
      match pass1 S pm fuel base rdf (s_error s1) evs1 false d h with
      | (None, d', h') =>
          let i2 := rewind (to_end i) in
          let s2 := P (remaining i2) in
          match skip_root (s_events s2) with
          | None => ((Some (if s_error s2 then ParseError else Unmodelled), d', h'), i2)
          | Some evs2 => let '(x, h2) := pass2 S fuel pf base rdf d' (s_error s2) evs2 None h' in ((x, d', h2), to_end i2)
          end
      | r => (r, i)
      end
  end.

(** [cimread] (PyCIM/RDFXMLReader.py:31-227), with the arguments of [Reader.cimread]. *)
Definition cimread_input (fuel : nat) (pf : pystr → option pystr) (uri14 : pystr) (t14 t15 : schema * list (name * name))
    (i : input) (packageMap : option (schema * list (name * name))) (nsURI : option pystr)
    (start_dict : option dict) (h : heap) : res * input :=
  let d := default [] start_dict in
  match xmlns_input i with
  | (inr e, i1) => ((Some e, d, h), i1)
  | (inl m, i1) =>
      let rdf := get_rdf_ns m in
      let given := match packageMap with Some (_, _ :: _) => true | _ => false end in
      let given_ns := match nsURI with Some (_ :: _) => true | _ => false end in
      if negb (eqb given_ns given) then ((Some ValueError, d, h), i1)
      else match nsURI, packageMap with
      | None, None =>
          let '(ns, is14) := get_cim_ns uri14 m in
          let '(t, pm) := if is14 : bool then t14 else t15 in
          read_input t pm fuel pf (u "{" ++ ns ++ u "#}") rdf i1 d h
      | Some ns, Some (t, pm) => read_input t pm fuel pf (u "{" ++ ns ++ u "#}") rdf i1 d h
      | _, _ => ((Some Unmodelled, d, h), i1)
      end
  end.
End stream.
