(** cimread together with the imports it makes: [Reader.v] with [sys.modules] as a
    further part of the state.  Only the first pass and [get_cim_ns] import
    (PyCIM/RDFXMLReader.py:104, 279, 290). *)
From Coq Require Import String PArith.
From stdpp Require Import prelude gmap.
From Verif Require Import PyStr PyHeap Schema Assoc Reader Imports.

(** What leaves the call: an exception of the reader or of the classes, or one of an
    import (PyCIM/RDFXMLReader.py:104-109). *)
Inductive stop := Raised (e : exn) | ImportFailed (e : import_error).
(* PyCIM/RDFXMLReader.py:31-227 *)
Definition ires : Type := option stop * dict * heap * session.
(* PyCIM/RDFXMLReader.py:31-227 *)
Definition of_res (r : res) (s : session) : ires := let '(x, d, h) := r in (Raised <$> x, d, h, s).

(** The key under which the class tables have the class that module [m] makes: the
    dotted name of the module and the name of the class
    (CIM14/IEC61970/Core/Terminal.py:23). *)
Fixpoint dots_of (P : gmap positive module) (ms : list positive) : pystr :=
  match ms with
  | [] => []
  | [m] => match P !! m with Some M => m_last M | None => [] end
  | m :: r => dots_of P r ++ u "." ++ match P !! m with Some M => m_last M | None => [] end
  end.
(* CIM14/IEC61970/Core/Terminal.py:23 *)
Definition class_key (P : gmap positive module) (m : positive) (n : name) : name := dots_of P (m :: ups P m) ++ u "." ++ n.

Section reader.
(** The modules, the class table, the package map (tag to package), the limits of the
    import and of the classes, and the strings of [Reader.v]
    (PyCIM/RDFXMLReader.py:31-70). *)
Context (P : gmap positive module) (t : schema) (pk : list (name * positive)) (g fuel : nat) (base rdf : pystr).

(* PyCIM/RDFXMLReader.py:83-112 *)
Definition step_imports (cleared : bool) (ev : event) (d : dict) (h : heap) (s : session) : (dict + stop) * heap * session :=
  match ev with
  | EEnd e =>
      if in_base base e then
        match uuid_of rdf (if e_root e && cleared then [] else e_attrs e) with
        | Some id =>
            match assoc (local base e) pk with
            | None => (inl d, h, s)
            | Some p =>
                match import_class P g p (local base e) s with
                | (inl (BClass m n), s') =>
                    match construct t fuel (class_key P m n) [] [(u "UUID", VStr id)] h with
                    | (inl o, h') => (inl (dset id o d), h', s')
                    | (inr x, h') => (inr (Raised x), h', s')
                    end
                | (inl _, s') => (inr (ImportFailed ImportUnmodelled), h, s')
                | (inr x, s') => (inr (ImportFailed x), h, s')
                end
            end
        | None => (inl d, h, s)
        end
      else (inl d, h, s)
  | _ => (inl d, h, s)
  end.
(* PyCIM/RDFXMLReader.py:75-112 *)
Fixpoint pass1_imports (err : bool) (evs : list event) (cleared : bool) (d : dict) (h : heap) (s : session) : ires :=
  match evs with
  | [] => (if err then Some (Raised ParseError) else None, d, h, s)
  | ENs _ _ :: r => pass1_imports err r cleared d h s
  | ev :: r =>
      match step_imports cleared ev d h s with
      | (inl d', h', s') => pass1_imports err r true d' h' s'
      | (inr x, h', s') => (Some x, d, h', s')
      end
  end.
(** Both passes (PyCIM/RDFXMLReader.py:74-215, 227). *)
Definition read_imports (pf : pystr → option pystr) (src : source) (d : dict) (h : heap) (s : session) : ires :=
  match skip_root (s_events src) with
  | None => (Some (Raised (if s_error src then ParseError else Unmodelled)), d, h, s)
  | Some evs =>
      match pass1_imports (s_error src) evs false d h s with
      | (None, d', h', s') => let '(x, h2) := pass2 t fuel pf base rdf d' (s_error src) evs None h' in (Raised <$> x, d', h2, s')
      | r => r
      end
  end.
End reader.

(** [import CIM14, CIM15] (PyCIM/RDFXMLReader.py:279). *)
Fixpoint import_all (P : gmap positive module) (g : nat) (ms : list positive) (s : session) : option import_error * session :=
  match ms with
  | [] => (None, s)
  | m :: r => match import_module P g m s with (None, s') => import_all P g r s' | e => e end
  end.
(** [cimread] (PyCIM/RDFXMLReader.py:31-227), as in [Reader.v]; [roots]: CIM14 and CIM15.
    A map of packages given by the caller comes with its class table. *)
Definition cimread_imports (P : gmap positive module) (roots : list positive) (g fuel : nat) (pf : pystr → option pystr) (uri14 : pystr)
    (t14 t15 : schema * list (name * positive)) (src : source) (packageMap : option (schema * list (name * positive)))
    (nsURI : option pystr) (start_dict : option dict) (h : heap) (s : session) : ires :=
  let d := default [] start_dict in
  match xmlns src with
  | inr e => (Some (Raised e), d, h, s)
  | inl m =>
      let rdf := get_rdf_ns m in
      let given := match packageMap with Some (_, _ :: _) => true | _ => false end in
      let given_ns := match nsURI with Some (_ :: _) => true | _ => false end in
      if negb (eqb given_ns given) then (Some (Raised ValueError), d, h, s)
      else match nsURI, packageMap with
      | None, None =>
          match import_all P g roots s with
          | (Some e, s') => (Some (ImportFailed e), d, h, s')
          | (None, s') =>
              let '(ns, is14) := get_cim_ns uri14 m in
              let '(t, pk) := if is14 : bool then t14 else t15 in
              read_imports P t pk g fuel (u "{" ++ ns ++ u "#}") rdf pf src d h s'
          end
      | Some ns, Some (t, pk) => read_imports P t pk g fuel (u "{" ++ ns ++ u "#}") rdf pf src d h s
      | _, _ => (Some (Raised Unmodelled), d, h, s)
      end
  end.
