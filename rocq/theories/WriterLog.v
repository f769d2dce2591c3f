(** What PyCIM/RDFXMLWriter.py reports to its logger and returns, beside the
    document that CimWriter.v computes.

    Simplification: the clock is left out of the message
    (PyCIM/RDFXMLWriter.py:49, 109). *)
From Coq Require Import String ZArith.
From stdpp Require Import prelude gmap.
From Verif Require Import PyStr PyHeap Schema Assoc Reader XmlWriter CimWriter ReaderLog.

(** The message, with the number put into it. *)
Inductive wmessage := MSerialised (n : nat).    (* PyCIM/RDFXMLWriter.py:109 *)
(* the logger method called, PyCIM/RDFXMLWriter.py:109 *)
Definition wlevel_of (m : wmessage) : level := match m with MSerialised _ => Info end.
(** A call of [cimwrite] (PyCIM/RDFXMLWriter.py:34-109): the value returned or
    the exception, the heap, the writer and the messages.  There is no return
    statement; the message comes after everything that can raise. *)
Definition cimwrite_call (S : schema) (fint : pystr → option Z) (nsURI nsPrefix : pystr) (d : dict) (enc : pystr) (h : heap) :
    (val + exn) * heap * writer * list wmessage :=
  match cimwrite S fint nsURI nsPrefix d enc h with
  | (inl _, h', w) => (inl VNone, h', w, [MSerialised (length d)])
  | (inr e, h', w) => (inr e, h', w, [])
  end.
