(** Vocabulary for the properties of file objects given to cimread. *)
From Coq Require Import String.
From stdpp Require Import prelude gmap.
From Verif Require Import PyStr PyHeap Schema Reader ReaderSpec XmlSpec WriteSpec Stream.

(** A parser: nothing is an error at once (no element found), what is no error
    has an element, and a document is parsed as such. *)
Record parser_ok (P : pystr → source) : Prop := {
  pa_empty : P [] = Source [] true;
  pa_root : ∀ text, s_error (P text) = false → ∃ e, EStart e ∈ s_events (P text);
  pa_parses : ∀ text src, parses_to text src → P text = src
}.
(** The file that a client has just written [text] into, a buffer say. *)
Definition just_written (text : pystr) : input := File true text (length text).
(** [f.seek(0)] by the client. *)
Definition sought (i : input) : input := match i with Path t => Path t | File b t _ => File b t 0 end.
(** The document breaks off where it ends. *)
Definition broken_off (src : source) : source := Source (s_events src) true.
