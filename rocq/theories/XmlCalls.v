(** Client programs of the XML writer as call trees, and the document each
    tree stands for. *)
From Coq Require Import String.
From stdpp Require Import prelude.
From Verif Require Import PyStr PyHeap XmlWriter XmlSpec.

(** Calls of the methods at PyCIM/SimpleXMLWriter.py:196-271, nested as in
    PyCIM/RDFXMLWriter.py:61-104.  [CElem t a body named] is [w.start(t, a); body; w.end()] ([w.end(t)] if
    [named]); the other calls are single method calls. *)
Inductive call :=
  | CData (s : pystr)
  | CElem (tag : pystr) (attrib : attrs) (body : list call) (named : bool)
  | CElement (tag : pystr) (text : option pystr) (attrib : attrs)
  | CComment (s : pystr).

Definition wbind (m : (unit + exn) * writer) (k : writer → (unit + exn) * writer) : (unit + exn) * writer :=
  match m with (inl _, w) => k w | (inr e, w) => (inr e, w) end.
Fixpoint run_call (c : call) (w : writer) : (unit + exn) * writer :=
  match c with
  | CData s => (inl tt, w_add_data s w)
  | CElem tag attrib body named =>
      wbind ((fix go (l : list call) (w : writer) : (unit + exn) * writer :=
                match l with
                | [] => (inl tt, w)
                | c :: r => wbind (run_call c w) (go r)
                end) body (snd (w_start tag attrib [] w)))
        (w_end (if named then Some tag else None))
  | CElement tag text attrib => w_element tag text attrib [] w
  | CComment s => (inl tt, w_comment s w)
  end.
Fixpoint run_calls (l : list call) (w : writer) : (unit + exn) * writer :=
  match l with
  | [] => (inl tt, w)
  | c :: r => wbind (run_call c w) (run_calls r)
  end.

(** *** The document a call stands for *)
(** Empty text is nothing, adjacent text is one text. *)
Fixpoint merge_text (l : list node) : list node :=
  match l with
  | [] => []
  | NText s :: r =>
      match s, merge_text r with
      | [], m => m
      | _, NText s' :: m => NText (s ++ s') :: m
      | _, m => NText s :: m
      end
  | n :: r => n :: merge_text r
  end.
(** A comment is followed by a newline, which is character data.  [ord] is the
    order in which the attributes are listed. *)
Section tree.
  Context (ord : attrs → attrs).
  Fixpoint call_tree (c : call) : node :=
    match c with
    | CData s => NText s
    | CElem tag attrib body _ => NElem tag (ord attrib) (merge_text (map call_tree body))
    | CElement tag text attrib => NElem tag (ord attrib) (merge_text [NText (default [] text)])
    | CComment _ => NText [10%N]
    end.
End tree.

(** *** Legal calls *)
(** Characters that survive in character data: XML 1.0 characters other than
    the carriage return. *)
Definition data_char (c : N) : bool := xml_char c && negb (c =? 13)%N.
(** Characters that survive in an attribute value: also no tab, no newline. *)
Definition attr_char (c : N) : bool := data_char c && negb (c =? 9)%N && negb (c =? 10)%N.
(** No two hyphens in a row. *)
Fixpoint no_double_hyphen (s : pystr) : bool :=
  match s with
  | 45%N :: ((45%N :: _) as r) => false
  | _ :: r => no_double_hyphen r
  | [] => true
  end.
Definition legal_attrs (a : attrs) : Prop :=
  NoDup (map fst a) ∧ ∀ k v, (k, v) ∈ a → is_name k = true ∧ forallb attr_char v = true.
Inductive legal : call → Prop :=
  | legal_data s : forallb data_char s = true → legal (CData s)
  | legal_elem tag attrib body named :
      is_name tag = true → legal_attrs attrib → (∀ c, c ∈ body → legal c) → legal (CElem tag attrib body named)
  | legal_element tag text attrib :
      is_name tag = true → legal_attrs attrib → forallb data_char (default [] text) = true →
      legal (CElement tag text attrib)
  | legal_comment s : forallb data_char s = true → no_double_hyphen s = true → legal (CComment s).

(** *** Documents *)
(** An XML writer on a new file; the declaration if asked for; then the call. *)
Definition document (declare : bool) (enc : pystr) (c : call) : (unit + exn) * writer :=
  run_call c (if declare then w_declaration (w_init enc) else w_init enc).
Definition is_element (c : call) : bool :=
  match c with CElem _ _ _ _ | CElement _ _ _ => true | _ => false end.
(** Code point order of strings. *)
Fixpoint str_lt (a b : pystr) : Prop :=
  match a, b with
  | _, [] => False
  | [], _ :: _ => True
  | x :: a', y :: b' => (x < y)%N ∨ x = y ∧ str_lt a' b'
  end.

(** *** Escaped text *)
(** Every ampersand starts one of the given entities. *)
Definition amp_ok (ents : list pystr) (s : pystr) : Prop :=
  ∀ pre post, s = pre ++ 38%N :: post → ∃ e rest, e ∈ ents ∧ post = e ++ rest.
Definition cdata_entities : list pystr := [u "amp;"; u "lt;"; u "gt;"].
Definition attrib_entities : list pystr := [u "amp;"; u "apos;"; u "quot;"; u "lt;"; u "gt;"].
