(** PyCIM/PrettyPrintXML.py.  [parse] and [tostring] (lines 21, 24, 26) are
    ElementTree's; the model has the tree between them.  RecursionError on very
    deep trees is left out. *)
From Coq Require Import String.
From stdpp Require Import prelude.
From Verif Require Import PyStr.
Local Open Scope N_scope.

(** An ElementTree element: tag, attributes, the text before the first child,
    the text after the end tag, and the children (PyCIM/PrettyPrintXML.py:24;
    the tree [parse] makes shares no elements). *)
Inductive et := Et (tag : pystr) (attrs : list (pystr * pystr)) (text tail : option pystr) (kids : list et).
(* PyCIM/PrettyPrintXML.py:24 *)
Definition et_tag (t : et) : pystr := let 'Et tag _ _ _ _ := t in tag.
(* PyCIM/PrettyPrintXML.py:24 *)
Definition et_attrs (t : et) : list (pystr * pystr) := let 'Et _ a _ _ _ := t in a.
(* PyCIM/PrettyPrintXML.py:31 *)
Definition et_text (t : et) : option pystr := let 'Et _ _ x _ _ := t in x.
(* PyCIM/PrettyPrintXML.py:33 *)
Definition et_tail (t : et) : option pystr := let 'Et _ _ _ x _ := t in x.
(* PyCIM/PrettyPrintXML.py:35 *)
Definition et_kids (t : et) : list et := let 'Et _ _ _ _ l := t in l.

(** The characters [str.strip] removes (PyCIM/PrettyPrintXML.py:31, 33, 37, 40): those of
    [str.isspace]. *)
Definition py_space (c : N) : bool :=
  is_space c || existsb (N.eqb c) [133; 160; 5760; 8232; 8233; 8239; 8287; 12288] || ((8192 <=? c) && (c <=? 8202)).
(* PyCIM/PrettyPrintXML.py:31 *)
Fixpoint py_lstrip (s : pystr) : pystr :=
  match s with
  | [] => []
  | c :: r => if py_space c then py_lstrip r else s
  end.
(* PyCIM/PrettyPrintXML.py:31 *)
Definition py_strip (s : pystr) : pystr := reverse (py_lstrip (reverse (py_lstrip s))).
(** [not x or not x.strip()] (PyCIM/PrettyPrintXML.py:31, 33, 37, 40). *)
Definition falsy (x : option pystr) : bool := match x with Some (_ :: _) => false | _ => true end.
(* PyCIM/PrettyPrintXML.py:31, 33, 37, 40 *)
Definition blank (x : option pystr) : bool := falsy x || falsy (py_strip <$> x).

(** ["\n" + level*"  "] (PyCIM/PrettyPrintXML.py:29). *)
Definition newline (level : nat) : pystr := 10 :: mjoin (replicate level (u "  ")).
(** [elem.tail = i] when the tail is blank (PyCIM/PrettyPrintXML.py:33-34, 37-38, 40-41). *)
Definition fill (x : option pystr) (i : pystr) : option pystr := if blank x then Some i else x.
(* PyCIM/PrettyPrintXML.py:33-34 *)
Definition fill_tail (i : pystr) (t : et) : et := let 'Et tag a x y l := t in Et tag a x (fill y i) l.
(** After the loop (PyCIM/PrettyPrintXML.py:35-36) the name elem is bound to the last child
    (PyCIM/PrettyPrintXML.py:37-38). *)
Fixpoint fill_last (i : pystr) (l : list et) : list et :=
  match l with
  | [] => []
  | [t] => [fill_tail i t]
  | t :: r => t :: fill_last i r
  end.

(** [indent] (PyCIM/PrettyPrintXML.py:28-41). *)
Fixpoint indent (level : nat) (t : et) : et :=
  match t with
  | Et tag a text tail [] =>
      Et tag a text (match level with O => tail | S _ => fill tail (newline level) end) []
  | Et tag a text tail kids =>
      Et tag a (fill text (newline level ++ u "  ")) (fill tail (newline level))
        (fill_last (newline level) (map (indent (S level)) kids))
  end.
