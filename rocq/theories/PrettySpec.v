(** Vocabulary for the properties of the pretty printer. *)
From Coq Require Import String.
From stdpp Require Import prelude.
From Verif Require Import PyStr Pretty Reader ReaderSpec.
Local Open Scope N_scope.

(** White space characters in the sense of Python's [str.isspace]. *)
Definition white (c : N) : Prop :=
  c ∈ [9; 10; 11; 12; 13; 28; 29; 30; 31; 32; 133; 160; 5760; 8192; 8193; 8194; 8195; 8196; 8197; 8198; 8199; 8200; 8201;
       8202; 8232; 8233; 8239; 8287; 12288].
(** No text, or white space only. *)
Definition white_text (x : option pystr) : Prop := ∀ s, x = Some s → Forall white s.

(** The same document apart from white space between tags.  Text in an element
    without children is content, white or not. *)
Definition same_space (x y : option pystr) : Prop := x = y ∨ white_text x ∧ white_text y.
Inductive same_content : et → et → Prop :=
  | same_leaf tag a x y y' : same_space y y' → same_content (Et tag a x y []) (Et tag a x y' [])
  | same_node tag a x y x' y' l l' : l ≠ [] → same_space x x' → same_space y y' → Forall2 same_content l l' →
      same_content (Et tag a x y l) (Et tag a x' y' l').

(** White space only between tags: data are in elements without children. *)
Inductive data_only : et → Prop :=
  | do_leaf tag a x y : white_text y → data_only (Et tag a x y [])
  | do_node tag a x y l : white_text x → white_text y → Forall data_only l → data_only (Et tag a x y l).

(** The document as a sequence of tags and texts; the closing tag says whether
    the element has children. *)
Inductive token := TOpen (tag : pystr) | TText (s : pystr) | TClose (tag : pystr) (leaf : bool).
Definition text_token (x : option pystr) : list token := match x with Some s => [TText s] | None => [] end.
Fixpoint tokens (t : et) : list token :=
  match t with
  | Et tag _ x y l =>
      TOpen tag :: text_token x ++ flat_map tokens l ++ TClose tag match l with [] => true | _ => false end :: text_token y
  end.
(** A newline and [n] times two spaces. *)
Definition newline_spaces (n : nat) : pystr := [10] ++ replicate (2 * n) 32.
(** Reading the document at depth [n] with [prev] the text since the last tag:
    an opening tag at depth [n] > 0 follows a new line with [n] steps of
    indentation, and so does the closing tag of an element with children whose
    opening tag is at depth [n]. *)
Fixpoint laid_out (n : nat) (prev : option pystr) (ts : list token) : Prop :=
  match ts with
  | [] => True
  | TText s :: r => laid_out n (Some s) r
  | TOpen _ :: r => (n = 0%nat ∨ prev = Some (newline_spaces n)) ∧ laid_out (S n) None r
  | TClose _ leaf :: r => (leaf = true ∨ prev = Some (newline_spaces (pred n))) ∧ laid_out (pred n) None r
  end.

(** The events a tree gives to the reader: [iterparse] does not hand out tails. *)
Fixpoint without_tails (t : et) : tree :=
  match t with Et tag a x _ l => Tree tag a x (map without_tails l) end.
(** Elements of the CIM namespace with children are objects: properties are
    elements without children, or carry rdf:resource. *)
Inductive leaf_properties (base rdf : pystr) : et → Prop :=
  | lp_leaf tag a x y : leaf_properties base rdf (Et tag a x y [])
  | lp_node tag a x y l :
      ¬ base `prefix_of` tag ∨ is_Some (rdf_attr rdf "ID" a) ∨ is_Some (rdf_attr rdf "about" a) ∨
      is_Some (rdf_attr rdf "resource" a) →
      Forall (leaf_properties base rdf) l → leaf_properties base rdf (Et tag a x y l).
