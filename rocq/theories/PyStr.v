(** Python 3 strings as lists of code points, and the string operations the
    PyCIM sources use. *)
From Coq Require Import Ascii String NArith ZArith.
From stdpp Require Import prelude.
Local Open Scope N_scope.

(** A Python 3 [str]: the list of its code points.  Every string of the sources
    is one, for example PyCIM/RDFXMLReader.py:70, 88, 150. *)
Definition pystr := list N.

(** String literals of the source, for example PyCIM/SimpleXMLWriter.py:120-122. *)
Fixpoint u (s : string) : pystr :=
  match s with
  | EmptyString => []
  | String c r => N_of_ascii c :: u r
  end.

(** [a == b] on strings (PyCIM/RDFXMLReader.py:85, 173, 280;
    PyCIM/SimpleXMLWriter.py:178, 239). *)
Fixpoint str_eqb (a b : pystr) : bool :=
  match a, b with
  | [], [] => true
  | x :: a', y :: b' => (x =? y) && str_eqb a' b'
  | _, _ => false
  end.
Lemma str_eqb_eq a b : str_eqb a b = true ↔ a = b.
Proof.
  revert b. induction a as [|x a IH]; intros [|y b]; simpl; try done.
  rewrite andb_true_iff, N.eqb_eq, IH. naive_solver.
Qed.
Lemma str_eqb_refl a : str_eqb a a = true.
Proof. by apply str_eqb_eq. Qed.
Lemma str_eqb_neq a b : str_eqb a b = false ↔ a ≠ b.
Proof. rewrite <- str_eqb_eq. by destruct (str_eqb a b). Qed.
Global Arguments str_eqb : simpl never.

(** [s.replace(c, r)] for a one-character pattern [c]
    (used at PyCIM/SimpleXMLWriter.py:120-122, 131-135). *)
Fixpoint replace1 (c : N) (r : pystr) (s : pystr) : pystr :=
  match s with
  | [] => []
  | x :: s' => if x =? c then r ++ replace1 c r s' else x :: replace1 c r s'
  end.

(** ["".join(parts)] (PyCIM/SimpleXMLWriter.py:169). *)
Definition join (parts : list pystr) : pystr := mjoin parts.

(** [s[:m] == base] (PyCIM/RDFXMLReader.py:85, 126, 145). *)
Definition has_prefix (base s : pystr) : bool :=
  str_eqb (take (length base) s) base.

(** [s.rsplit(".")[-1]]: the part after the last dot, the whole string when
    there is none (PyCIM/RDFXMLReader.py:150). *)
Fixpoint after_last_dot (s : pystr) : pystr :=
  match s with
  | [] => []
  | c :: r =>
      if existsb (N.eqb 46) r then after_last_dot r
      else if c =? 46 then r else c :: r
  end.

(** [s.rsplit(".", 1)[1]]: [None] is the IndexError of a string without dot
    (PyCIM/RDFXMLReader.py:207). *)
Definition rsplit1_1 (s : pystr) : option pystr :=
  if existsb (N.eqb 46) s then Some (after_last_dot s) else None.

(** ASCII letter case, for [str.title] (PyCIM/RDFXMLReader.py:173).  The only
    use of [str.title] is a comparison with ['True']; no non-ASCII character
    has a title- or lower-case form among those four letters, so non-ASCII
    characters are left alone and count as non-letters. *)
(* PyCIM/RDFXMLReader.py:173 *)
Definition is_upper (c : N) : bool := (65 <=? c) && (c <=? 90).
(* PyCIM/RDFXMLReader.py:173 *)
Definition is_lower (c : N) : bool := (97 <=? c) && (c <=? 122).
(* PyCIM/RDFXMLReader.py:173 *)
Definition is_alpha (c : N) : bool := is_upper c || is_lower c.
(* PyCIM/RDFXMLReader.py:173 *)
Definition upper (c : N) : N := if is_lower c then c - 32 else c.
(* PyCIM/RDFXMLReader.py:173 *)
Definition lower (c : N) : N := if is_upper c then c + 32 else c.

(** [prev_cased]: the previous character is a letter
    (PyCIM/RDFXMLReader.py:173). *)
Fixpoint title_from (prev_cased : bool) (s : pystr) : pystr :=
  match s with
  | [] => []
  | c :: r => (if prev_cased then lower c else upper c) :: title_from (is_alpha c) r
  end.
(* PyCIM/RDFXMLReader.py:173 *)
Definition title (s : pystr) : pystr := title_from false s.

(** [int(text)] for ASCII text (PyCIM/RDFXMLReader.py:178): optional
    surrounding white space, optional sign, decimal digits with single
    underscores between them.  [None] is the ValueError.  Text with non-ASCII
    characters, some of which [int] accepts as digits or white space, is
    outside the model (Reader.v). *)
(* PyCIM/RDFXMLReader.py:178 *)
Definition is_digit (c : N) : bool := (48 <=? c) && (c <=? 57).
(* PyCIM/RDFXMLReader.py:178, PyCIM/PrettyPrintXML.py:31 *)
Definition is_space (c : N) : bool :=
  (c =? 32) || ((9 <=? c) && (c <=? 13)) || ((28 <=? c) && (c <=? 31)).

(** Removal of white space by [int] (PyCIM/RDFXMLReader.py:178). *)
Fixpoint lstrip (s : pystr) : pystr :=
  match s with
  | [] => []
  | c :: r => if is_space c then lstrip r else s
  end.
(* PyCIM/RDFXMLReader.py:178 *)
Definition strip (s : pystr) : pystr := reverse (lstrip (reverse (lstrip s))).

(** The value of a run of digits, for reading character references back
    (PyCIM/SimpleXMLWriter.py:109). *)
Fixpoint digits_val (acc : N) (s : pystr) : option N :=
  match s with
  | [] => Some acc
  | c :: r => if is_digit c then digits_val (acc * 10 + (c - 48)) r else None
  end.

(** [after] tells whether the previous character was a digit: an underscore or
    the end of the text has to follow one (PyCIM/RDFXMLReader.py:178). *)
Fixpoint int_digits (acc : N) (after : bool) (s : pystr) : option N :=
  match s with
  | [] => if after then Some acc else None
  | c :: r =>
      if is_digit c then int_digits (acc * 10 + (c - 48)) true r
      else if (c =? 95) && after then int_digits acc false r else None
  end.

(* PyCIM/RDFXMLReader.py:178 *)
Definition parse_nat (s : pystr) : option N := int_digits 0 false s.

(* PyCIM/RDFXMLReader.py:178 *)
Definition parse_int (s : pystr) : option Z :=
  match strip s with
  | 45 :: r => n ← parse_nat r; Some (- Z.of_N n)%Z
  | 43 :: r => n ← parse_nat r; Some (Z.of_N n)
  | r => n ← parse_nat r; Some (Z.of_N n)
  end.

(** [str(n)] for an int: decimal digits, most significant first
    (PyCIM/RDFXMLWriter.py:78, PyCIM/SimpleXMLWriter.py:109).  [fuel] bounds the
    number of digits; [show_nat] supplies enough. *)
Fixpoint digits_of (fuel : nat) (n : N) (acc : pystr) : pystr :=
  match fuel with
  | O => acc
  | S f =>
      let acc' := (48 + n mod 10) :: acc in
      if n <? 10 then acc' else digits_of f (n / 10) acc'
  end.
(* PyCIM/SimpleXMLWriter.py:109 *)
Definition show_nat (n : N) : pystr := digits_of (S (N.to_nat (N.log2 n))) n [].
(* PyCIM/RDFXMLWriter.py:78 *)
Definition show_int (z : Z) : pystr :=
  match z with
  | Z0 => u "0"
  | Zpos p => show_nat (Npos p)
  | Zneg p => 45 :: show_nat (Npos p)
  end.
