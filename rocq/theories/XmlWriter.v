(** PyCIM/SimpleXMLWriter.py, method by method. *)
From Coq Require Import String.
From stdpp Require Import prelude.
From Verif Require Import PyStr PyHeap.

Notation ch_amp := 38%N.
Notation ch_lt := 60%N.
Notation ch_gt := 62%N.
Notation ch_apos := 39%N.
Notation ch_quot := 34%N.

(** SimpleXMLWriter.py:93-97: in Python 3 [unicode] is not defined, so [encode]
    returns its argument; the encoding only matters for [declaration].
    SimpleXMLWriter.py:119-128. *)
Definition escape_cdata (s : pystr) : pystr :=
  replace1 ch_gt (u "&gt;") (replace1 ch_lt (u "&lt;") (replace1 ch_amp (u "&amp;") s)).

(** SimpleXMLWriter.py:130-141. *)
Definition escape_attrib (s : pystr) : pystr :=
  replace1 ch_gt (u "&gt;") (replace1 ch_lt (u "&lt;")
    (replace1 ch_quot (u "&quot;") (replace1 ch_apos (u "&apos;") (replace1 ch_amp (u "&amp;") s)))).

(** The state of an XMLWriter (SimpleXMLWriter.py:152-161) and what it has
    written to its file.  [w_tags] is kept innermost first (Python appends at
    the end). *)
Record writer := Writer {
  w_open : bool;
  w_tags : list pystr;
  w_data : list pystr;
  w_enc : pystr;
  w_out : pystr
}.
(** SimpleXMLWriter.py:152-161. *)
Definition w_init (enc : pystr) : writer := Writer false [] [] enc [].

(** self.__write (SimpleXMLWriter.py:155). *)
Definition w_write (s : pystr) (w : writer) : writer :=
  Writer (w_open w) (w_tags w) (w_data w) (w_enc w) (w_out w ++ s).

(** SimpleXMLWriter.py:163-171. *)
Definition w_flush (w : writer) : writer :=
  let w1 := if w_open w
            then Writer false (w_tags w) (w_data w) (w_enc w) (w_out w ++ u ">")
            else w in
  match w_data w1 with
  | [] => w1
  | _ => Writer (w_open w1) (w_tags w1) [] (w_enc w1) (w_out w1 ++ escape_cdata (join (w_data w1)))
  end.

(** SimpleXMLWriter.py:176-181. *)
Definition w_declaration (w : writer) : writer :=
  if str_eqb (w_enc w) (u "us-ascii") || str_eqb (w_enc w) (u "utf-8")
  then w_write (u "<?xml version='1.0'?>" ++ [10%N]) w
  else w_write (u "<?xml version='1.0' encoding='" ++ w_enc w ++ u "'?>" ++ [10%N]) w.

(** Python's order on strings: by code points.  Used by [sorted]
    (SimpleXMLWriter.py:205). *)
Fixpoint str_leb (a b : pystr) : bool :=
  match a, b with
  | [], _ => true
  | _ :: _, [] => false
  | x :: a', y :: b' => (x <? y)%N || ((x =? y)%N && str_leb a' b')
  end.

(** [sorted(attrib.items())] (SimpleXMLWriter.py:205).  The keys of a dict are
    distinct, so the values are never compared. *)
Fixpoint insert_attr (kv : pystr * pystr) (xs : list (pystr * pystr)) : list (pystr * pystr) :=
  match xs with
  | [] => [kv]
  | kv' :: r => if str_leb (fst kv) (fst kv') then kv :: xs else kv' :: insert_attr kv r
  end.
(* PyCIM/SimpleXMLWriter.py:205 *)
Fixpoint sort_attrs (xs : list (pystr * pystr)) : list (pystr * pystr) :=
  match xs with
  | [] => []
  | kv :: r => insert_attr kv (sort_attrs r)
  end.

(** SimpleXMLWriter.py:206-208. *)
Definition attr_text (kv : pystr * pystr) : pystr :=
  u " " ++ escape_cdata (fst kv) ++ u "=""" ++ escape_attrib (snd kv) ++ u """".

(** SimpleXMLWriter.py:196-210.  [attrib] is the dictionary in insertion order;
    [extra] the keyword arguments, which are merged into [combined_attrib] but
    never written.  Returns the identifier. *)
Definition w_start (tag : pystr) (attrib extra : list (pystr * pystr)) (w : writer) : nat * writer :=
  let w1 := w_flush w in
  let tag := escape_cdata tag in
  let text := u "<" ++ tag ++
    match attrib, extra with
    | [], [] => []
    | _, _ => mjoin (map attr_text (sort_attrs attrib))
    end in
  (length (w_tags w1),
   Writer true (tag :: w_tags w1) [] (w_enc w1) (w_out w1 ++ text)).

(** SimpleXMLWriter.py:217-219. *)
Definition w_comment (c : pystr) (w : writer) : writer :=
  w_write (u "<!-- " ++ escape_cdata c ++ u " -->" ++ [10%N]) (w_flush w).

(** SimpleXMLWriter.py:226-227. *)
Definition w_add_data (text : pystr) (w : writer) : writer :=
  Writer (w_open w) (w_tags w) (w_data w ++ [text]) (w_enc w) (w_out w).

(** SimpleXMLWriter.py:244-250: the part of [end] after the assertions. *)
Definition w_pop (t : pystr) (ts : list pystr) (w : writer) : writer :=
  let w1 := Writer (w_open w) ts (w_data w) (w_enc w) (w_out w) in
  match w_data w with
  | _ :: _ => w_write (u "</" ++ t ++ u ">") (w_flush w1)
  | [] =>
      if w_open w then Writer false ts [] (w_enc w) (w_out w ++ u " />")
      else w_write (u "</" ++ t ++ u ">") w1
  end.
(** SimpleXMLWriter.py:236-250.  [None] and [Some []] are the falsy tags. *)
Definition w_end (tag : option pystr) (w : writer) : (unit + exn) * writer :=
  match w_tags w with
  | [] => (inr AssertionError, w)
  | t :: ts =>
      match tag with
      | Some (c :: s) => if str_eqb (escape_cdata (c :: s)) t then (inl tt, w_pop t ts w) else (inr AssertionError, w)
      | _ => (inl tt, w_pop t ts w)
      end
  end.

(** SimpleXMLWriter.py:258-260.  [fuel] bounds the number of iterations; the
    number of open elements is enough ([XmlWriterFacts.w_close_ok]). *)
Fixpoint w_close_loop (fuel : nat) (id : nat) (w : writer) : (unit + exn) * writer :=
  if Nat.ltb id (length (w_tags w)) then
    match fuel with
    | O => (inr Unmodelled, w)
    | S f =>
        match w_end None w with
        | (inl _, w') => w_close_loop f id w'
        | (inr e, w') => (inr e, w')
        end
    end
  else (inl tt, w).
(* PyCIM/SimpleXMLWriter.py:258-260 *)
Definition w_close (id : nat) (w : writer) : (unit + exn) * writer := w_close_loop (length (w_tags w)) id w.

(** SimpleXMLWriter.py:267-271. *)
Definition w_element (tag : pystr) (text : option pystr) (attrib extra : list (pystr * pystr)) (w : writer)
    : (unit + exn) * writer :=
  let w1 := snd (w_start tag attrib extra w) in
  let w2 := match text with Some (c :: s) => w_add_data (c :: s) w1 | _ => w1 end in
  w_end None w2.

(** *** The Python 2 branch of the escape functions *)
(** SimpleXMLWriter.py:99-111: ampersand, angle brackets, the double quote and
    U+0080..U+FFFF become numeric references; then the result is encoded as
    ASCII, which raises UnicodeEncodeError ([None]) if something else is not
    ASCII. *)
Definition is_ascii (s : pystr) : bool := forallb (λ c, (c <? 128)%N) s.
(* PyCIM/SimpleXMLWriter.py:102 *)
Definition entity_char (c : N) : bool :=
  (c =? 38)%N || (c =? 60)%N || (c =? 62)%N || (c =? 34)%N || ((128 <=? c)%N && (c <=? 65535)%N).
(* PyCIM/SimpleXMLWriter.py:106-111 *)
Definition entity_sub (s : pystr) : pystr :=
  mjoin (map (λ c, if entity_char c then u "&#" ++ show_nat c ++ u ";" else [c]) s).
(* PyCIM/SimpleXMLWriter.py:104-111 *)
Definition encode_entity (s : pystr) : option pystr :=
  let e := entity_sub s in if is_ascii e then Some e else None.
(** SimpleXMLWriter.py:119-128 with encoding us-ascii in Python 2: if the
    escaped text is not ASCII, [encode_entity] is applied to the escaped text. *)
Definition escape_cdata_py2 (s : pystr) : option pystr :=
  let e := escape_cdata s in if is_ascii e then Some e else encode_entity e.
