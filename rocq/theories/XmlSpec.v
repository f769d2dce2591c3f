(** A small XML parser, independent of the writer: XML 1.0 (fifth edition)
    without DTDs and CDATA sections, plus Namespaces in XML 1.0.  Numbers in
    brackets are the productions of the XML recommendation. *)
From Coq Require Import String.
From stdpp Require Import prelude.
From Verif Require Import PyStr.
Local Open Scope N_scope.

(** [2] Char *)
Definition xml_char (c : N) : bool :=
  (c =? 9) || (c =? 10) || (c =? 13) || ((32 <=? c) && (c <=? 55295)) ||
  ((57344 <=? c) && (c <=? 65533)) || ((65536 <=? c) && (c <=? 1114111)).
(** [3] S, one character *)
Definition xml_space (c : N) : bool := (c =? 32) || (c =? 9) || (c =? 13) || (c =? 10).
(** [4] NameStartChar *)
Definition name_start (c : N) : bool :=
  (c =? 58) || ((65 <=? c) && (c <=? 90)) || (c =? 95) || ((97 <=? c) && (c <=? 122)) ||
  ((192 <=? c) && (c <=? 214)) || ((216 <=? c) && (c <=? 246)) || ((248 <=? c) && (c <=? 767)) ||
  ((880 <=? c) && (c <=? 893)) || ((895 <=? c) && (c <=? 8191)) || ((8204 <=? c) && (c <=? 8205)) ||
  ((8304 <=? c) && (c <=? 8591)) || ((11264 <=? c) && (c <=? 12271)) || ((12289 <=? c) && (c <=? 55295)) ||
  ((63744 <=? c) && (c <=? 64975)) || ((65008 <=? c) && (c <=? 65533)) || ((65536 <=? c) && (c <=? 983039)).
(** [4a] NameChar *)
Definition name_char (c : N) : bool :=
  name_start c || (c =? 45) || (c =? 46) || ((48 <=? c) && (c <=? 57)) || (c =? 183) ||
  ((768 <=? c) && (c <=? 879)) || ((8255 <=? c) && (c <=? 8256)).
(** [5] Name *)
Definition is_name (s : pystr) : bool :=
  match s with [] => false | c :: r => name_start c && forallb name_char r end.

(** [66] CharRef and [68] EntityRef, the text between the ampersand and the
    semicolon. *)
Fixpoint dec_val (acc : N) (s : pystr) : option N :=
  match s with
  | [] => Some acc
  | c :: r => if (48 <=? c) && (c <=? 57) then dec_val (acc * 10 + (c - 48)) r else None
  end.
Definition hex_digit (c : N) : option N :=
  if (48 <=? c) && (c <=? 57) then Some (c - 48)
  else if (65 <=? c) && (c <=? 70) then Some (c - 55)
  else if (97 <=? c) && (c <=? 102) then Some (c - 87)
  else None.
Fixpoint hex_val (acc : N) (s : pystr) : option N :=
  match s with
  | [] => Some acc
  | c :: r => d ← hex_digit c; hex_val (acc * 16 + d) r
  end.
Definition checked (n : option N) : option N := c ← n; if xml_char c then Some c else None.
Definition expand_ref (r : pystr) : option N :=
  match r with
  | 35 :: [] | 35 :: 120 :: [] => None
  | 35 :: 120 :: h => checked (hex_val 0 h)
  | 35 :: d => checked (dec_val 0 d)
  | _ =>
      if str_eqb r (u "amp") then Some 38
      else if str_eqb r (u "lt") then Some 60
      else if str_eqb r (u "gt") then Some 62
      else if str_eqb r (u "apos") then Some 39
      else if str_eqb r (u "quot") then Some 34
      else None
  end.

(** Entity expansion of a whole text: [None] if an ampersand does not start a
    reference. *)
Fixpoint expand_in (ref : option pystr) (s : pystr) : option pystr :=
  match s with
  | [] => match ref with None => Some [] | Some _ => None end
  | c :: r =>
      match ref with
      | None => if c =? 38 then expand_in (Some []) r else (c ::.) <$> expand_in None r
      | Some acc => if c =? 59 then c' ← expand_ref (reverse acc); (c' ::.) <$> expand_in None r
                    else expand_in (Some (c :: acc)) r
      end
  end.
Definition expand (s : pystr) : option pystr := expand_in None s.

(** 2.11 End-of-line handling *)
Fixpoint norm_eol (s : pystr) : pystr :=
  match s with
  | [] => []
  | c :: r => if c =? 13 then 10 :: norm_cr r else c :: norm_eol r
  end
with norm_cr (s : pystr) : pystr := (* after a carriage return *)
  match s with
  | [] => []
  | c :: r => if c =? 10 then norm_eol r else if c =? 13 then 10 :: norm_cr r else c :: norm_eol r
  end.

(** *** Lexer: one state per position inside the grammar.  Accumulators are
    reversed. *)
Definition attrs := list (pystr * pystr).
Inductive lstate :=
  | LText (acc : pystr)                                   (* character data *)
  | LRef (acc ref : pystr)                                (* a reference in it *)
  | LLt                                                   (* after < *)
  | LPi (target : pystr) (more q : bool)                  (* inside <? ... ?>; still in the target; just after a ? *)
  | LBang (dash : bool)                                   (* after <! and after <!- *)
  | LComment (dashes : nat)                               (* inside <!-- ... -->: dashes just read *)
  | LOpen (tag : pystr)                                   (* start tag name *)
  | LSpace (tag : pystr) (ats : attrs)                    (* start tag, after white space *)
  | LAttr (tag : pystr) (ats : attrs) (a : pystr)         (* attribute name *)
  | LEq (tag : pystr) (ats : attrs) (a : pystr)           (* white space before = *)
  | LQuote (tag : pystr) (ats : attrs) (a : pystr)        (* after =, before the quote *)
  | LVal (tag : pystr) (ats : attrs) (a : pystr) (q : N) (acc : pystr)
  | LVRef (tag : pystr) (ats : attrs) (a : pystr) (q : N) (acc ref : pystr)
  | LAfter (tag : pystr) (ats : attrs)                    (* after the closing quote *)
  | LSlash (tag : pystr) (ats : attrs)                    (* after / in a start tag *)
  | LClose (tag : pystr)                                  (* end tag name *)
  | LCloseSp (tag : pystr).                               (* white space after it *)

Inductive token :=
  | TText (s : pystr)
  | TOpen (tag : pystr) (ats : attrs) (selfclosing : bool)
  | TClose (tag : pystr)
  | TMisc.                                                (* comment, PI *)

Definition lopen (tag : pystr) (ats : attrs) (sc : bool) : option (lstate * list token) :=
  if is_name (reverse tag) then Some (LText [], [TOpen (reverse tag) (reverse ats) sc]) else None.
Definition lclose (tag : pystr) : option (lstate * list token) :=
  if is_name (reverse tag) then Some (LText [], [TClose (reverse tag)]) else None.

Definition lstep (s : lstate) (c : N) : option (lstate * list token) :=
  if negb (xml_char c) then None else
  match s with
  | LText acc =>
      if c =? 60 then Some (LLt, match acc with [] => [] | _ => [TText (reverse acc)] end)
      else if c =? 38 then Some (LRef acc [], [])
      (* [14]: ]]> does not occur in character data *)
      else if (c =? 62) && (match acc with 93 :: 93 :: _ => true | _ => false end) then None
      else Some (LText (c :: acc), [])
  | LRef acc ref =>
      if c =? 59 then c' ← expand_ref (reverse ref); Some (LText (c' :: acc), [])
      else Some (LRef acc (c :: ref), [])
  | LLt =>
      if c =? 47 then Some (LClose [], [])
      else if c =? 63 then Some (LPi [] true false, [])
      else if c =? 33 then Some (LBang false, [])
      else Some (LOpen [c], [])
  | LPi t more q =>
      if q && (c =? 62) then
        if is_name (reverse t) && negb (str_eqb (map lower (reverse t)) (u "xml")) then Some (LText [], [TMisc]) else None
      else
        let more' := more && negb (xml_space c) && negb (c =? 63) in
        Some (LPi (if more' then c :: t else t) more' (c =? 63), [])
  | LBang dash => if c =? 45 then Some (if dash then LComment 0 else LBang true, []) else None
  (* [15]: -- does not occur in a comment *)
  | LComment 2 => if c =? 62 then Some (LText [], [TMisc]) else None
  | LComment n => Some (LComment (if c =? 45 then S n else 0), [])
  | LOpen tag =>
      if xml_space c then Some (LSpace tag [], [])
      else if c =? 47 then Some (LSlash tag [], [])
      else if c =? 62 then lopen tag [] false
      else Some (LOpen (c :: tag), [])
  | LSpace tag ats =>
      if xml_space c then Some (s, [])
      else if c =? 47 then Some (LSlash tag ats, [])
      else if c =? 62 then lopen tag ats false
      else Some (LAttr tag ats [c], [])
  | LAttr tag ats a =>
      if xml_space c then Some (LEq tag ats a, [])
      else if c =? 61 then Some (LQuote tag ats a, [])
      else Some (LAttr tag ats (c :: a), [])
  | LEq tag ats a =>
      if xml_space c then Some (s, []) else if c =? 61 then Some (LQuote tag ats a, []) else None
  | LQuote tag ats a =>
      if xml_space c then Some (s, [])
      else if (c =? 34) || (c =? 39) then Some (LVal tag ats a c [], []) else None
  | LVal tag ats a q acc =>
      if c =? q then
        if is_name (reverse a) && negb (existsb (λ kv, str_eqb (reverse a) (fst kv)) ats)
        then Some (LAfter tag ((reverse a, reverse acc) :: ats), []) else None
      else if c =? 60 then None
      else if c =? 38 then Some (LVRef tag ats a q acc [], [])
      (* 3.3.3: white space becomes a space *)
      else Some (LVal tag ats a q ((if xml_space c then 32 else c) :: acc), [])
  | LVRef tag ats a q acc ref =>
      if c =? 59 then c' ← expand_ref (reverse ref); Some (LVal tag ats a q (c' :: acc), [])
      else Some (LVRef tag ats a q acc (c :: ref), [])
  | LAfter tag ats =>
      if xml_space c then Some (LSpace tag ats, [])
      else if c =? 47 then Some (LSlash tag ats, [])
      else if c =? 62 then lopen tag ats false
      else None
  | LSlash tag ats => if c =? 62 then lopen tag ats true else None
  | LClose tag =>
      if xml_space c then Some (LCloseSp tag, [])
      else if c =? 62 then lclose tag
      else Some (LClose (c :: tag), [])
  | LCloseSp tag =>
      if xml_space c then Some (s, []) else if c =? 62 then lclose tag else None
  end.

(** *** Tree builder *)
Inductive node :=
  | NText (s : pystr)
  | NElem (tag : pystr) (ats : attrs) (kids : list node).

(** Adjacent text is one node. *)
Definition add_kid (n : node) (kids : list node) : list node := (* kids reversed *)
  match n, kids with
  | NText s, NText s' :: r => NText (s' ++ s) :: r
  | _, _ => n :: kids
  end.

(** An open element: tag, attributes, children so far (reversed). *)
Definition frame : Type := pystr * attrs * list node.
(** Before the root, inside it (innermost open element first), after it. *)
Inductive bstate :=
  | BProlog
  | BIn (top : frame) (outer : list frame)
  | BDone (root : node).

Definition all_space (s : pystr) : bool := forallb xml_space s.

(** Close the innermost element. *)
Definition bclose (top : frame) (outer : list frame) : bstate :=
  let '(tag, ats, kids) := top in
  let e := NElem tag ats (reverse kids) in
  match outer with
  | [] => BDone e
  | (tag', ats', kids') :: r => BIn (tag', ats', add_kid e kids') r
  end.

Definition bstep (b : bstate) (t : token) : option bstate :=
  match b, t with
  | _, TMisc => Some b
  | BProlog, TText s | BDone _, TText s => if all_space s then Some b else None
  | BIn (tag, ats, kids) r, TText s => Some (BIn (tag, ats, add_kid (NText s) kids) r)
  | BProlog, TOpen tag ats sc =>
      Some (if sc then bclose (tag, ats, []) [] else BIn (tag, ats, []) [])
  | BIn top r, TOpen tag ats sc =>
      Some (if sc then bclose (tag, ats, []) (top :: r) else BIn (tag, ats, []) (top :: r))
  | BDone _, TOpen _ _ _ => None
  | BIn (tag, ats, kids) r, TClose tag' =>
      if str_eqb tag tag' then Some (bclose (tag, ats, kids) r) else None
  | _, TClose _ => None
  end.
Fixpoint bsteps (b : bstate) (ts : list token) : option bstate :=
  match ts with
  | [] => Some b
  | t :: r => b' ← bstep b t; bsteps b' r
  end.

(** *** The parser *)
Definition pstate : Type := lstate * bstate.
Definition pstep (s : pstate) (c : N) : option pstate :=
  '(l, ts) ← lstep (fst s) c; b ← bsteps (snd s) ts; Some (l, b).
Fixpoint prun (s : pstate) (cs : pystr) : option pstate :=
  match cs with
  | [] => Some s
  | c :: r => s' ← pstep s c; prun s' r
  end.
Definition pfinish (s : pstate) : option node :=
  match s with
  | (LText acc, BDone n) => if all_space acc then Some n else None
  | _ => None
  end.

(** [23] XMLDecl: what follows the declaration, or the whole document if there
    is none. *)
Definition expect (p s : pystr) : option pystr :=
  if str_eqb (take (length p) s) p then Some (drop (length p) s) else None.
Fixpoint skip_space (s : pystr) : pystr :=
  match s with c :: r => if xml_space c then skip_space r else s | [] => [] end.
Definition expect_space (s : pystr) : option pystr :=
  match s with c :: r => if xml_space c then Some (skip_space r) else None | [] => None end.
Fixpoint until (q : N) (acc s : pystr) : option (pystr * pystr) :=
  match s with
  | [] => None
  | c :: r => if c =? q then Some (reverse acc, r) else until q (c :: acc) r
  end.
(** Eq and a quoted value *)
Definition eq_quoted (s : pystr) : option (pystr * pystr) :=
  s1 ← expect (u "=") (skip_space s);
  match skip_space s1 with
  | q :: r => if (q =? 34) || (q =? 39) then until q [] r else None
  | [] => None
  end.
(** [81] EncName *)
Definition is_encname (s : pystr) : bool :=
  match s with
  | [] => false
  | c :: r => is_alpha c && forallb (λ c, is_alpha c || is_digit c || (c =? 46) || (c =? 95) || (c =? 45)) r
  end.
Definition decl_rest (s : pystr) : option pystr := (* after <?xml *)
  s1 ← expect_space s;
  s2 ← expect (u "version") s1;
  '(v, s3) ← eq_quoted s2;
  if negb (str_eqb v (u "1.0")) then None else
  match (s4 ← expect_space s3; expect (u "encoding") s4) with
  | Some s4 => '(e, s5) ← eq_quoted s4; if is_encname e then expect (u "?>") (skip_space s5) else None
  | None => expect (u "?>") (skip_space s3)
  end.
Definition skip_decl (s : pystr) : option pystr :=
  match expect (u "<?xml") s with
  | Some (c :: r) => if name_char c then Some s else decl_rest (c :: r)
  | _ => Some s
  end.

Definition parse (doc : pystr) : option node :=
  body ← skip_decl (norm_eol doc); s ← prun (LText [], BProlog) body; pfinish s.

(** *** Namespaces *)
(** Prefix and local part of a name; the prefix is empty if there is none. *)
Fixpoint split_colon (acc s : pystr) : option (pystr * pystr) :=
  match s with
  | [] => None
  | c :: r => if c =? 58 then Some (reverse acc, r) else split_colon (c :: acc) r
  end.
Definition no_colon (s : pystr) : bool := forallb (λ c, negb (c =? 58)) s.
Definition qname (s : pystr) : option (pystr * pystr) :=
  match split_colon [] s with
  | None => Some ([], s)
  | Some (p, l) => if is_name p && is_name l && no_colon l then Some (p, l) else None
  end.

Definition nsenv := list (pystr * pystr).
Fixpoint ns_lookup (p : pystr) (e : nsenv) : option pystr :=
  match e with
  | [] => None
  | (p', uri) :: r => if str_eqb p p' then Some uri else ns_lookup p r
  end.
Definition xml_uri : pystr := u "http://www.w3.org/XML/1998/namespace".
(** {uri}local, as ElementTree spells expanded names. *)
Definition expanded (uri local : pystr) : pystr :=
  match uri with [] => local | _ => u "{" ++ uri ++ u "}" ++ local end.

(** The namespace declarations among the attributes: xmlns="uri" declares the
    empty prefix; an empty uri is only allowed there. *)
Definition ns_decl (kv : pystr * pystr) : option (option (pystr * pystr)) :=
  if str_eqb (fst kv) (u "xmlns") then Some (Some ([], snd kv)) else
  q ← qname (fst kv);
  if str_eqb (fst q) (u "xmlns") then
    if str_eqb (snd q) (u "xml") || str_eqb (snd q) (u "xmlns") || str_eqb (snd kv) [] then None
    else Some (Some (snd q, snd kv))
  else Some None.
Fixpoint ns_decls (ats : attrs) : option nsenv :=
  match ats with
  | [] => Some []
  | kv :: r => d ← ns_decl kv; ds ← ns_decls r; Some (match d with Some x => x :: ds | None => ds end)
  end.
Definition is_decl (kv : pystr * pystr) : bool :=
  match ns_decl kv with Some (Some _) => true | _ => false end.

Definition expand_tag (e : nsenv) (s : pystr) : option pystr :=
  q ← qname s;
  match ns_lookup (fst q) e with
  | Some uri => Some (expanded uri (snd q))
  | None => match fst q with [] => Some (snd q) | _ => None end
  end.
(** The default namespace does not apply to attributes. *)
Definition expand_attr (e : nsenv) (kv : pystr * pystr) : option (pystr * pystr) :=
  q ← qname (fst kv);
  match fst q with
  | [] => Some kv
  | _ => uri ← ns_lookup (fst q) e; Some (expanded uri (snd q), snd kv)
  end.
Fixpoint expand_attrs (e : nsenv) (ats : attrs) : option attrs :=
  match ats with
  | [] => Some []
  | kv :: r =>
      if is_decl kv then expand_attrs e r
      else kv' ← expand_attr e kv; r' ← expand_attrs e r;
           if existsb (λ x, str_eqb (fst kv') (fst x)) r' then None else Some (kv' :: r')
  end.

(** Names resolved; the declarations of an element are kept apart from its
    attributes. *)
Inductive xnode :=
  | XText (s : pystr)
  | XElem (decls : nsenv) (tag : pystr) (ats : attrs) (kids : list xnode).

Fixpoint resolve (e : nsenv) (n : node) : option xnode :=
  match n with
  | NText s => Some (XText s)
  | NElem tag ats kids =>
      ds ← ns_decls ats;
      let e' := ds ++ e in
      tag' ← expand_tag e' tag;
      ats' ← expand_attrs e' ats;
      kids' ← (fix go (l : list node) : option (list xnode) :=
                 match l with
                 | [] => Some []
                 | n :: r => x ← resolve e' n; xs ← go r; Some (x :: xs)
                 end) kids;
      Some (XElem ds tag' ats' kids')
  end.
(** A namespace-well-formed document. *)
Definition parse_ns (doc : pystr) : option xnode := n ← parse doc; resolve [(u "xml", xml_uri)] n.

Section tests.
  Goal parse (u "<?xml version='1.0'?><a k=""1&amp;2""><b />x&#65;<!-- c -->y</a>") =
    Some (NElem (u "a") [(u "k", u "1&2")] [NElem (u "b") [] []; NText (u "xAy")]).
  Proof. vm_compute. reflexivity. Qed.
  Goal parse (u "<?xml version=""1.0"" encoding='latin-1' ?><a/><?xml-x y?>") = Some (NElem (u "a") [] []).
  Proof. vm_compute. reflexivity. Qed.
  Goal parse (u " <?xml version='1.0'?><a/>") = None. Proof. vm_compute. reflexivity. Qed.
  Goal parse (u "<?xml?><a/>") = None. Proof. vm_compute. reflexivity. Qed.
  Goal parse (u "<a><b></a></b>") = None. Proof. vm_compute. reflexivity. Qed.
  Goal parse (u "<a k='1' k='2'/>") = None. Proof. vm_compute. reflexivity. Qed.
  Goal parse (u "<a>x & y</a>") = None. Proof. vm_compute. reflexivity. Qed.
  Goal parse (u "<a><!-- x -- y --></a>") = None. Proof. vm_compute. reflexivity. Qed.
  Goal parse_ns (u "<r:a xmlns:r='u#' r:k='v'><r:b/></r:a>") =
    Some (XElem [(u "r", u "u#")] (u "{u#}a") [(u "{u#}k", u "v")] [XElem [] (u "{u#}b") [] []]).
  Proof. vm_compute. reflexivity. Qed.
  Goal parse_ns (u "<r:a/>") = None. Proof. vm_compute. reflexivity. Qed.
End tests.
