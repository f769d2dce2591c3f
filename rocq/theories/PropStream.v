(** Property C102: file objects given to cimread. *)
From Coq Require Import String ZArith Lia.
From stdpp Require Import prelude gmap.
From Verif Require Import PyStr PyHeap Schema Assoc AssocSpec HeapFacts BlankFacts Names TabCIM14 TabCIM15 TabProfiles Tables TableSpec TableFacts
  Reader ReaderSpec ReaderFacts FrameFacts CreateFacts ReaderTabs ReadSound ReadStepFacts ReadDocFacts ReadDemo PropReader PropReread.
From Verif Require Import XmlWriter XmlSpec XmlCalls XmlDocFacts WriteSpec CimWriter WriteFacts WriteDocFacts WriteTables PropWriter.
From Verif Require Import RoundSpec RoundTables RoundDocFacts RoundFacts RoundMain RoundDemo PropRound Stream StreamSpec.

Section facts.
Context (P : pystr → source) (used : pystr → nat) (HP : parser_ok P).
Context (fuel : nat) (pf : pystr → option pystr) (uri14 : pystr) (t14 t15 : schema * list (name * name)).
Notation from := (cimread_input P used fuel pf uri14 t14 t15).
Notation plain := (cimread fuel pf uri14 t14 t15).

Lemma root_of evs e : EStart e ∈ evs → is_Some (skip_root evs).
Proof.
  induction evs as [|[e'|e'|p v] evs IH]; cbn [skip_root]; [by intros ?%elem_of_nil|by eexists..|].
  intros [?|H]%elem_of_cons; [done|by apply IH].
Qed.
(** Both parses see the same text. *)
Lemma read_same t pm base rdf i text d h : remaining i = text → remaining (rewind (to_end i)) = text →
  fst (read_input P t pm fuel pf base rdf i d h) = read t pm fuel pf base rdf (P text) d h.
Proof.
  intros H1 H2. unfold read_input, read. rewrite H1, H2. destruct (skip_root _) as [evs|]; [|done].
  destruct (pass1 _ _ _ _ _ _ _ _ _ _) as [[[x|] d'] h']; [done|]. by destruct (pass2 _ _ _ _ _ _ _ _ _ _) as [x h2].
Qed.
Lemma read_after t pm base rdf i d h d' h' i' : read_input P t pm fuel pf base rdf i d h = ((None, d', h'), i') → i' = to_end (rewind (to_end i)).
Proof.
  unfold read_input. destruct (skip_root _) as [evs|]; [|done].
  destruct (pass1 _ _ _ _ _ _ _ _ _ _) as [[[x|] d1] h1]; [done|]. destruct (skip_root _) as [evs2|]; [|done].
  destruct (pass2 _ _ _ _ _ _ _ _ _ _) as [x h2]. by intros [= _ _ _ <-].
Qed.
(** The second parse sees nothing. *)
Lemma read_nothing t pm base rdf i d h : remaining (rewind (to_end i)) = [] →
  fst (read_input P t pm fuel pf base rdf i d h) = read t pm fuel pf base rdf (broken_off (P (remaining i))) d h.
Proof using HP.
  intros H2. unfold read_input, read. rewrite H2, (pa_empty P HP). cbn [broken_off s_events s_error skip_root].
  destruct (skip_root (s_events (P (remaining i)))) as [evs|] eqn:Es.
  - rewrite pass1_failing. destruct (s_error (P (remaining i))) eqn:Ee.
    + rewrite pass1_failing. by destruct (pass1 _ _ _ _ _ _ _ _ _ _) as [[[x|] d'] h'].
    + by destruct (pass1 _ _ _ _ _ _ _ _ _ _) as [[[x|] d'] h'].
  - destruct (s_error (P (remaining i))) eqn:Ee; [done|]. destruct (pa_root P HP _ Ee) as [e He%root_of]. rewrite Es in He. by destruct He.
Qed.
End facts.

Section theorems.
Context (P : pystr → source) (used : pystr → nat) (HP : parser_ok P).
Context (fuel : nat) (pf : pystr → option pystr) (uri14 : pystr) (t14 t15 : schema * list (name * name)).
Notation from := (cimread_input P used fuel pf uri14 t14 t15).
Notation plain := (cimread fuel pf uri14 t14 t15).
(** A file whose first parse yields the namespaces of the whole text. *)
Lemma from_plain i text pm ns sd h : remaining i = text ∨ xmlns (P (remaining i)) = xmlns (P text) →
  remaining (rewind (advance (used (remaining i)) i)) = text →
  remaining (rewind (to_end (rewind (advance (used (remaining i)) i)))) = text → fst (from i pm ns sd h) = plain (P text) pm ns sd h.
Proof using Type.
  intros H0 H1 H2. assert (xmlns (P (remaining i)) = xmlns (P text)) as Hx by (destruct H0 as [->|?]; done). clear H0.
  unfold cimread_input, xmlns_input, cimread. rewrite Hx. destruct (xmlns (P text)) as [m|e]; [|done]. destruct (negb _); [done|].
  destruct ns as [n|], pm as [[t pm]|]; [by apply read_same|done|done|]. destruct (get_cim_ns uri14 m) as [n b]. destruct b; [destruct t14|destruct t15]; by apply read_same.
Qed.
(** A path, or a file that can be rewound and is at its start: the document. *)
Lemma path_plain text pm ns sd h : fst (from (Path text) pm ns sd h) = plain (P text) pm ns sd h.
Proof using Type. apply from_plain; [by left|done|done]. Qed.
Lemma start_plain text pm ns sd h : fst (from (File true text 0) pm ns sd h) = plain (P text) pm ns sd h.
Proof using Type. apply from_plain; [by left|done|done]. Qed.
Lemma seek_after text p pm ns sd h d' h' i' : from (File true text p) pm ns sd h = ((None, d', h'), i') → i' = File true text (length text).
Proof using Type.
  unfold cimread_input, xmlns_input. destruct (xmlns _) as [m|e]; [|done]. destruct (negb _); [done|].
  assert (∀ t pm base rdf, read_input P t pm fuel pf base rdf (rewind (advance (used (remaining (File true text p))) (File true text p))) (default [] sd) h =
    ((None, d', h'), i') → i' = File true text (length text)) as Hr by (by intros ???? ->%read_after).
  destruct ns as [n|], pm as [[t pm]|]; [apply Hr|done|done|]. destruct (get_cim_ns uri14 m) as [n b]. destruct b; [destruct t14|destruct t15]; apply Hr.
Qed.
Lemma end_raises b text p pm ns sd h : length text ≤ p → fst (from (File b text p) pm ns sd h) = (Some ParseError, default [] sd, h).
Proof using HP.
  intros Hp. unfold cimread_input, xmlns_input. cbn [remaining]. rewrite drop_ge by done. by rewrite (pa_empty P HP).
Qed.
End theorems.

(** A file object with a method seek that is at its start is read like a path. *)
Theorem C102_start P used fuel pf uri14 t14 t15 text pm ns sd h :
  fst (cimread_input P used fuel pf uri14 t14 t15 (File true text 0) pm ns sd h) = cimread fuel pf uri14 t14 t15 (P text) pm ns sd h ∧
  fst (cimread_input P used fuel pf uri14 t14 t15 (Path text) pm ns sd h) = cimread fuel pf uri14 t14 t15 (P text) pm ns sd h.
Proof. split; [apply start_plain|apply path_plain]. Qed.
Print Assumptions C102_start.
(** At any other position the namespaces are looked for in what follows, but
    the objects are read from the start. *)
Theorem C102_elsewhere P used fuel pf uri14 t14 t15 text p pm ns sd h :
  (∀ e, xmlns (P (drop p text)) = inr e →
    fst (cimread_input P used fuel pf uri14 t14 t15 (File true text p) pm ns sd h) = (Some e, default [] sd, h)) ∧
  (xmlns (P (drop p text)) = xmlns (P text) →
    fst (cimread_input P used fuel pf uri14 t14 t15 (File true text p) pm ns sd h) = cimread fuel pf uri14 t14 t15 (P text) pm ns sd h) ∧
  ∀ t m c n mp, pm = Some (t, c :: m) → ns = Some n → n ≠ [] → xmlns (P (drop p text)) = inl mp →
    fst (cimread_input P used fuel pf uri14 t14 t15 (File true text p) pm ns sd h) =
    read t (c :: m) fuel pf (u "{" ++ n ++ u "#}") (get_rdf_ns mp) (P text) (default [] sd) h.
Proof.
  split; [|split].
  - intros e E. unfold cimread_input, xmlns_input. cbn [remaining]. by rewrite E.
  - intros E. apply from_plain; [by right|done|done].
  - intros t m c n mp -> -> Hn E. unfold cimread_input, xmlns_input. cbn [remaining]. rewrite E. destruct n as [|x n]; [done|]. by apply read_same.
Qed.
Print Assumptions C102_elsewhere.
(** A read leaves the file at its end, where another read raises ParseError and
    changes nothing; after [seek(0)] it is read again. *)
Theorem C102_again P used fuel pf uri14 t14 t15 text p pm ns sd h d' h' i' : parser_ok P →
  cimread_input P used fuel pf uri14 t14 t15 (File true text p) pm ns sd h = ((None, d', h'), i') →
  (∀ pm2 ns2 sd2 h2, fst (cimread_input P used fuel pf uri14 t14 t15 i' pm2 ns2 sd2 h2) = (Some ParseError, default [] sd2, h2)) ∧
  ∀ pm2 ns2 sd2 h2, fst (cimread_input P used fuel pf uri14 t14 t15 (sought i') pm2 ns2 sd2 h2) = cimread fuel pf uri14 t14 t15 (P text) pm2 ns2 sd2 h2.
Proof.
  intros HP ->%seek_after. split; intros pm2 ns2 sd2 h2; [by apply end_raises|apply start_plain].
Qed.
Print Assumptions C102_again.
(** A file object without a method seek is never read: what is raised, and what
    is then in the dictionary, is as if the document broke off at its end. *)
Theorem C102_unseekable P used fuel pf uri14 t14 t15 text p pm ns sd h : parser_ok P →
  fst (fst (fst (cimread_input P used fuel pf uri14 t14 t15 (File false text p) pm ns sd h))) ≠ None ∧
  ∀ t m c n mp, pm = Some (t, c :: m) → ns = Some n → n ≠ [] → xmlns (P (drop p text)) = inl mp →
    fst (cimread_input P used fuel pf uri14 t14 t15 (File false text p) pm ns sd h) =
    read t (c :: m) fuel pf (u "{" ++ n ++ u "#}") (get_rdf_ns mp) (broken_off (P (drop (p + used (drop p text)) text))) (default [] sd) h.
Proof.
  intros HP. set (q := (p + used (drop p text))%nat).
  assert (∀ t pm base rdf d, fst (read_input P t pm fuel pf base rdf (File false text q) d h) =
    read t pm fuel pf base rdf (broken_off (P (drop q text))) d h) as Hr.
  { intros t pm0 base rdf d. apply (read_nothing P HP fuel pf). cbn. apply drop_ge. rewrite drop_length. lia. }
  assert (∀ t pm base rdf d, fst (fst (fst (read_input P t pm fuel pf base rdf (File false text q) d h))) ≠ None) as Hx.
  { intros t pm0 base rdf d. rewrite Hr. unfold read. cbn [broken_off s_events s_error]. destruct (skip_root _) as [evs|]; [|done].
    pose proof (pass1_raises t pm0 fuel base rdf evs false d h) as Hx. by destruct (pass1 _ _ _ _ _ _ _ _ _ _) as [[[x|] d'] h']. }
  split.
  - unfold cimread_input, xmlns_input. cbn [remaining rewind advance]. fold q. destruct (xmlns _) as [m|e]; [|done]. destruct (negb _); [done|].
    destruct ns as [n|], pm as [[t pm]|]; [apply Hx|done|done|]. destruct (get_cim_ns uri14 m) as [n b]. destruct b; [destruct t14|destruct t15]; apply Hx.
  - intros t m c n mp -> -> Hn E. unfold cimread_input, xmlns_input. cbn [remaining rewind advance]. fold q. rewrite E. destruct n as [|x n]; [done|]. apply Hr.
Qed.
Print Assumptions C102_unseekable.
(** What cimwrite has written into a file object is not read from it ... *)
Theorem C102_written P used fuel pf uri14 t14 t15 text pm ns sd h : parser_ok P →
  fst (cimread_input P used fuel pf uri14 t14 t15 (just_written text) pm ns sd h) = (Some ParseError, default [] sd, h).
Proof. intros HP. by apply end_raises. Qed.
Print Assumptions C102_written.
(** ... but after [seek(0)] it is. *)
Theorem C102_sought P used t pm t14 t15 pf fint enc h d h' w hr f : parser_ok P → (t, pm) ∈ tables → Portable t pm pf h d → Sound t hr → enc_ok enc →
  writes_to t fint d enc h = (inl tt, h', w) →
  ∃ d' h2 i', cimread_input P used (S (S f)) pf cim14_uri t14 t15 (sought (just_written (w_out w))) (Some (t, pm)) (Some cim15_uri) None hr = ((None, d', h2), i') ∧
    Copies t h d h2 d' ∧ i' = just_written (w_out w).
Proof.
  intros HPa Ht HP Hs He Hw. destruct (C54_round_trip t pm t14 t15 pf fint enc h d h' w hr f Ht HP Hs He Hw) as (src & d' & h2 & Hp & Hr & HC & _).
  rewrite <- (pa_parses P HPa _ _ Hp) in Hr. exists d', h2. cbn [sought just_written].
  pose proof (start_plain P used (S (S f)) pf cim14_uri t14 t15 (w_out w) (Some (t, pm)) (Some cim15_uri) None hr) as E. rewrite Hr in E.
  destruct (cimread_input _ _ _ _ _ _ _ _ _ _ _ _) as [r i'] eqn:Ei. cbn [fst] in E. subst r. exists i'. split; [done|]. split; [done|].
  by apply seek_after in Ei as ->.
Qed.
Print Assumptions C102_sought.

(** *** Examples *)
Definition demo_parser (text : pystr) : source := match parse_ns text with Some x => Source (xevents true x) false | None => Source [] true end.
(** A document is an element. *)
Definition elem_done (b : bstate) : Prop := match b with BDone n => ∃ tag ats kids, n = NElem tag ats kids | _ => True end.
Lemma bclose_elem top outer : elem_done (bclose top outer).
Proof. destruct top as [[tag ats] kids], outer as [|[[tag' ats'] kids'] r]; cbn; eauto. Qed.
Lemma bstep_elem b t b' : elem_done b → bstep b t = Some b' → elem_done b'.
Proof.
  intros Hb E. destruct b as [|[[tag ats] kids] r|n], t as [s|tg a sc|tg|]; cbn [bstep] in E; try done; try (by injection E as <-).
  - destruct (all_space s); [|done]. by injection E as <-.
  - destruct sc; injection E as <-; [apply (bclose_elem (tg, a, []) [])|done].
  - destruct sc; injection E as <-; [apply (bclose_elem (tg, a, []) ((tag, ats, kids) :: r))|done].
  - destruct (str_eqb tag tg); [|done]. injection E as <-. apply (bclose_elem (tag, ats, kids) r).
  - destruct (all_space s); [|done]. by injection E as <-.
Qed.
Lemma bsteps_elem ts : ∀ b b', elem_done b → bsteps b ts = Some b' → elem_done b'.
Proof.
  induction ts as [|t ts IH]; intros b b' Hb; cbn [bsteps]; [by intros [= <-]|].
  destruct (bstep b t) as [b1|] eqn:E; [|done]. cbn. apply IH. by eapply bstep_elem.
Qed.
Lemma prun_elem cs : ∀ s s', elem_done (snd s) → prun s cs = Some s' → elem_done (snd s').
Proof.
  induction cs as [|c cs IH]; intros s s' Hs; cbn [prun]; [by intros [= <-]|]. unfold pstep.
  destruct (lstep (fst s) c) as [[l ts]|]; [|done]. cbn. destruct (bsteps (snd s) ts) as [b|] eqn:E; [|done]. cbn. apply IH. cbn. by eapply bsteps_elem.
Qed.
Lemma parse_elem doc x : parse_ns doc = Some x → ∃ ds tag ats kids, x = XElem ds tag ats kids.
Proof.
  unfold parse_ns, parse. destruct (skip_decl _) as [body|]; [|done]. cbn [mbind option_bind].
  destruct (prun (LText [], BProlog) body) as [[l b]|] eqn:E; [|done]. apply prun_elem in E; [|done]. cbn [snd] in E. cbn [mbind option_bind].
  unfold pfinish. destruct l as [acc| | | | | | | | | | | | | | | |], b as [| |n]; try done. destruct (all_space acc); [|done].
  destruct E as (tag & ats & kids & ->). cbn [mbind option_bind resolve].
  destruct (ns_decls ats) as [ds|]; [|done]. cbn [mbind option_bind]. destruct (expand_tag _ _) as [tag'|]; [|done]. cbn [mbind option_bind].
  destruct (expand_attrs _ _) as [ats'|]; [|done]. cbn [mbind option_bind]. destruct (_ kids) as [kids'|]; [|done]. intros [= <-]. by eexists _, _, _, _.
Qed.
Lemma demo_parser_ok : parser_ok demo_parser.
Proof.
  split.
  - vm_compute. reflexivity.
  - intros text. unfold demo_parser. destruct (parse_ns text) as [x|] eqn:E; [|done]. intros _.
    destruct (parse_elem _ _ E) as (ds & tag & ats & kids & ->). cbn [s_events xevents]. eexists. apply elem_of_app. right. left.
  - intros text src (x & E & ->). unfold demo_parser. by rewrite E.
Qed.
(** A small document: an iterparse block holds all of it. *)
Definition unit_doc : pystr := u "<rdf:RDF xmlns:rdf=""http://www.w3.org/1999/02/22-rdf-syntax-ns#"" xmlns:cim=""http://iec.ch/TC57/2010/CIM-schema-cim15#""><cim:GeneratingUnit rdf:ID=""g1""></cim:GeneratingUnit></rdf:RDF>".
Definition whole : pystr → nat := length.
Notation reads_input i := (cimread_input demo_parser whole 20 pf_demo cim14_uri (cim14, cim14_map) (cim15, cim15_map) i (Some (bal, bal_map)) (Some cim15_uri) None heap_empty).
Example C102_example :
  parser_ok demo_parser ∧
  (let '((x, d, _), i) := reads_input (File true unit_doc 0) in x = None ∧ map fst d = [u "g1"] ∧ i = File true unit_doc (length unit_doc)) ∧
  xmlns (demo_parser (drop 5 unit_doc)) = inr ParseError ∧
  xmlns (demo_parser unit_doc) = inl [(u "rdf", rdf_default); (u "cim", cim15_uri ++ u "#")] ∧
  fst (fst (fst (reads_input (File false unit_doc 0)))) = Some ParseError.
Proof. split; [exact demo_parser_ok|]. split; [vm_compute; done|]. split; [vm_compute; done|]. split; vm_compute; done. Qed.
(** The documentation speaks of file-like objects. *)
Theorem C102_file_like_refuted : ¬ ∀ P used fuel pf uri14 t14 t15 b text pm ns sd h, parser_ok P →
  fst (cimread_input P used fuel pf uri14 t14 t15 (File b text 0) pm ns sd h) = fst (cimread_input P used fuel pf uri14 t14 t15 (Path text) pm ns sd h).
Proof.
  intros H. specialize (H demo_parser whole 20%nat pf_demo cim14_uri (cim14, cim14_map) (cim15, cim15_map) false unit_doc (Some (bal, bal_map)) (Some cim15_uri) None heap_empty demo_parser_ok).
  apply (f_equal (λ r, fst (fst r))) in H. revert H. vm_compute. done.
Qed.
Print Assumptions C102_file_like_refuted.
(** Nor can a file object be read twice. *)
Theorem C102_twice_refuted : ¬ ∀ P used fuel pf uri14 t14 t15 text pm ns sd h d' h' i', parser_ok P →
  cimread_input P used fuel pf uri14 t14 t15 (File true text 0) pm ns sd h = ((None, d', h'), i') →
  fst (fst (fst (cimread_input P used fuel pf uri14 t14 t15 i' pm ns sd h'))) = None.
Proof.
  intros H. destruct (reads_input (File true unit_doc 0)) as [[[x d'] h'] i'] eqn:E.
  assert (x = None) as ->. { apply (f_equal (λ r, fst (fst (fst r)))) in E. cbn [fst] in E. rewrite <- E. vm_compute. reflexivity. }
  specialize (H demo_parser whole 20%nat pf_demo cim14_uri (cim14, cim14_map) (cim15, cim15_map) unit_doc (Some (bal, bal_map)) (Some cim15_uri) None heap_empty d' h' i' demo_parser_ok E).
  destruct (C102_again _ _ _ _ _ _ _ _ _ _ _ _ _ _ _ _ demo_parser_ok E) as [Ha _]. by rewrite Ha in H.
Qed.
Print Assumptions C102_twice_refuted.
