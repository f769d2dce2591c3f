(** Properties of the XML writer (C42-C50, C62). *)
From Coq Require Import String ZArith.
From stdpp Require Import prelude sorting.
From Verif Require Import PyStr PyHeap XmlWriter XmlSpec XmlCalls EscapeFacts DigitFacts Py2Facts XmlWriterFacts XmlParseFacts XmlDocFacts.

(** *** C42: character data *)
Theorem C42_text_escaping s :
  (∀ c, c ∈ escape_cdata s → c ≠ 60%N ∧ c ≠ 62%N) ∧ amp_ok cdata_entities (escape_cdata s) ∧
  expand (escape_cdata s) = Some s.
Proof. exact (conj (escape_cdata_chars s) (conj (escape_cdata_amp s) (expand_escape_cdata s))). Qed.
Print Assumptions C42_text_escaping.
Example C42_example : escape_cdata (u "a<b & c>&lt;") = u "a&lt;b &amp; c&gt;&amp;lt;".
Proof. reflexivity. Qed.

(** *** C43: attribute values *)
Theorem C43_attribute_escaping s :
  (∀ c, c ∈ escape_attrib s → c ≠ 60%N ∧ c ≠ 62%N ∧ c ≠ 34%N ∧ c ≠ 39%N) ∧
  amp_ok attrib_entities (escape_attrib s) ∧ expand (escape_attrib s) = Some s.
Proof. exact (conj (escape_attrib_chars s) (conj (escape_attrib_amp s) (expand_escape_attrib s))). Qed.
Print Assumptions C43_attribute_escaping.
Example C43_example : escape_attrib (u """>'&") = u "&quot;&gt;&apos;&amp;".
Proof. reflexivity. Qed.

(** *** C44: balanced calls *)
(** The encodings a declaration can name. *)
Theorem C44_well_formed declare enc c :
  is_element c = true → legal c →
  (declare = true → enc = u "us-ascii" ∨ enc = u "utf-8" ∨ is_encname enc = true) →
  ∃ w ord, document declare enc c = (inl tt, w) ∧ w_tags w = [] ∧
    (∀ a, ord a ≡ₚ a) ∧ parse (w_out w) = Some (call_tree ord c).
Proof.
  intros He Hl Henc. destruct (parse_document declare enc c He Hl Henc) as (w & E & T & P).
  exact (ex_intro _ w (ex_intro _ sort_attrs (conj E (conj T (conj sort_attrs_perm P))))).
Qed.
Print Assumptions C44_well_formed.
Definition C44_doc : call :=
  CElem (u "rdf:RDF") [(u "xmlns:rdf", u "r#"); (u "a", u "1 < 2 & ""x""")]
    [CData (u "a<b>]]>"); CData (u "&amp;"); CComment (u "note - 1"); CElem (u "e") [] [] true;
     CElement (u "f") (Some (u "x")) []; CElement (u "g") None [(u "k", u "'")]; CData []] false.
Example C44_example : is_element C44_doc = true ∧ legal C44_doc.
Proof.
  split; [done|]. unfold C44_doc.
  assert (∀ a, bool_decide (NoDup (map fst a)) && forallb (λ kv, is_name (fst kv) && forallb attr_char (snd kv)) a = true → legal_attrs a) as Ha.
  { intros a [H1%bool_decide_eq_true H2]%andb_true_iff. split; [done|]. intros k v Hin%elem_of_list_In.
    rewrite forallb_forall in H2. apply H2 in Hin. by apply andb_true_iff in Hin. }
  constructor; [done|by apply Ha; vm_compute|].
  intros c. rewrite !elem_of_cons, elem_of_nil.
  intros [->|[->|[->|[->|[->|[->|[->|[]]]]]]]]; constructor; try done; try (by apply Ha; vm_compute).
  by intros ? ?%elem_of_nil.
Qed.

(** *** C45: close(id) *)
Theorem C45_close id w :
  ∃ w', w_close id w = (inl tt, w') ∧ w_tags w' = drop (length (w_tags w) - id) (w_tags w) ∧ w_enc w' = w_enc w ∧
    ((length (w_tags w) <= id)%nat ∧ w' = w ∨
     (id < length (w_tags w))%nat ∧ w_open w' = false ∧ w_data w' = [] ∧
     w_out w' =
       if w_open w && match w_data w with [] => true | _ => false end
       then w_out w ++ u " />" ++
            mjoin (map (λ t, u "</" ++ t ++ u ">") (drop 1 (take (length (w_tags w) - id) (w_tags w))))
       else (w_out w ++ (if w_open w then u ">" else []) ++ escape_cdata (join (w_data w))) ++
            mjoin (map (λ t, u "</" ++ t ++ u ">") (take (length (w_tags w) - id) (w_tags w)))).
Proof. exact (w_close_loop_spec (length (w_tags w)) id w (le_n _)). Qed.
Print Assumptions C45_close.
(** Closing with the identifier [start] returned undoes that [start] as far as
    the open elements go, whatever was opened since. *)
Theorem C45_close_start tag attrib extra w w1 w2 :
  snd (w_start tag attrib extra w) = w1 →
  (∃ opened, w_tags w2 = opened ++ w_tags w1) →
  ∃ w3, w_close (fst (w_start tag attrib extra w)) w2 = (inl tt, w3) ∧ w_tags w3 = w_tags w.
Proof.
  intros <- [opened Ho]. rewrite w_start_spec in *. cbn [fst snd w_tags] in *.
  destruct (C45_close (length (w_tags w)) w2) as (w3 & E & T & _). exists w3. split; [done|].
  rewrite T, Ho, app_length. cbn [length].
  replace (length opened + S (length (w_tags w)) - length (w_tags w))%nat with (S (length opened)) by lia.
  change (escape_cdata tag :: w_tags w) with ([escape_cdata tag] ++ w_tags w). rewrite app_assoc.
  apply drop_app_alt. rewrite app_length. cbn. lia.
Qed.
Print Assumptions C45_close_start.
Example C45_example :
  let w0 := w_init (u "utf-8") in
  let '(i, w1) := w_start (u "a") [] [] w0 in
  let '(j, w2) := w_start (u "b") [] [] (w_add_data (u "x") w1) in
  let w3 := snd (w_start (u "c") [] [] w2) in
  w_out (snd (w_close j w3)) = u "<a>x<b><c /></b>" ∧ w_tags (snd (w_close j w3)) = [u "a"] ∧ w_tags w3 = [u "c"; u "b"; u "a"].
Proof. vm_compute. done. Qed.

(** *** C46: unbalanced end *)
(** [t] is the tag the innermost open element was started with (the writer
    keeps it escaped). *)
Theorem C46_unbalanced_end w tag :
  (w_tags w = [] → w_end tag w = (inr AssertionError, w)) ∧
  (∀ t ts s, w_tags w = escape_cdata t :: ts → tag = Some s → s ≠ [] → s ≠ t → w_end tag w = (inr AssertionError, w)) ∧
  (∀ t ts, w_tags w = escape_cdata t :: ts → tag = None ∨ tag = Some [] ∨ tag = Some t →
     ∃ w', w_end tag w = (inl tt, w') ∧ w_tags w' = ts).
Proof.
  split; [exact (w_end_none w tag)|]. split; [intros t ts s Hw ->; exact (w_end_other w t ts s Hw)|].
  intros t ts Hw Ht. exists (w_pop (escape_cdata t) ts w). rewrite w_pop_spec. split; [|done]. rewrite <- w_pop_spec.
  destruct Ht as [->|[->| ->]].
  - apply w_end_spec; [done|by left].
  - unfold w_end. by rewrite Hw.
  - apply w_end_spec; [done|right; eauto].
Qed.
Print Assumptions C46_unbalanced_end.
Example C46_example :
  let w := snd (w_start (u "a&b") [] [] (w_init (u "utf-8"))) in
  w_tags w = [escape_cdata (u "a&b")] ∧ w_end (Some (u "b")) w = (inr AssertionError, w) ∧
  w_end None (w_init (u "utf-8")) = (inr AssertionError, w_init (u "utf-8")).
Proof. vm_compute. done. Qed.

(** *** C47: keyword attributes *)
Theorem C47_keywords_ignored tag attrib extra w : w_start tag attrib extra w = w_start tag attrib [] w.
Proof. rewrite !w_start_spec. reflexivity. Qed.
Print Assumptions C47_keywords_ignored.
Theorem C47_element_keywords_ignored tag text attrib extra w : w_element tag text attrib extra w = w_element tag text attrib [] w.
Proof. unfold w_element. by rewrite C47_keywords_ignored. Qed.
Print Assumptions C47_element_keywords_ignored.
Theorem C47_keywords_written_refuted :
  ∃ tag extra w, extra ≠ [] ∧
    parse (w_out (snd (w_end None (snd (w_start tag [] extra w))))) = Some (NElem tag [] []).
Proof. exists (u "p"), [(u "id", u "1")], (w_init (u "utf-8")). split; [done|]. vm_compute. reflexivity. Qed.
Print Assumptions C47_keywords_written_refuted.

(** *** C48: attribute order *)
Theorem C48_canonical_order tag attrib attrib' extra w :
  NoDup (map fst attrib) → attrib ≡ₚ attrib' →
  w_start tag attrib extra w = w_start tag attrib' extra w ∧
  ∃ sorted, sorted ≡ₚ attrib ∧ StronglySorted (λ x y, str_lt (fst x) (fst y)) sorted ∧
    w_out (snd (w_start tag attrib extra w)) =
    w_out (w_flush w) ++ u "<" ++ escape_cdata tag ++
      mjoin (map (λ kv, u " " ++ escape_cdata (fst kv) ++ u "=""" ++ escape_attrib (snd kv) ++ u """") sorted).
Proof.
  intros Hn Hp. split; [exact (w_start_perm tag attrib attrib' extra w Hn Hp)|].
  exists (sort_attrs attrib). split; [apply sort_attrs_perm|]. split; [by apply sort_sorted|].
  rewrite w_start_spec, w_flush_spec. done.
Qed.
Print Assumptions C48_canonical_order.
Example C48_example :
  let a := [(u "xmlns:rdf", u "1"); (u "b", u "2"); (u "ba", u "3")] in
  let b := [(u "ba", u "3"); (u "xmlns:rdf", u "1"); (u "b", u "2")] in
  NoDup (map fst a) ∧ a ≡ₚ b ∧
  w_out (snd (w_start (u "t") b [] (w_init (u "utf-8")))) = u "<t b=""2"" ba=""3"" xmlns:rdf=""1""".
Proof.
  split; [apply (bool_decide_unpack _); vm_compute; done|]. split; [|reflexivity].
  apply (Permutation_app_comm [_; _] [_]).
Qed.

(** *** C49: the Python 2 us-ascii path *)
Theorem C49_py2_exact s :
  (∀ c, c ∈ s → (c <= 65535)%N ∧ xml_char c = true) →
  ∃ e, escape_cdata_py2 s = Some e ∧
    (expand e = Some s ↔ (∀ c, c ∈ s → (c < 128)%N) ∨ ∀ c, c ∈ s → c ≠ 38%N ∧ c ≠ 60%N ∧ c ≠ 62%N).
Proof.
  intros Hs. destruct (py2_exact s Hs) as (e & E & H). exists e. split; [done|]. rewrite H. apply or_iff_compat_r.
  unfold is_ascii. rewrite forallb_forall. split.
  - intros Ha c Hc%elem_of_list_In. apply Ha in Hc. by apply N.ltb_lt.
  - intros Ha c Hc%elem_of_list_In. apply N.ltb_lt. by apply Ha.
Qed.
Print Assumptions C49_py2_exact.
Theorem C49_py2_lossless_refuted :
  ∃ s e, (∀ c, c ∈ s → (c <= 65535)%N ∧ xml_char c = true) ∧ escape_cdata_py2 s = Some e ∧
    e = u "&#233; &#38;amp;" ∧ expand e = Some (escape_cdata s) ∧ expand e ≠ Some s.
Proof.
  exists [233; 32; 38]%N, (u "&#233; &#38;amp;"). split.
  - intros c. rewrite !elem_of_cons, elem_of_nil. by intros [->|[->|[->|[]]]].
  - vm_compute. done.
Qed.
Print Assumptions C49_py2_lossless_refuted.

(** *** C50: comments *)
Theorem C50_comment_exact tag s :
  is_name tag = true → forallb data_char s = true →
  ∃ w, document false (u "utf-8") (CElem tag [] [CComment s] false) = (inl tt, w) ∧
    ((∃ pre post, s = pre ++ u "--" ++ post) → parse (w_out w) = None) ∧
    ((∀ pre post, s ≠ pre ++ u "--" ++ post) → parse (w_out w) = Some (NElem tag [] [NText [10%N]])).
Proof.
  intros Ht Hs. destruct (parse_comment tag s Ht Hs) as (w & E & P). exists w. split; [done|]. rewrite P. split.
  - intros (pre & post & Hp). destruct (no_double_hyphen s) eqn:Hh; [|done].
    rewrite ndh_spec in Hh. by apply Hh in Hp.
  - intros Hp. apply ndh_spec in Hp. by rewrite Hp.
Qed.
Print Assumptions C50_comment_exact.
Example C50_example : is_name (u "a") = true ∧ forallb data_char (u "fine - really <&>") = true.
Proof. done. Qed.
Theorem C50_well_formed_refuted :
  ∃ tag s w, is_name tag = true ∧ forallb data_char s = true ∧
    document false (u "utf-8") (CElem tag [] [CComment s] false) = (inl tt, w) ∧ parse (w_out w) = None.
Proof. exists (u "a"), (u "x -- y"). eexists. split; [done|]. split; [done|]. split; [reflexivity|]. vm_compute. reflexivity. Qed.
Print Assumptions C50_well_formed_refuted.

(** *** C62: white space *)
Theorem C62_white_space tag c s attrib :
  is_name tag = true → NoDup (map fst attrib) →
  (∀ k v, (k, v) ∈ attrib → is_name k = true ∧ forallb xml_char v = true) → forallb xml_char (c :: s) = true →
  ∃ w ats, document false (u "utf-8") (CElement tag (Some (c :: s)) attrib) = (inl tt, w) ∧
    parse (w_out w) = Some (NElem tag ats [NText (norm_eol (c :: s))]) ∧
    ats ≡ₚ map (λ kv, (fst kv, map (λ c, if xml_space c then 32%N else c) (norm_eol (snd kv)))) attrib ∧
    (norm_eol (c :: s) = c :: s ↔ 13%N ∉ c :: s) ∧
    (∀ k v, (k, v) ∈ attrib →
       (map (λ c, if xml_space c then 32%N else c) (norm_eol v) = v ↔ 9%N ∉ v ∧ 10%N ∉ v ∧ 13%N ∉ v)).
Proof.
  intros Ht Hn Ha Hs. destruct (parse_element tag c s attrib Ht (conj Hn Ha) Hs) as (w & E & P).
  exists w. eexists. split; [done|]. split; [exact P|]. split; [by rewrite sort_attrs_perm|].
  split; [apply norm_eol_data|]. intros k v Hin. apply Ha in Hin as [_ Hv]. rewrite (norm_attr_eol_char v Hv).
  rewrite forallb_forall in Hv. rewrite forallb_forall. split.
  - intros H. split_and!; intros Hin%elem_of_list_In; by apply H in Hin.
  - intros (H9 & H10 & H13) x Hx. unfold attr_char, data_char. rewrite (Hv x Hx). apply elem_of_list_In in Hx.
    rewrite !(proj2 (N.eqb_neq _ _)) by (intros ->; done). done.
Qed.
Print Assumptions C62_white_space.
Example C62_example :
  ∃ w, document false (u "utf-8") (CElement (u "a") (Some [120; 13; 10; 121; 13]%N) [(u "k", [120; 9; 121]%N)]) = (inl tt, w) ∧
    parse (w_out w) = Some (NElem (u "a") [(u "k", u "x y")] [NText [120; 10; 121; 10]%N]).
Proof. eexists. split; [reflexivity|]. vm_compute. reflexivity. Qed.
