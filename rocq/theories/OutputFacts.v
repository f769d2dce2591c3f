(** What is in the file when cimwrite raises. *)
From Coq Require Import String ZArith Lia.
From stdpp Require Import prelude gmap.
From Verif Require Import PyStr PyHeap Schema Assoc AssocSpec Reader ReaderSpec XmlWriter XmlSpec XmlCalls.
From Verif Require Import EscapeFacts XmlWriterFacts XmlParseFacts XmlDocFacts XmlFlatFacts.
From Verif Require Import WriteSpec CimWriter WriteFacts WriteDocFacts WriteTables Names Tables TableSpec TableFacts.

(** *** The parser after the root element *)
(** Character data other than white space. *)
Lemma after_text n t : ∀ l, (∃ acc, l = LText acc ∧ all_space acc = false) ∨ (∃ acc ref, l = LRef acc ref ∧ all_space acc = false) →
  (s ← prun (l, BDone n) t; pfinish s) = None.
Proof.
  assert (∀ acc, all_space acc = false → all_space (reverse acc) = false) as Hrev.
  { intros acc H. apply not_true_iff_false. intros H2. apply not_true_iff_false in H. apply H.
    unfold all_space in *. rewrite forallb_forall in *. intros x Hx. apply H2. by apply elem_of_list_In, elem_of_reverse, elem_of_list_In. }
  induction t as [|c t IH]; intros l Hl.
  - destruct Hl as [(acc & -> & Ha)|(acc & ref & -> & Ha)]; cbn; by rewrite ?Ha.
  - rewrite prun_cons. unfold pstep. cbn [fst snd]. destruct Hl as [(acc & -> & Ha)|(acc & ref & -> & Ha)]; unfold lstep; destruct (negb (xml_char c)); try done.
    + destruct (c =? 60)%N.
      { destruct acc as [|x acc]; [done|]. cbn [mbind option_bind bsteps bstep]. by rewrite Hrev. }
      destruct (c =? 38)%N; [cbn [mbind option_bind bsteps]; apply IH; right; by eexists _, _|].
      destruct ((c =? 62)%N && _); [done|]. cbn [mbind option_bind bsteps]. apply IH. left. eexists. split; [done|].
      unfold all_space in *. cbn [forallb]. by rewrite Ha, andb_false_r.
    + destruct (c =? 59)%N; [|cbn [mbind option_bind bsteps]; apply IH; right; by eexists _, _].
      destruct (expand_ref (reverse ref)); [|done]. cbn [mbind option_bind bsteps]. apply IH. left. eexists. split; [done|].
      unfold all_space in *. cbn [forallb]. by rewrite Ha, andb_false_r.
Qed.
(** An end tag. *)
Lemma after_close n t : ∀ l, (∃ tag, l = LClose tag) ∨ (∃ tag, l = LCloseSp tag) → (s ← prun (l, BDone n) t; pfinish s) = None.
Proof.
  induction t as [|c t IH]; intros l Hl; [by destruct Hl as [[? ->]|[? ->]]|].
  assert (∀ tag, (s' ← ('(l', ts) ← lclose tag; b ← bsteps (BDone n) ts; Some (l', b)); (s ← prun s' t; pfinish s)) = None) as Hc.
  { intros tag. unfold lclose. by destruct (is_name (reverse tag)). }
  rewrite prun_cons. unfold pstep. cbn [fst snd]. destruct Hl as [[tag ->]|[tag ->]]; unfold lstep; destruct (negb (xml_char c)); try done.
  - destruct (xml_space c); [cbn [mbind option_bind bsteps]; apply IH; eauto|]. destruct (c =? 62)%N; [|cbn [mbind option_bind bsteps]; apply IH; eauto].
    specialize (Hc tag). destruct (lclose tag) as [[l' ts]|]; [|done]. cbn [mbind option_bind] in *. destruct (bsteps (BDone n) ts); done.
  - destruct (xml_space c); [cbn [mbind option_bind bsteps]; apply IH; eauto|]. destruct (c =? 62)%N; [|done].
    specialize (Hc tag). destruct (lclose tag) as [[l' ts]|]; [|done]. cbn [mbind option_bind] in *. destruct (bsteps (BDone n) ts); done.
Qed.
(** The rest of a document, from the end of an element on. *)
Definition closing (t : pystr) : Prop :=
  forallb xml_char t = true ∧ 13%N ∉ t ∧ ((∃ r, t = u "</" ++ r) ∨ ∃ r, t = u " />" ++ r).
Lemma after_root acc n t : all_space acc = true → closing t → (s ← prun (LText acc, BDone n) t; pfinish s) = None.
Proof.
  intros Ha (_ & _ & [[r ->]|[r ->]]).
  - change (u "</" ++ r) with (60%N :: 47%N :: r). rewrite prun_cons. unfold pstep. cbn [fst snd]. 
    assert (lstep (LText acc) 60 = Some (LLt, match acc with [] => [] | _ => [TText (reverse acc)] end)) as -> by done.
    cbn [mbind option_bind].
    assert (bsteps (BDone n) match acc with [] => [] | _ => [TText (reverse acc)] end = Some (BDone n)) as ->.
    { destruct acc as [|x acc]; [done|]. cbn [bsteps bstep]. replace (all_space (reverse (x :: acc))) with true; [done|].
      symmetry. unfold all_space in *. rewrite forallb_forall in *. intros y Hy. apply Ha. by apply elem_of_list_In, elem_of_reverse, elem_of_list_In. }
    cbn [mbind option_bind]. rewrite prun_cons, (pstep_lex _ _ (LClose [])) by done. cbn [mbind option_bind]. apply after_close. eauto.
  - change (u " />" ++ r) with (32%N :: 47%N :: 62%N :: r). rewrite prun_cons, (pstep_lex _ _ (LText (32%N :: acc))) by done.
    cbn [mbind option_bind]. rewrite prun_cons, (pstep_lex _ _ (LText (47%N :: 32%N :: acc))) by done. cbn [mbind option_bind].
    apply after_text. left. eexists. done.
Qed.

(** A document cut off before the end of an element. *)
Lemma unfinished enc c P t : is_element c = true → elems c → enc_ok enc → render c = P ++ t → closing t →
  parse (decl_text enc ++ P) = None.
Proof.
  intros Hel He Henc Er Hcl. pose proof Hcl as (Htx & Htc & Hsh). destruct (parse (decl_text enc ++ P)) as [n|] eqn:Ep; [|done]. exfalso.
  unfold parse in Ep. rewrite norm_eol_pre, skip_decl_text in Ep by (done || by apply decl_no_cr). cbn [mbind option_bind] in Ep.
  destruct (prun (LText [], BProlog) (10%N :: norm_eol P)) as [s|] eqn:Es; [|done]. cbn [mbind option_bind] in Ep.
  assert (∃ acc, s = (LText acc, BDone n) ∧ all_space acc = true) as (acc & -> & Ha).
  { destruct s as [[acc|acc ref| |? ? ?|?|?|?|? ?|? ? ?|? ? ?|? ? ?|? ? ? ? ?|? ? ? ? ? ?|? ?|? ?|?|?] [|[[? ?] ?] ?|n']]; try done.
    cbn [pfinish] in Ep. destruct (all_space acc) eqn:Ha; [|done]. injection Ep as ->. eauto. }
  assert (xmls (strings c)) as Hx.
  { apply render_xml; [done|]. rewrite Er, forallb_app, Htx, andb_true_r. pose proof (prun_xml _ _ _ Es) as Hp.
    cbn [forallb] in Hp. apply andb_true_iff in Hp as [_ Hp]. by apply (proj1 (xml_norm_eol P)). }
  destruct (parse_flat enc c Hel He Henc) as (w & Ed & _ & Hp & _). specialize (Hp Hx).
  destruct (render_document true enc c Hel) as (w' & Ed' & _ & O). rewrite Ed in Ed'. injection Ed' as <-. rewrite O, Er in Hp.
  unfold parse in Hp. rewrite norm_eol_pre, skip_decl_text in Hp by (done || by apply decl_no_cr). cbn [mbind option_bind] in Hp.
  assert (norm_eol (P ++ t) = norm_eol P ++ t) as En.
  { destruct t as [|d t']; [by destruct Hsh as [[? ?]|[? ?]]|].
    assert (d ≠ 10%N) as Hd by (destruct Hsh as [[? [= -> _]]|[? [= -> _]]]; done).
    rewrite (proj1 (norm_app_ne P d t' Hd)), (norm_eol_id (d :: t')) by done. done. }
  rewrite En in Hp. change (10%N :: norm_eol P ++ t) with ((10%N :: norm_eol P) ++ t) in Hp. rewrite prun_app, Es in Hp.
  cbn [mbind option_bind] in Hp. rewrite (after_root acc n t Ha Hcl) in Hp. done.
Qed.

(** *** The writer when cimwrite raises *)
Section fails.
Context (t : schema) (pm : list (name * name)) (Ht : (t, pm) ∈ tables) (fint : pystr → option Z) (nsURI : pystr).
Notation pre := (u "cim").
(** Besides reading, [m] adds elements. *)
Definition adds {A} (m : WM A) : Prop := ∀ h w, ∃ ps, all_elems ps ∧ run_calls ps w = (inl tt, snd (m h w)).
Lemma adds_none {A} (m : WM A) : (∀ h w, snd (m h w) = w) → adds m.
Proof. intros Hm h w. exists []. split; [done|]. by rewrite Hm. Qed.
Lemma all_elems_app l l' : all_elems l → all_elems l' → all_elems (l ++ l').
Proof. induction l as [|c l IH]; [done|]. intros [? ?] ?. split; [done|]. by apply IH. Qed.
Lemma adds_bind {A B} (m : WM A) (f : A → WM B) : adds m → (∀ a, adds (f a)) → adds (wbind m f).
Proof.
  intros Hm Hf h w. unfold wbind. destruct (Hm h w) as (ps & Hps & E). destruct (m h w) as [[[a|e] h'] w']; [|by exists ps].
  cbn [snd] in E. destruct (Hf a h' w') as (ps' & Hps' & E'). exists (ps ++ ps'). split; [by apply all_elems_app|].
  by rewrite run_calls_app, E.
Qed.
Lemma adds_for {A} (xs : list A) body : (∀ x, x ∈ xs → adds (body x)) → adds (wfor xs body).
Proof.
  induction xs as [|x xs IH]; intros Hb; cbn [wfor]; [by apply adds_none|]. apply adds_bind; [apply Hb; left|].
  intros _. apply IH. intros y Hy. apply Hb. by right.
Qed.
Lemma adds_get v a : adds (on_heap (getattr t v a)).
Proof. apply adds_none. intros h w. unfold on_heap. by destruct (getattr t v a h). Qed.
Lemma adds_show v : adds (show v).
Proof. apply adds_none. intros h w. unfold show. by destruct (py_str v). Qed.
Lemma adds_element tag text a : is_name tag = true → attrs_named a → adds (element tag text a).
Proof.
  intros Hn Ha h w. exists [CElement tag text a]. split; [done|]. cbn [run_calls].
  destruct (run_call_writes (CElement tag text a) w) as (w1 & E & _). rewrite E. cbn [XmlCalls.wbind].
  unfold element, on_writer. cbn [run_call] in E. by rewrite E.
Qed.
Lemma tag_ok c a : c ∈ t → a ∈ c_attrs c ∨ a ∈ c_refs c → is_name (prop_tag pre c a) = true.
Proof.
  intros Hc Ha. pose proof (names_in _ _ _ Ht Hc) as Hb. unfold names_b in Hb. rewrite !andb_true_iff, !forallb_forall in Hb.
  destruct Hb as [[Hn1 Hb1] Hb2]. unfold prop_tag. apply is_name_pre, good_is_name, good_dotted; [done|].
  destruct Ha as [Ha|Ha]; apply elem_of_list_In in Ha; auto.
Qed.
Lemma no_attrs : attrs_named [].
Proof. split; [constructor|by intros ? ? ?%elem_of_nil]. Qed.
Lemma adds_attr v c a : c ∈ t → a ∈ c_attrs c → adds (write_attr t fint pre v c a).
Proof.
  intros Hc Ha. unfold write_attr. destruct (is_enum c a); [by apply adds_none|]. apply adds_bind; [apply adds_get|intros x].
  destruct (assoc a (c_defaults c)); [|by apply adds_none]. destruct (py_eq fint x v0); [by apply adds_none|].
  apply adds_bind; [apply adds_show|intros s]. apply adds_element; [apply tag_ok; auto|apply no_attrs].
Qed.
Lemma adds_enum v c a : c ∈ t → a ∈ c_attrs c → adds (write_enum t nsURI pre v c a).
Proof.
  intros Hc Ha. unfold write_enum. destruct (assoc a (c_enums c)); [|by apply adds_none]. apply adds_bind; [apply adds_get|intros x].
  apply adds_bind; [apply adds_show|intros s]. apply adds_element; [apply tag_ok; auto|by apply attrs_named_1].
Qed.
Lemma adds_ref v c a : c ∈ t → a ∈ c_refs c → adds (write_ref t pre v c a).
Proof.
  intros Hc Ha. unfold write_ref. destruct (existsb _ _); [by apply adds_none|]. apply adds_bind; [apply adds_get|intros x].
  case_decide; [by apply adds_none|]. apply adds_bind; [apply adds_get|intros i].
  apply adds_bind; [apply adds_show|intros s]. apply adds_element; [apply tag_ok; auto|by apply attrs_named_1].
Qed.
(** One entry: nothing, or a start tag and complete elements. *)
Definition begun (w w' : writer) : Prop :=
  w' = w ∨ ∃ tag a ps, is_name tag = true ∧ attrs_named a ∧ all_elems ps ∧ run_calls ps (snd (w_start tag a [] w)) = (inl tt, w').
Lemma entry_begun v h w e h' w' : write_entry t fint nsURI pre v h w = (inr e, h', w') → begun w w'.
Proof.
  unfold write_entry. unfold wbind at 1, on_heap. destruct (getattr t v (u "UUID") h) as [[i|e0] h1]; [|intros [= _ _ <-]; by left].
  destruct (ck ← val_cls h1 v; find_cls t ck) as [k|] eqn:Ek; [|intros [= _ _ <-]; by left].
  assert (k ∈ t) as Hk.
  { destruct (val_cls h1 v) as [ck|]; [|done]. cbn [mbind option_bind] in Ek.
    apply (mro_sub _ ck). unfold mro. destruct t as [|c' t']; [done|]. cbn [length mro_fuel]. rewrite Ek. left. }
  assert (is_name (pre ++ u ":" ++ c_name k) = true) as Hn.
  { apply is_name_pre, good_is_name, good_ident. pose proof (names_in _ _ _ Ht Hk) as Hb. unfold names_b in Hb. rewrite !andb_true_iff in Hb. tauto. }
  assert (∀ w, snd (w_start (pre ++ u ":" ++ c_name k) [] [] w) = w' → begun w w') as Hbad.
  { intros w1 <-. right. exists (pre ++ u ":" ++ c_name k), [], []. split; [done|]. split; [apply no_attrs|]. done. }
  destruct i; try (intros [= _ _ E]; by apply Hbad). clear Hbad.
  set (cs := below_element t (c_key k)).
  assert (∀ c, c ∈ cs → c ∈ t) as Hcs.
  { intros c Hc. apply (mro_sub _ (c_key k)). unfold cs, below_element in Hc. apply elem_of_reverse.
    rewrite <- (take_drop 1 (reverse (mro t (c_key k)))). apply elem_of_app. by right. }
  unfold wbind at 1, on_writer at 1. destruct (w_start _ _ _ _) as [nn w1] eqn:Ew.
  set (body := wbind (wfor cs (λ c, wfor (c_attrs c) (write_attr t fint pre v c))) (λ _,
          wbind (wfor cs (λ c, wfor (c_attrs c) (write_enum t nsURI pre v c))) (λ _,
          wfor cs (λ c, wfor (c_refs c) (write_ref t pre v c))))).
  assert (adds body) as Hbody.
  { apply adds_bind; [|intros _; apply adds_bind; [|intros _]]; apply adds_for; intros c Hc; apply adds_for; intros a Ha.
    - apply adds_attr; auto. - apply adds_enum; auto. - apply adds_ref; auto. }
  match goal with |- ?m = _ → _ => assert (m = wbind body (λ _, on_writer (w_end None)) h1 w1) as -> end.
  { unfold body, wbind. destruct (wfor cs _ h1 w1) as [[[[]|] h2] w2]; [|done].
    destruct (wfor cs _ h2 w2) as [[[[]|] h3] w3]; done. }
  destruct (Hbody h1 w1) as (ps & Hps & E). unfold wbind. destruct (body h1 w1) as [[[[]|e1] h2] w2].
  - cbn [snd] in E. unfold on_writer. apply run_calls_tags in E. rewrite w_start_spec in Ew. injection Ew as _ <-. cbn [w_tags] in E.
    rewrite (w_end_spec None _ _ w2 E) by (by left). done.
  - intros [= _ _ <-]. cbn [snd] in E. right. exists (pre ++ u ":" ++ c_name k), [(u "rdf:ID", s)], ps. split; [exact Hn|]. split; [by apply attrs_named_1|]. split; [exact Hps|].
    rewrite w_start_spec in *. injection Ew as _ <-. exact E.
Qed.
(** The entries. *)
Lemma entries_begun d h e h' : ∀ w w', wfor d (λ kv : pystr * val, write_entry t fint nsURI pre (snd kv)) h w = (inr e, h', w') →
  ∃ l w1, all_elems l ∧ run_calls l w = (inl tt, w1) ∧ begun w1 w'.
Proof.
  induction d as [|kv d IH]; intros w w'; cbn [wfor]; [done|]. unfold wbind.
  destruct (write_entry t fint nsURI pre kv.2 h w) as [[[[]|e1] h1] w1] eqn:E.
  - assert (∃ o, kv.2 = VRef o) as [o Eo].
    { destruct (kv.2) eqn:Ev; try (destruct (write_entry_other t fint nsURI pre h (kv.2) w) as [e1 He]; [by rewrite Ev|rewrite Ev in He; congruence]). eauto. }
    rewrite Eo in E. apply write_entry_spec in E as (-> & en & Hen & Een). intros (l & w2 & Hl & El & Hb)%IH.
    exists (entry_call pre en :: l), w2. split; [split; [|done]|].
    + apply entry_elems. by eapply writes_names.
    + split; [|done]. cbn [run_calls]. by rewrite Een.
  - intros [= _ _ <-]. exists [], w. split; [done|]. split; [done|]. by eapply entry_begun.
Qed.

Lemma run_calls_closed l w w' : all_elems l → w_data w = [] → run_calls l w = (inl tt, w') →
  w_data w' = [] ∧ w_enc w' = w_enc w.
Proof.
  revert w. induction l as [|c l IH]; intros w Hl Hd; [by intros [= <-]|]. destruct Hl as [Hc Hl]. cbn [run_calls].
  destruct (run_call_writes c w) as (w1 & E & _ & _ & He & _). rewrite E. cbn [XmlCalls.wbind]. intros H.
  destruct (run_elem_closed c w w1) as [_ Hd1]; [by destruct c|done|]. destruct (IH _ Hl Hd1 H) as [? ?]. split; [done|congruence].
Qed.
Lemma run_calls_out l w w' : all_elems l → run_calls l w = (inl tt, w') → ∃ x, w_out w' = w_out w ++ x.
Proof.
  revert w. induction l as [|c l IH]; intros w Hl; [intros [= <-]; exists []; by rewrite app_nil_r|]. destruct Hl as [Hc Hl]. cbn [run_calls].
  destruct (run_call_writes c w) as (w1 & E & T & _). rewrite E. cbn [XmlCalls.wbind]. intros [x Hx]%IH; [|done].
  destruct (run_elem_closed c w w1) as [Ho Hd]; [by destruct c|done|]. rewrite Hx.
  unfold total, pending in T. rewrite Ho, Hd in T. cbn [app join] in T. change (escape_cdata (join [])) with ([] : pystr) in T. rewrite app_nil_r in T.
  rewrite T, <- !app_assoc. eauto.
Qed.
(** What [end] writes. *)
Lemma end_closing w tag ts : w_tags w = escape_cdata tag :: ts → w_data w = [] → is_name tag = true →
  ∃ s, closing s ∧ w_end None w = (inl tt, Writer false ts [] (w_enc w) (w_out w ++ s)).
Proof.
  intros Hg Hd Hn. rewrite (w_end_spec None _ _ w Hg) by (by left). rewrite w_pop_spec, Hd.
  destruct (w_open w) eqn:Eo; cbn [andb].
  - exists (u " />"). split; [|done]. split; [done|]. split; [apply no_cr_lit; reflexivity|]. right. by exists [].
  - exists (close_text tag). split.
    + split; [|split; [by apply close_text_no_cr|left; eexists; reflexivity]].
      unfold close_text. rewrite !forallb_app, is_name_escape by done. rewrite !andb_true_iff. split; [done|]. split; [|done].
      apply is_name_inv in Hn as (x & r & E & _ & Hx). apply forallb_forall. intros y Hy%elem_of_list_In. by apply name_char_xml, Hx.
    + unfold total, pending. rewrite Eo, Hd. cbn. rewrite app_nil_r. done.
Qed.
Lemma closing_app s s' : closing s → forallb xml_char s' = true → 13%N ∉ s' → closing (s ++ s').
Proof.
  intros (Hx & Hc & Hs) Hx' Hc'. split; [by rewrite forallb_app, Hx|]. split; [by apply not_elem_of_app|].
  destruct Hs as [[r ->]|[r ->]]; [left|right]; exists (r ++ s'); by rewrite app_assoc.
Qed.

(** The file ends before the end of an element. *)
Lemma cimwrite_fails d enc h e h' w : enc_ok enc → cimwrite t fint nsURI pre d enc h = (inr e, h', w) → parse (w_out w) = None.
Proof.
  intros Henc. unfold cimwrite, cimwrite_body. unfold wbind at 1, on_writer at 1. cbn iota beta.
  set (w0 := w_declaration (w_init enc)).
  assert (w_tags w0 = [] ∧ w_enc w0 = enc ∧ total w0 = decl_text enc) as (Ht0 & He0 & Hto0).
  { unfold w0, total, pending, decl_text, w_declaration. destruct (_ || _); cbn; rewrite ?app_nil_r; done. }
  unfold wbind at 1, on_writer at 1. rewrite w_start_spec. cbn iota beta. rewrite Ht0. cbn [length].
  set (ra := [(u "xmlns:" ++ rdf_prefix, rdf_uri); (u "xmlns:" ++ pre, ns_cim nsURI)]).
  set (w1 := Writer _ _ _ _ _).
  assert (attrs_named ra) as Hra.
  { split; [apply NoDup_cons; split; [by intros [=]%elem_of_list_singleton|apply NoDup_singleton]|].
    intros k v [[= -> ->]|[= -> ->]%elem_of_list_singleton]%elem_of_cons; done. }
  assert (∀ body, document true enc (CElem (u "rdf:RDF") ra body false) = XmlCalls.wbind (run_calls body w1) (w_end None)) as Hdoc.
  { intros body. unfold document. rewrite run_elem. fold w0. rewrite w_start_spec. cbn [snd]. by rewrite Ht0. }
  assert (∀ body P s, all_elems body → (∃ w2, document true enc (CElem (u "rdf:RDF") ra body false) = (inl tt, w2) ∧ w_out w2 = decl_text enc ++ P ++ s) →
    closing s → parse (decl_text enc ++ P) = None) as Hun.
  { intros body P s Hb (w2 & Ed & Eo) Hs. eapply (unfinished enc (CElem (u "rdf:RDF") ra body false) P s); [done| |done| |done].
    - split; [done|]. split; [done|done].
    - destruct (render_document true enc (CElem (u "rdf:RDF") ra body false) eq_refl) as (w3 & Ed3 & _ & O3).
      rewrite Ed in Ed3. injection Ed3 as <-. rewrite Eo in O3. by apply app_inv_head in O3. }
  assert (∀ l w, run_calls l w1 = (inl tt, w) → all_elems l →
    w_tags w = [escape_cdata (u "rdf:RDF")] ∧ w_data w = []) as Hst.
  { intros l w2 El Hl. pose proof (run_calls_tags _ _ _ El) as Hg. destruct (run_calls_closed l w1 w2 Hl eq_refl El) as [Hd _].
    split; [by rewrite Hg|done]. }
  unfold wbind at 1. destruct (wfor d _ h w1) as [[[[]|e1] h2] w2] eqn:Ed.
  { assert (∃ x, run_calls x w1 = (inl tt, w2)) as [x Ex].
    { apply write_entries_spec in Ed as (_ & es & _ & ?). eauto. }
    apply run_calls_tags in Ex. unfold w1 in Ex. cbn [w_tags] in Ex. unfold on_writer, w_close. rewrite Ex. cbn [length w_close_loop].
    rewrite Ex. cbn [length Nat.ltb Nat.leb]. rewrite (w_end_spec None _ _ w2 Ex ltac:(by left)), w_pop_spec. done. }
  intros [= _ _ <-]. destruct (entries_begun d h e1 h2 w1 w2 Ed) as (l & w3 & Hl & El & Hb).
  destruct (Hst l w3 El Hl) as [Hg3 Hd3]. destruct (run_calls_out _ _ _ Hl El) as [x3 Ho3].
  assert (w_out w1 = decl_text enc ++ open_text (u "rdf:RDF") ra) as Ho1 by (unfold w1; cbn [w_out]; by rewrite Hto0).
  destruct Hb as [->|(tag & a & ps & Hn & Ha & Hps & Eps)].
  - destruct (end_closing w3 (u "rdf:RDF") [] Hg3 Hd3 eq_refl) as (s & Hs & Ee).
    rewrite Ho3, Ho1, <- app_assoc in *. eapply (Hun l _ s Hl); [|done]. eexists. split; [by rewrite Hdoc, El|].
    cbn [w_out]. by rewrite <- !app_assoc.
  - rewrite w_start_spec in Eps. cbn [snd] in Eps. pose proof (run_calls_tags _ _ _ Eps) as Hg2. cbn [w_tags] in Hg2.
    pose proof (λ H, run_calls_closed ps _ w2 Hps H Eps) as Hc2. destruct (Hc2 eq_refl) as [Hd2 _]. clear Hc2. destruct (run_calls_out _ _ _ Hps Eps) as [x2 Ho2]. cbn [w_out] in Ho2.
    destruct (end_closing w2 tag (w_tags w3) Hg2 Hd2 Hn) as (s & Hs & Ee).
    assert (∃ x, w_out w2 = decl_text enc ++ x) as [x Ex].
    { eexists. rewrite Ho2. unfold total at 1. rewrite Ho3, Ho1, <- !app_assoc. reflexivity. }
    rewrite Ex. eapply (Hun (l ++ [CElem tag a ps false]) x (s ++ close_text (u "rdf:RDF"))).
    + apply all_elems_app; [done|]. split; [|done]. split; [done|]. by split.
    + eexists. rewrite Hdoc, run_calls_app, El. cbn [XmlCalls.wbind run_calls]. rewrite run_elem, w_start_spec. cbn [snd]. rewrite Eps.
      cbn [XmlCalls.wbind]. rewrite Ee. cbn [XmlCalls.wbind]. rewrite (w_end_spec None (escape_cdata (u "rdf:RDF")) []) by (done || by left).
      split; [done|]. rewrite w_pop_spec. cbn [w_open w_data andb w_out]. rewrite total_closed, Ex, <- !app_assoc. done.
    + by apply closing_app; [|done|apply close_text_no_cr].
Qed.
End fails.
