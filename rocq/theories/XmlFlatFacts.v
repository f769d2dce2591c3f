(** Documents made of elements only, written with arbitrary strings: when they
    are well-formed, and what is read from them. *)
From Coq Require Import String ZArith Lia.
From stdpp Require Import prelude.
From Verif Require Import PyStr PyHeap XmlWriter XmlSpec XmlCalls EscapeFacts XmlWriterFacts XmlParseFacts XmlDocFacts.

Definition attrs_named (a : attrs) : Prop := NoDup (map fst a) ∧ ∀ k v, (k, v) ∈ a → is_name k = true.
Fixpoint elems (c : call) : Prop :=
  match c with
  | CElem tag a body _ => is_name tag = true ∧ attrs_named a ∧
      (fix go (l : list call) : Prop := match l with [] => True | c :: r => elems c ∧ go r end) body
  | CElement tag text a => is_name tag = true ∧ attrs_named a
  | _ => False
  end.
Definition all_elems (l : list call) : Prop :=
  (fix go (l : list call) : Prop := match l with [] => True | c :: r => elems c ∧ go r end) l.
(** The strings in attribute values and text. *)
Fixpoint strings (c : call) : list pystr :=
  match c with
  | CElem _ a body _ => map snd a ++ mjoin (map strings body)
  | CElement _ text a => map snd a ++ [default [] text]
  | CData s | CComment s => [s]
  end.
Definition xmls (l : list pystr) : Prop := ∀ s, s ∈ l → forallb xml_char s = true.

Fixpoint eol_call (c : call) : call :=
  match c with
  | CElem tag a body named => CElem tag (map eol_attr a) (map eol_call body) named
  | CElement tag text a => CElement tag (norm_eol <$> text) (map eol_attr a)
  | CData s => CData (norm_eol s)
  | CComment s => CComment (norm_eol s)
  end.
Lemma norm_open tag a rest : is_name tag = true → attrs_named a →
  norm_eol (open_text tag a ++ rest) = open_text tag (map eol_attr a) ++ norm_eol rest.
Proof.
  intros Ht [_ Ha]. unfold open_text. rewrite <- !app_assoc.
  rewrite norm_eol_pre by (apply no_cr_lit; reflexivity). f_equal.
  rewrite norm_eol_pre by (by apply escape_no_cr, name_no_cr). f_equal. unfold attrs_text.
  rewrite norm_attrs_text; [by rewrite sort_eol|]. intros [k v] Hin. rewrite sort_attrs_perm in Hin. by apply Ha in Hin.
Qed.
Lemma norm_eol_ne c s : ∃ d r, norm_eol (c :: s) = d :: r.
Proof. cbn [norm_eol]. destruct (c =? 13)%N; eauto. Qed.
Lemma mjoin_cons (x : pystr) (l : list pystr) : mjoin (x :: l) = x ++ mjoin l.
Proof. done. Qed.
Lemma mjoin_cons' (x : list pystr) l : mjoin (x :: l) = x ++ mjoin l.
Proof. done. Qed.
Fixpoint norm_render c : ∀ rest, elems c → norm_eol (render c ++ rest) = render (eol_call c) ++ norm_eol rest.
Proof.
  destruct c as [s|tag a body named|tag text a|s]; intros rest H; try done.
  - destruct H as (Ht & Ha & Hb). cbn [render eol_call]. rewrite <- !app_assoc, norm_open by done. f_equal.
    assert (∀ rest, norm_eol (mjoin (map render body) ++ rest) = mjoin (map render (map eol_call body)) ++ norm_eol rest) as Hbody.
    { clear -norm_render Hb. induction body as [|c body IH]; intros rest; [done|]. destruct Hb as [Hc Hb]. cbn [map].
      rewrite !mjoin_cons, <- !app_assoc, norm_render by done. by rewrite IH. }
    destruct body as [|c body].
    + rewrite norm_eol_pre by (apply no_cr_lit; reflexivity). done.
    + change (map eol_call (c :: body)) with (eol_call c :: map eol_call body) at 1. cbv iota. rewrite <- !app_assoc.
      rewrite norm_eol_pre by (apply no_cr_lit; reflexivity). f_equal. rewrite Hbody. f_equal.
      by rewrite norm_eol_pre by (by apply close_text_no_cr).
  - destruct H as (Ht & Ha). cbn [render eol_call]. rewrite <- !app_assoc, norm_open by done. f_equal.
    destruct text as [[|c s]|]; cbn [fmap option_fmap option_map]; try (by rewrite norm_eol_pre by (apply no_cr_lit; reflexivity)).
    destruct (norm_eol_ne c s) as (d & r & Ed). rewrite Ed, <- Ed. rewrite <- !app_assoc.
    rewrite norm_eol_pre by (apply no_cr_lit; reflexivity). f_equal.
    assert (∃ r, close_text tag = 60%N :: r) as [r' Er] by (unfold close_text; eexists; reflexivity).
    rewrite Er. cbn [app]. rewrite (proj1 (norm_app_ne _ 60 _ ltac:(done))), (proj1 (norm_escape _)). f_equal.
    change (norm_eol ((60%N :: r') ++ rest) = (60%N :: r') ++ norm_eol rest). rewrite <- Er. apply norm_eol_pre. by apply close_text_no_cr.
Qed.
Fixpoint eol_elems c : elems c → elems (eol_call c).
Proof.
  assert (∀ a, attrs_named a → attrs_named (map eol_attr a)) as Ha.
  { intros a [Hn Hk]. split; [rewrite map_map; by rewrite (map_ext _ fst)|].
    intros k v ([k' v'] & [= -> ->] & Hin)%elem_of_list_fmap. by eapply Hk. }
  destruct c as [s|tag a body named|tag text a|s]; try done; cbn [elems eol_call].
  - intros (Ht & Hna & Hb). split_and!; [done|by apply Ha|]. induction body as [|c body IH]; [done|]. destruct Hb as [Hc Hb].
    split; [by apply eol_elems|by apply IH].
  - intros [? ?]. split; [done|by apply Ha].
Qed.

(** *** What is read *)
Fixpoint flat_node (c : call) : node :=
  match c with
  | CElem tag a body _ => NElem tag (map norm_attr (sort_attrs a)) (map flat_node body)
  | CElement tag text a => NElem tag (map norm_attr (sort_attrs a)) (match text with Some (c :: s) => [NText (c :: s)] | _ => [] end)
  | CData s => NText s
  | CComment s => NText []
  end.
Lemma xmls_app a b : xmls (a ++ b) ↔ xmls a ∧ xmls b.
Proof.
  unfold xmls. split.
  - intros H. split; intros s Hs; apply H, elem_of_app; auto.
  - intros [Ha Hb] s [?|?]%elem_of_app; auto.
Qed.
Lemma named_xml_attrs a : attrs_named a → xmls (map snd a) → xml_attrs a.
Proof. intros [Hn Hk] Hx. split; [done|]. intros k v Hin. split; [by eapply Hk|]. apply Hx, elem_of_list_fmap. by exists (k, v). Qed.
Definition flat_ok (c : call) : Prop :=
  ∃ r, render c = 60%N :: r ∧ ∀ b, can_open b → prun (LLt, b) r = Some (LText [], put b (flat_node c)).
Lemma add_kid_elem tag ats kids l : add_kid (NElem tag ats kids) l = NElem tag ats kids :: l.
Proof. done. Qed.
Lemma prun_flat_kids l tag ats outer : (∀ c, c ∈ l → elems c) → (∀ c, c ∈ l → flat_ok c) → ∀ kids,
  prun (LText [], BIn (tag, ats, kids) outer) (mjoin (map render l)) =
  Some (LText [], BIn (tag, ats, reverse (map flat_node l) ++ kids) outer).
Proof.
  induction l as [|c l IH]; intros He Hf kids; [done|]. cbn [map]. rewrite mjoin_cons.
  destruct (Hf c ltac:(left)) as (r & Er & Hr). rewrite Er. cbn [app]. rewrite prun_cons, (pstep_lt _ _ (BIn (tag, ats, kids) outer)) by done.
  cbn [mbind option_bind]. rewrite prun_app, Hr by done. cbn [mbind option_bind put].
  assert (add_kid (flat_node c) kids = flat_node c :: kids) as ->.
  { pose proof (He c ltac:(left)) as Hc. by destruct c. }
  rewrite IH; [|intros ? ?; apply He; by right|intros ? ?; apply Hf; by right].
  by rewrite reverse_cons, <- app_assoc.
Qed.
Lemma all_elems_in l : all_elems l → ∀ c, c ∈ l → elems c.
Proof. induction l as [|c l IH]; [by intros _ ? ?%elem_of_nil|]. intros [Hc Hl] c' [->|Hin]%elem_of_cons; [done|by apply IH]. Qed.
Lemma xmls_in (l : list call) : xmls (mjoin (map strings l)) → ∀ c, c ∈ l → xmls (strings c).
Proof.
  induction l as [|c l IH]; [by intros _ ? ?%elem_of_nil|]. cbn [map]. rewrite mjoin_cons', xmls_app. intros [Hc Hl] c' [->|Hin]%elem_of_cons; [done|by apply IH].
Qed.
Fixpoint elems_flat c : elems c → xmls (strings c) → flat_ok c.
Proof.
  destruct c as [s|tag a body named|tag text a|s]; intros He Hx; try done.
  - destruct He as (Ht & Ha & Hb). cbn [strings] in Hx. apply xmls_app in Hx as [Hxa Hxb].
    pose proof (named_xml_attrs _ Ha Hxa) as Hat. eexists. split; [reflexivity|]. intros b Hop.
    assert (∀ c, c ∈ body → flat_ok c) as Hf.
    { pose proof (xmls_in _ Hxb) as Hxb'. clear -elems_flat Hb Hxb'. induction body as [|c body IH]; intros c' Hin; [by apply elem_of_nil in Hin|].
      destruct Hb as [Hc Hb]. apply elem_of_cons in Hin as [->|Hin].
      - apply elems_flat; [done|]. apply Hxb'. left.
      - apply IH; try done. intros ? ?. apply Hxb'. by right. }
    cbn [flat_node]. destruct body as [|c body].
    + rewrite prun_app, prun_start by done. cbn [mbind option_bind].
      by rewrite (tag_state_selfclose _ _ _ _ Ht (bstep_open_sc _ _ _ Hop)).
    + rewrite prun_app, prun_start by done. cbn [mbind option_bind]. change (u ">") with [62%N]. cbn [app]. rewrite prun_cons.
      rewrite (tag_state_gt _ _ _ _ Ht (bstep_open _ _ _ Hop)). cbn [mbind option_bind].
      rewrite prun_app, prun_flat_kids; [|by apply all_elems_in|done]. cbn [mbind option_bind]. rewrite app_nil_r.
      erewrite (prun_close _ _ _ _ _ Ht (flush_text_in _ _ _ _ _)).
      2:{ unfold bstep. rewrite str_eqb_refl. reflexivity. }
      rewrite bclose_put by done. cbn [flush_kids]. by rewrite reverse_involutive.
  - destruct He as (Ht & Ha). cbn [strings] in Hx. apply xmls_app in Hx as [Hxa Hxb].
    pose proof (named_xml_attrs _ Ha Hxa) as Hat. eexists. split; [reflexivity|]. intros b Hop. cbn [flat_node].
    rewrite prun_app, prun_start by done. cbn [mbind option_bind].
    destruct text as [[|c s]|]; try by rewrite (tag_state_selfclose _ _ _ _ Ht (bstep_open_sc _ _ _ Hop)).
    change (u ">") with [62%N]. cbn [app]. rewrite prun_cons. rewrite (tag_state_gt _ _ _ _ Ht (bstep_open _ _ _ Hop)). cbn [mbind option_bind].
    rewrite prun_app, prun_text by (apply Hxb; left). cbn [mbind option_bind]. rewrite app_nil_r.
    erewrite (prun_close _ _ _ _ _ Ht (flush_text_in _ _ _ _ _)).
    2:{ unfold bstep. rewrite str_eqb_refl. reflexivity. }
    rewrite bclose_put by done.
    assert (∃ d t, reverse (c :: s) = d :: t) as (d & t & Ed).
    { destruct (reverse (c :: s)) eqn:Er; [|eauto]. apply (f_equal reverse) in Er. rewrite reverse_involutive in Er. done. }
    rewrite Ed. cbn [flush_kids]. rewrite <- Ed, reverse_involutive. done.
Qed.

(** *** Illegal characters are noticed *)
Lemma prun_xml s cs s' : prun s cs = Some s' → forallb xml_char cs = true.
Proof.
  revert s. induction cs as [|c cs IH]; intros s; [done|]. rewrite prun_cons. cbn [forallb].
  destruct (pstep s c) as [s1|] eqn:E; [|done]. cbn [mbind option_bind]. intros H. apply andb_true_iff. split; [|by eapply IH].
  unfold pstep, lstep in E. destruct (xml_char c); [done|]. done.
Qed.
Lemma esc1_bad c : xml_char c = false → esc1 c = [c] ∧ esca1 c = [c].
Proof.
  intros Hc. unfold esc1, esca1.
  destruct (N.eqb_spec c 38) as [->|]; [done|]. destruct (N.eqb_spec c 39) as [->|]; [done|]. destruct (N.eqb_spec c 34) as [->|]; [done|].
  destruct (N.eqb_spec c 60) as [->|]; [done|]. destruct (N.eqb_spec c 62) as [->|]; done.
Qed.
Lemma xml_escape s : forallb xml_char (escape_cdata s) = true → forallb xml_char s = true.
Proof.
  induction s as [|c s IH]; [done|]. rewrite escape_cdata_cons, forallb_app, andb_true_iff. intros [Hc Hs]. cbn [forallb].
  rewrite IH by done. destruct (xml_char c) eqn:E; [done|]. rewrite (proj1 (esc1_bad c E)) in Hc. cbn [forallb] in Hc. by rewrite E in Hc.
Qed.
Lemma xml_escape_attrib s : forallb xml_char (escape_attrib s) = true → forallb xml_char s = true.
Proof.
  induction s as [|c s IH]; [done|]. rewrite escape_attrib_cons, forallb_app, andb_true_iff. intros [Hc Hs]. cbn [forallb].
  rewrite IH by done. destruct (xml_char c) eqn:E; [done|]. rewrite (proj2 (esc1_bad c E)) in Hc. cbn [forallb] in Hc. by rewrite E in Hc.
Qed.
Lemma xml_norm_eol s : (forallb xml_char (norm_eol s) = true → forallb xml_char s = true) ∧ (forallb xml_char (norm_cr s) = true → forallb xml_char s = true).
Proof.
  induction s as [|c s [IH1 IH2]]; [done|]. cbn [norm_eol norm_cr].
  destruct (N.eqb_spec c 13) as [->|Hc].
  { change (13 =? 10)%N with false. cbn [forallb]. rewrite ?andb_true_iff. change (xml_char 13) with true. split; intros [_ ?]; (split; [done|]); auto. }
  cbn [forallb]. rewrite !andb_true_iff. split; [intros [? ?]; split; [done|]; auto|].
  destruct (N.eqb_spec c 10) as [->|Hc']; [change (xml_char 10) with true; intros ?; split; [done|]; auto|].
  cbn [forallb]. rewrite !andb_true_iff. intros [? ?]; split; [done|]; auto.
Qed.
Lemma xml_mjoin (l : list pystr) s : forallb xml_char (mjoin l) = true → s ∈ l → forallb xml_char s = true.
Proof.
  induction l as [|x l IH]; [by intros _ ?%elem_of_nil|]. rewrite mjoin_cons, forallb_app, andb_true_iff. intros [? ?] [->|?]%elem_of_cons; auto.
Qed.
Lemma render_xml_attrs tag a : forallb xml_char (open_text tag a) = true → xmls (map snd a).
Proof.
  unfold open_text, attrs_text. rewrite !forallb_app, !andb_true_iff. intros (_ & _ & H) s ([k v] & -> & Hin)%elem_of_list_fmap.
  assert (forallb xml_char (attr_text (k, v)) = true) as Hx.
  { eapply xml_mjoin; [exact H|]. apply elem_of_list_fmap. exists (k, v). split; [done|]. by rewrite sort_attrs_perm. }
  unfold attr_text in Hx. rewrite !forallb_app, !andb_true_iff in Hx. destruct Hx as (_ & _ & _ & Hx & _). by apply xml_escape_attrib.
Qed.
Fixpoint render_xml c : elems c → forallb xml_char (render c) = true → xmls (strings c).
Proof.
  destruct c as [s|tag a body named|tag text a|s]; try done; cbn [elems render strings]; rewrite forallb_app, andb_true_iff.
  - intros (_ & _ & Hb) [Ho Hr]. apply xmls_app. split; [by eapply render_xml_attrs|].
    assert (forallb xml_char (mjoin (map render body)) = true) as Hj.
    { destruct body; [done|]. rewrite !forallb_app, !andb_true_iff in Hr. tauto. }
    clear Hr. induction body as [|c body IH]; [by intros ? ?%elem_of_nil|]. destruct Hb as [Hc Hb]. cbn [map] in Hj |- *.
    rewrite mjoin_cons, forallb_app, andb_true_iff in Hj. destruct Hj as [Hj1 Hj2]. rewrite mjoin_cons'. apply xmls_app.
    split; [by apply render_xml|by apply IH].
  - intros (_ & _) [Ho Hr]. apply xmls_app. split; [by eapply render_xml_attrs|]. intros s ->%elem_of_list_singleton.
    destruct text as [[|c s]|]; try done. cbn [default]. rewrite !forallb_app, !andb_true_iff in Hr. apply xml_escape. tauto.
Qed.
Fixpoint xmls_eol c : xmls (strings (eol_call c)) ↔ xmls (strings c).
Proof.
  assert (∀ a, xmls (map snd (map eol_attr a)) ↔ xmls (map snd a)) as Ha.
  { intros a. rewrite map_map. unfold xmls. split.
    - intros H s ([k v] & -> & Hin)%elem_of_list_fmap. apply (proj1 (xml_norm_eol v)), H, elem_of_list_fmap. by exists (k, v).
    - intros H s ([k v] & -> & Hin)%elem_of_list_fmap. apply (proj1 (norm_xml_char v (H v ltac:(apply elem_of_list_fmap; by exists (k, v))))). }
  assert (∀ s, xmls [norm_eol s] ↔ xmls [s]) as Hs.
  { intros s. unfold xmls. split; intros H ? ->%elem_of_list_singleton; [apply (proj1 (xml_norm_eol s))|apply (norm_xml_char s)]; apply H; left. }
  destruct c as [s|tag a body named|tag text a|s]; cbn [eol_call strings]; try done.
  - rewrite !xmls_app, Ha. f_equiv. induction body as [|c body IH]; [done|]. cbn [map]. rewrite !mjoin_cons', !xmls_app. by rewrite xmls_eol, IH.
  - rewrite !xmls_app, Ha. f_equiv. destruct text as [s|]; [|done]. cbn [default fmap option_fmap option_map]. apply Hs.
Qed.

Lemma parse_flat enc c : is_element c = true → elems c → enc_ok enc →
  ∃ w, document true enc c = (inl tt, w) ∧ w_tags w = [] ∧
    (xmls (strings c) → parse (w_out w) = Some (flat_node (eol_call c))) ∧
    (∀ n, parse (w_out w) = Some n → xmls (strings c)).
Proof.
  intros Hel He Henc. destruct (render_document true enc c Hel) as (w & E & G & O). exists w. split; [done|]. split; [done|].
  rewrite O. unfold parse. rewrite norm_eol_pre by (by apply decl_no_cr). rewrite <- (app_nil_r (render c)), norm_render by done.
  cbn [norm_eol]. rewrite app_nil_r. rewrite skip_decl_text by done. cbn [mbind option_bind]. split.
  - intros Hx. destruct (elems_flat (eol_call c)) as (r & Er & Hr); [by apply eol_elems|by apply xmls_eol|].
    rewrite Er. exact (prun_prolog true _ _ Hr).
  - intros n H. destruct (prun _ _) as [s'|] eqn:Ep; [|done]. apply prun_xml in Ep. cbn [forallb] in Ep. apply andb_true_iff in Ep as [_ Ep].
    apply xmls_eol, render_xml; [by apply eol_elems|done].
Qed.
