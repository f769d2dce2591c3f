(** Whole documents, and the other writer methods. *)
From Coq Require Import String ZArith Lia.
From stdpp Require Import prelude sorting.
From Verif Require Import PyStr PyHeap XmlWriter XmlSpec XmlCalls EscapeFacts DigitFacts Py2Facts XmlWriterFacts XmlParseFacts.

(** *** End-of-line normalisation *)
Lemma norm_eol_id s : 13%N ∉ s → norm_eol s = s.
Proof.
  induction s as [|c s IH]; [done|]. rewrite not_elem_of_cons. intros [Hc Hs]. cbn [norm_eol].
  rewrite (proj2 (N.eqb_neq c 13)) by congruence. by rewrite IH.
Qed.
Lemma esc1_in x c : x ∈ esc1 c → x = c ∨ x ≠ 13%N ∧ x ≠ 10%N.
Proof.
  assert (∀ s : pystr, forallb (λ x, negb (x =? 13)%N && negb (x =? 10)%N) s = true → x ∈ s → x ≠ 13%N ∧ x ≠ 10%N) as Hd.
  { intros s Hs Hin. rewrite forallb_forall in Hs. specialize (Hs x). rewrite <- elem_of_list_In in Hs. apply Hs in Hin.
    by rewrite andb_true_iff, !negb_true_iff, !N.eqb_neq in Hin. }
  unfold esc1. destruct (c =? 38)%N; [intros Hx; right; by eapply Hd in Hx|]. destruct (c =? 60)%N; [intros Hx; right; by eapply Hd in Hx|].
  destruct (c =? 62)%N; [intros Hx; right; by eapply Hd in Hx|]. intros ->%elem_of_list_singleton. by left.
Qed.
Lemma esca1_in x c : x ∈ esca1 c → x = c ∨ x ≠ 13%N ∧ x ≠ 10%N.
Proof.
  assert (∀ s : pystr, forallb (λ x, negb (x =? 13)%N && negb (x =? 10)%N) s = true → x ∈ s → x ≠ 13%N ∧ x ≠ 10%N) as Hd.
  { intros s Hs Hin. rewrite forallb_forall in Hs. specialize (Hs x). rewrite <- elem_of_list_In in Hs. apply Hs in Hin.
    by rewrite andb_true_iff, !negb_true_iff, !N.eqb_neq in Hin. }
  unfold esca1. destruct (c =? 38)%N; [intros Hx; right; by eapply Hd in Hx|]. destruct (c =? 39)%N; [intros Hx; right; by eapply Hd in Hx|].
  destruct (c =? 34)%N; [intros Hx; right; by eapply Hd in Hx|]. destruct (c =? 60)%N; [intros Hx; right; by eapply Hd in Hx|].
  destruct (c =? 62)%N; [intros Hx; right; by eapply Hd in Hx|]. intros ->%elem_of_list_singleton. by left.
Qed.
Lemma escape_no_cr s : 13%N ∉ s → 13%N ∉ escape_cdata s.
Proof.
  induction s as [|c s IH]; [done|]. rewrite not_elem_of_cons, escape_cdata_cons, not_elem_of_app. intros [Hc Hs].
  split; [|auto]. intros [?|[? _]]%esc1_in; congruence.
Qed.
Lemma escape_attrib_no_cr s : 13%N ∉ s → 13%N ∉ escape_attrib s.
Proof.
  induction s as [|c s IH]; [done|]. rewrite not_elem_of_cons, escape_attrib_cons, not_elem_of_app. intros [Hc Hs].
  split; [|auto]. intros [?|[? _]]%esca1_in; congruence.
Qed.
Lemma no_cr_lit (s : pystr) : forallb (λ c, negb (c =? 13)%N) s = true → 13%N ∉ s.
Proof. rewrite forallb_forall. intros H Hin%elem_of_list_In. by apply H in Hin. Qed.
Lemma data_no_cr s : forallb data_char s = true → 13%N ∉ s.
Proof. rewrite forallb_forall. intros H Hin%elem_of_list_In. by apply H in Hin. Qed.
Lemma attr_no_cr s : forallb attr_char s = true → 13%N ∉ s.
Proof. rewrite forallb_forall. intros H Hin%elem_of_list_In. by apply H in Hin. Qed.
Lemma name_no_cr s : is_name s = true → 13%N ∉ s.
Proof. intros (c & r & _ & _ & H)%is_name_inv Hin. by apply H in Hin. Qed.
Lemma mjoin_no_cr (l : list pystr) : (∀ s, s ∈ l → 13%N ∉ s) → 13%N ∉ mjoin l.
Proof.
  induction l as [|s l IH]; intros H; [by intros ?%elem_of_nil|].
  change (mjoin (s :: l)) with (s ++ mjoin l). rewrite not_elem_of_app. split; [apply H; left|].
  apply IH. intros ? ?. apply H. by right.
Qed.
Ltac no_cr := repeat (rewrite not_elem_of_app; split); try (apply no_cr_lit; reflexivity).
Lemma open_text_no_cr tag a : is_name tag = true → legal_attrs a → 13%N ∉ open_text tag a.
Proof.
  intros Ht [_ Ha]. unfold open_text. no_cr; [by apply escape_no_cr, name_no_cr|].
  unfold attrs_text. apply mjoin_no_cr. intros s (kv & -> & Hin)%elem_of_list_fmap.
  rewrite sort_attrs_perm in Hin. destruct kv as [k v]. destruct (Ha _ _ Hin) as [Hk Hv]. unfold attr_text. cbn [fst snd].
  no_cr; [by apply escape_no_cr, name_no_cr|by apply escape_attrib_no_cr, attr_no_cr].
Qed.
Lemma close_text_no_cr tag : is_name tag = true → 13%N ∉ close_text tag.
Proof. intros Ht. unfold close_text. no_cr. by apply escape_no_cr, name_no_cr. Qed.
Fixpoint render_no_cr c : legal c → 13%N ∉ render c.
Proof.
  intros Hl. destruct c as [s|tag a body named|tag text a|s]; cbn [render].
  - inversion_clear Hl. by apply escape_no_cr, data_no_cr.
  - inversion_clear Hl as [|? ? ? ? Ht Ha Hb| |]. rewrite not_elem_of_app. split; [by apply open_text_no_cr|].
    destruct body as [|c body]; [apply no_cr_lit; reflexivity|].
    no_cr; [|by apply close_text_no_cr]. apply mjoin_no_cr.
    revert Hb. generalize (c :: body). clear -render_no_cr. intros l Hl. induction l as [|c l IH]; [by intros ? ?%elem_of_nil|].
    intros s [->|Hs]%elem_of_cons; [apply render_no_cr, Hl; left|]. apply IH; [|done]. intros ? ?. apply Hl. by right.
  - inversion_clear Hl as [| |? ? ? Ht Ha Htx|]. rewrite not_elem_of_app. split; [by apply open_text_no_cr|].
    destruct text as [[|c s]|]; try (apply no_cr_lit; reflexivity). no_cr; [|by apply close_text_no_cr].
    by apply escape_no_cr, data_no_cr.
  - inversion_clear Hl. no_cr. by apply escape_no_cr, data_no_cr.
Qed.

(** *** The declaration *)
Definition decl_text (enc : pystr) : pystr := w_out (w_declaration (w_init enc)).
Definition enc_ok (enc : pystr) : Prop := enc = u "us-ascii" ∨ enc = u "utf-8" ∨ is_encname enc = true.
Lemma until_app q s : ∀ acc r, q ∉ s → until q acc (s ++ q :: r) = Some (reverse acc ++ s, r).
Proof.
  induction s as [|c s IH]; intros acc r H; cbn [app until].
  - by rewrite N.eqb_refl, app_nil_r.
  - apply not_elem_of_cons in H as [Hc H]. rewrite (proj2 (N.eqb_neq c q)) by congruence. rewrite IH by done.
    by rewrite reverse_cons, <- app_assoc.
Qed.
Lemma encname_chars s c : is_encname s = true → c ∈ s → c ≠ 39%N ∧ c ≠ 13%N.
Proof.
  destruct s as [|d r]; [done|]. cbn [is_encname]. rewrite andb_true_iff, forallb_forall. intros [Hd Hr].
  assert (∀ c, is_alpha c || is_digit c || (c =? 46)%N || (c =? 95)%N || (c =? 45)%N = true → c ≠ 39%N ∧ c ≠ 13%N) as H.
  { clear. intros c H. split; intros ->; discriminate. }
  intros [->|Hin%elem_of_list_In]%elem_of_cons; apply H; [by rewrite Hd|by apply Hr].
Qed.
Lemma expect_app p r : expect p (p ++ r) = Some r.
Proof. unfold expect. by rewrite take_app, str_eqb_refl, drop_app. Qed.
Lemma skip_decl_text enc r : enc_ok enc → skip_decl (decl_text enc ++ r) = Some (10%N :: r).
Proof.
  intros He. unfold decl_text, w_declaration. cbn [w_init w_enc w_out].
  destruct (str_eqb enc (u "us-ascii") || str_eqb enc (u "utf-8")) eqn:E; [reflexivity|].
  assert (is_encname enc = true) as Hn.
  { destruct He as [->|[->|?]]; [done|done|done]. }
  cbn [w_write w_out app].
  remember (u "?>" ++ 10%N :: r) as p eqn:Hp.
  match goal with |- skip_decl ?x = _ => assert (x = u "<?xml version='1.0' encoding=" ++ 39%N :: enc ++ 39%N :: p) as -> end.
  { rewrite Hp. cbn. rewrite <- !app_assoc. reflexivity. }
  change (skip_decl (u "<?xml version='1.0' encoding=" ++ 39%N :: enc ++ 39%N :: p)) with
    ('(e, s5) ← until 39 [] (enc ++ 39%N :: p); if is_encname e then expect (u "?>") (skip_space s5) else None).
  rewrite until_app by (intros Hin; by apply (encname_chars enc) in Hin as [? _]). cbn [mbind option_bind].
  cbn [reverse]. change (reverse [] ++ enc) with enc. rewrite Hn, Hp. reflexivity.
Qed.
Lemma decl_no_cr enc : enc_ok enc → 13%N ∉ decl_text enc.
Proof.
  intros He. unfold decl_text, w_declaration. cbn [w_init w_enc w_out].
  destruct (str_eqb enc (u "us-ascii") || str_eqb enc (u "utf-8")) eqn:E; cbn [w_write w_out app]; no_cr.
  destruct He as [->|[->|He]]; [done|done|]. intros Hin. by apply (encname_chars enc) in Hin as [_ ?].
Qed.
Lemma skip_decl_none c r : name_start c = true → skip_decl (60%N :: c :: r) = Some (60%N :: c :: r).
Proof.
  intros Hc. unfold skip_decl, expect. destruct (str_eqb _ _) eqn:E; [|done].
  apply str_eqb_eq in E. cbn in E. injection E as -> _. done.
Qed.

(** *** Documents *)
Lemma run_elem_closed c w w' : is_element c = true → run_call c w = (inl tt, w') → w_open w' = false ∧ w_data w' = [].
Proof.
  intros He. destruct c as [s|tag a body named|tag text a|s]; try done; cbn [run_call].
  - match goal with |- wbind ?m _ = _ → _ => destruct m as [[[]|] w1] end; cbn [wbind]; [|done].
    unfold w_end. destruct (w_tags w1) as [|t ts]; [done|].
    destruct named as [|]; [destruct tag as [|x tag]; [|destruct (str_eqb _ _); [|done]]|];
      intros [= <-]; rewrite w_pop_spec; done.
  - unfold w_element, w_end. destruct (w_tags _); [done|]. intros [= <-]. rewrite w_pop_spec. done.
Qed.
Lemma render_document declare enc c : is_element c = true →
  ∃ w, document declare enc c = (inl tt, w) ∧ w_tags w = [] ∧
    w_out w = (if declare then decl_text enc else []) ++ render c.
Proof.
  intros He. unfold document. destruct (run_call_writes c (if declare then w_declaration (w_init enc) else w_init enc)) as (w & E & T & G & _ & _).
  exists w. split; [done|]. destruct (run_elem_closed _ _ _ He E) as [Ho Hd]. split.
  - rewrite G. destruct declare; [|done]. unfold w_declaration. by destruct (_ || _).
  - unfold total, pending in T. rewrite Ho, Hd in T. cbn in T. rewrite app_nil_r in T. rewrite T.
    destruct declare; [|done]. unfold decl_text. unfold w_declaration. by destruct (_ || _); cbn; rewrite ?app_nil_r.
Qed.
Lemma prun_prolog (declare : bool) r n : (∀ b, can_open b → prun (LLt, b) r = Some (LText [], put b n)) →
  (s ← prun (LText [], BProlog) ((if declare then [10%N] else []) ++ 60%N :: r); pfinish s) = Some n.
Proof.
  intros Hr. destruct declare; cbn [app].
  - rewrite prun_cons, (pstep_lex _ _ (LText [10%N])) by done. cbn [mbind option_bind].
    rewrite prun_cons, (pstep_lt _ _ BProlog) by done. cbn [mbind option_bind]. rewrite Hr by done. done.
  - rewrite prun_cons, (pstep_lt _ _ BProlog) by done. cbn [mbind option_bind]. rewrite Hr by done. done.
Qed.
Lemma render_head c : is_element c = true → (∀ tag, match c with CElem t _ _ _ | CElement t _ _ => t = tag | _ => False end → is_name tag = true) →
  ∃ x r, render c = 60%N :: x :: r ∧ name_start x = true.
Proof.
  intros He Hn. destruct c as [s|tag a body named|tag text a|s]; try done; specialize (Hn tag eq_refl);
    pose proof (is_name_inv tag Hn) as (x & r & Ex & Hx & _); cbn [render]; unfold open_text; rewrite (is_name_escape tag Hn), Ex;
    eexists x, _; (split; [reflexivity|done]).
Qed.
Lemma parse_document declare enc c : is_element c = true → legal c → (declare = true → enc_ok enc) →
  ∃ w, document declare enc c = (inl tt, w) ∧ w_tags w = [] ∧ parse (w_out w) = Some (call_node c).
Proof.
  intros He Hl Henc. destruct (render_document declare enc c He) as (w & E & G & O). exists w. split; [done|]. split; [done|].
  rewrite O. unfold parse. rewrite norm_eol_id.
  2:{ rewrite not_elem_of_app. split; [|by apply render_no_cr]. destruct declare; [by apply decl_no_cr, Henc|apply not_elem_of_nil]. }
  assert (∃ r, render c = 60%N :: r ∧ ∀ b, can_open b → prun (LLt, b) r = Some (LText [], put b (call_node c))) as (r & Er & Hr).
  { pose proof (call_element_ok c Hl). by destruct c. }
  destruct declare.
  - rewrite skip_decl_text by (by apply Henc). cbn [mbind option_bind]. rewrite Er. exact (prun_prolog true _ _ Hr).
  - cbn [app]. destruct (render_head c He) as (x & r' & Ex & Hx).
    { intros tag Ht. destruct c; try done; subst; inversion Hl; done. }
    rewrite Ex, skip_decl_none by done. cbn [mbind option_bind]. rewrite <- Ex, Er. exact (prun_prolog false _ _ Hr).
Qed.

(** *** close *)
Lemma w_close_loop_spec n : ∀ id w, (length (w_tags w) <= n)%nat →
  ∃ w', w_close_loop n id w = (inl tt, w') ∧ w_tags w' = drop (length (w_tags w) - id) (w_tags w) ∧ w_enc w' = w_enc w ∧
    ((length (w_tags w) <= id)%nat ∧ w' = w ∨ (id < length (w_tags w))%nat ∧ w_open w' = false ∧ w_data w' = [] ∧
      w_out w' = (if w_open w && match w_data w with [] => true | _ => false end
                  then w_out w ++ u " />" ++ mjoin (map (λ t, u "</" ++ t ++ u ">") (drop 1 (take (length (w_tags w) - id) (w_tags w))))
                  else total w ++ mjoin (map (λ t, u "</" ++ t ++ u ">") (take (length (w_tags w) - id) (w_tags w))))).
Proof.
  induction n as [|n IH]; intros id w Hn.
  - destruct (w_tags w) eqn:Et; [|cbn in Hn; lia]. exists w. cbn [w_close_loop]. rewrite Et. cbn [length].
    split_and!; [done..|]. left. split; [lia|done].
  - cbn [w_close_loop]. destruct (Nat.ltb_spec id (length (w_tags w))) as [Hlt|Hge].
    2:{ exists w. split_and!; [done| |done|by left]. replace (length (w_tags w) - id)%nat with 0%nat by lia. done. }
    destruct (w_tags w) as [|t ts] eqn:Et; [cbn in Hlt; lia|].
    rewrite (w_end_spec None t ts w Et ltac:(by left)). cbn [length] in *.
    destruct (IH id (w_pop t ts w)) as (w' & E & G & N' & H).
    { rewrite w_pop_spec. cbn [w_tags]. lia. }
    exists w'. split; [done|]. rewrite w_pop_spec in G, N', H. cbn [w_tags w_enc w_open w_data w_out andb] in G, N', H.
    replace (S (length ts) - id)%nat with (S (length ts - id)) by lia.
    split; [done|]. split; [done|]. right. split; [done|].
    destruct H as [[Hle ->]|(Hlt' & Ho & Hd & Hout)].
    + replace (length ts - id)%nat with 0%nat by lia. cbn [w_open w_data w_out]. split_and!; [done..|].
      destruct (w_open w && _); cbn; rewrite ?app_nil_r; done.
    + split_and!; [done..|]. rewrite Hout, total_closed. cbn [take drop map].
      match goal with |- context [mjoin (?a :: ?b)] => change (mjoin (a :: b)) with (a ++ mjoin b) end.
      destruct (w_open w && _); rewrite <- !app_assoc; done.
Qed.

(** *** end *)
Lemma escape_cdata_inj a b : escape_cdata a = escape_cdata b → a = b.
Proof. intros E. pose proof (expand_escape_cdata a) as H. rewrite E, expand_escape_cdata in H. congruence. Qed.
Lemma w_end_none w tag : w_tags w = [] → w_end tag w = (inr AssertionError, w).
Proof. intros E. unfold w_end. by rewrite E. Qed.
Lemma w_end_other w t ts tag : w_tags w = escape_cdata t :: ts → tag ≠ [] → tag ≠ t → w_end (Some tag) w = (inr AssertionError, w).
Proof.
  intros E Hne Ht. unfold w_end. rewrite E. destruct tag as [|c s]; [done|].
  destruct (str_eqb _ _) eqn:Eq; [|done]. apply str_eqb_eq, escape_cdata_inj in Eq. done.
Qed.

(** *** Attribute order *)
Lemma str_leb_lt a b : a ≠ b → str_leb a b = true → str_lt a b.
Proof.
  revert b. induction a as [|x a IH]; intros [|y b] Hne; try done. cbn [str_leb str_lt].
  rewrite orb_true_iff, andb_true_iff, N.ltb_lt, N.eqb_eq. intros [?|[-> ?]]; [by left|right]. split; [done|]. apply IH; congruence.
Qed.
Lemma str_leb_total a b : str_leb a b = false → str_leb b a = true.
Proof.
  revert b. induction a as [|x a IH]; intros [|y b]; try done. cbn [str_leb].
  rewrite orb_false_iff, andb_false_iff, orb_true_iff, andb_true_iff, !N.ltb_ge, !N.ltb_lt, !N.eqb_eq, !N.eqb_neq.
  intros [H1 H2]. destruct (decide (x = y)) as [->|]; [|left; lia]. right. split; [done|]. apply IH. by destruct H2.
Qed.
Lemma str_lt_trans a b c : str_lt a b → str_lt b c → str_lt a c.
Proof.
  revert b c. induction a as [|x a IH]; intros [|y b] [|z c]; cbn [str_lt]; try done.
  intros [?|[-> ?]] [?|[-> ?]]; [left; lia|left; lia|left; lia|right]. split; [done|]. by eapply IH.
Qed.
Lemma str_lt_irrefl a : ¬ str_lt a a.
Proof. induction a as [|x a IH]; cbn [str_lt]; [by intros []|]. intros [?|[_ ?]]; [lia|done]. Qed.
Definition key_lt (x y : pystr * pystr) : Prop := str_lt (fst x) (fst y).
Lemma insert_sorted kv xs : fst kv ∉ map fst xs → StronglySorted key_lt xs → StronglySorted key_lt (insert_attr kv xs).
Proof.
  induction xs as [|kv' xs IH]; cbn [insert_attr map]; intros Hn Hs; [by repeat constructor|].
  apply not_elem_of_cons in Hn as [Hne Hn]. apply StronglySorted_inv in Hs as [Hs Hf].
  destruct (str_leb (fst kv) (fst kv')) eqn:E.
  - constructor; [by constructor|]. assert (key_lt kv kv') as Hlt by (by apply str_leb_lt). constructor; [done|].
    eapply Forall_impl; [exact Hf|]. intros z Hz. by eapply str_lt_trans.
  - constructor; [by apply IH|]. rewrite insert_attr_perm. constructor; [|done]. apply str_leb_lt; [congruence|by apply str_leb_total].
Qed.
Lemma sort_sorted xs : NoDup (map fst xs) → StronglySorted key_lt (sort_attrs xs).
Proof.
  induction xs as [|kv xs IH]; cbn [sort_attrs map]; intros H; [constructor|]. apply NoDup_cons in H as [Hn H].
  apply insert_sorted; [|by apply IH]. by rewrite (sort_attrs_perm xs).
Qed.
Lemma sort_unique a b : NoDup (map fst a) → a ≡ₚ b → sort_attrs a = sort_attrs b.
Proof.
  intros Hn Hp.
  assert (AntiSymm eq key_lt).
  { intros x y H1 H2. exfalso. by apply (str_lt_irrefl (fst x)), (str_lt_trans _ (fst y)). }
  apply (StronglySorted_unique key_lt).
  - by apply sort_sorted.
  - apply sort_sorted. by rewrite <- Hp.
  - by rewrite !sort_attrs_perm.
Qed.
Lemma w_start_perm tag a b extra w : NoDup (map fst a) → a ≡ₚ b → w_start tag a extra w = w_start tag b extra w.
Proof. intros Hn Hp. rewrite !w_start_spec. unfold open_text, attrs_text. by rewrite (sort_unique a b). Qed.

(** *** Comments *)
Lemma parse_comment tag s : is_name tag = true → forallb data_char s = true →
  ∃ w, document false (u "utf-8") (CElem tag [] [CComment s] false) = (inl tt, w) ∧
    parse (w_out w) = if no_double_hyphen s then Some (NElem tag [] [NText [10%N]]) else None.
Proof.
  intros Ht Hs. set (c := CElem tag [] [CComment s] false).
  destruct (no_double_hyphen s) eqn:Hh.
  - destruct (parse_document false (u "utf-8") c) as (w & E & _ & P); [done| |done|eauto].
    constructor; [done|split; [constructor|intros ? ? []%elem_of_nil]|]. intros ? ->%elem_of_list_singleton. by constructor.
  - destruct (render_document false (u "utf-8") c eq_refl) as (w & E & _ & O). exists w. split; [done|]. rewrite O. cbn [app].
    destruct (render_head c eq_refl) as (x & r & Ex & Hx). { intros ? <-. done. }
    unfold parse. rewrite norm_eol_id.
    2:{ cbn [render c]. no_cr.
        - apply open_text_no_cr; [done|split; [constructor|intros ? ? []%elem_of_nil]].
        - apply mjoin_no_cr. intros ? ->%elem_of_list_singleton. cbn [render]. no_cr. by apply escape_no_cr, data_no_cr.
        - by apply close_text_no_cr. }
    rewrite Ex, skip_decl_none by done. rewrite <- Ex. cbn [mbind option_bind render c map].
    unfold open_text. rewrite <- !app_assoc.
    match goal with |- context [u "<" ++ ?x] => change (u "<" ++ x) with (60%N :: x) end.
    rewrite prun_cons, (pstep_lt _ _ BProlog) by done. cbn [mbind option_bind].
    rewrite app_assoc, prun_app, prun_start; [|done|split; [constructor|intros ? ? []%elem_of_nil]].
    cbn [mbind option_bind]. change (u ">") with [62%N]. cbn [app]. rewrite prun_cons.
    change (map norm_attr (sort_attrs [])) with (@nil (pystr * pystr)).
    rewrite (tag_state_gt tag [] _ _ Ht (bstep_open _ _ BProlog I)). cbn [mbind option_bind].
    match goal with |- context [mjoin (?a :: ?b)] => change (mjoin (a :: b)) with (a ++ mjoin b) end.
    rewrite <- !app_assoc. rewrite prun_app.
    match goal with |- context [prun ?s (u "<!-- ")] => change (prun s (u "<!-- ")) with (Some (LComment 0, BIn (tag, [], []) [])) end.
    cbn [mbind option_bind].
    match goal with |- context [u " -->" ++ ?x] => change (u " -->" ++ x) with (32%N :: u "-->" ++ x) end.
    rewrite prun_comment_bad; [done|lia| |].
    + intros Hin. apply escape_cdata_chars in Hin as [_ ?]. congruence.
    + cbn [Nat.eqb app]. by rewrite ndh_escape.
Qed.

(** *** Line ends and white space in general *)
Lemma norm_app_ne a c b : c ≠ 10%N →
  norm_eol (a ++ c :: b) = norm_eol a ++ norm_eol (c :: b) ∧ norm_cr (a ++ c :: b) = norm_cr a ++ norm_eol (c :: b).
Proof.
  intros Hc. induction a as [|x a [IH1 IH2]].
  - split; [done|]. cbn [app norm_cr norm_eol]. by rewrite (proj2 (N.eqb_neq c 10)).
  - cbn [app]. split.
    + cbn [norm_eol]. destruct (x =? 13)%N; cbn [app]; by rewrite ?IH1, ?IH2.
    + cbn [norm_cr]. destruct (x =? 10)%N; [done|]. destruct (x =? 13)%N; cbn [app]; by rewrite ?IH1, ?IH2.
Qed.
Lemma norm_eol_pre a b : 13%N ∉ a → norm_eol (a ++ b) = a ++ norm_eol b.
Proof.
  induction a as [|x a IH]; [done|]. rewrite not_elem_of_cons. intros [Hx Ha]. cbn [app norm_eol].
  rewrite (proj2 (N.eqb_neq x 13)) by congruence. by rewrite IH.
Qed.
Lemma norm_cr_pre x a b : 13%N ∉ x :: a → x ≠ 10%N → norm_cr (x :: a ++ b) = x :: a ++ norm_eol b.
Proof.
  rewrite not_elem_of_cons. intros [Hx Ha] Hn. cbn [norm_cr].
  rewrite (proj2 (N.eqb_neq x 10)), (proj2 (N.eqb_neq x 13)) by congruence. by rewrite norm_eol_pre.
Qed.
Lemma norm_escape s : norm_eol (escape_cdata s) = escape_cdata (norm_eol s) ∧ norm_cr (escape_cdata s) = escape_cdata (norm_cr s).
Proof.
  induction s as [|c s [IH1 IH2]]; [done|].
  destruct (decide (c = 13%N)) as [->|H13].
  { rewrite escape_cdata_cons. change (esc1 13) with [13%N]. cbn [app norm_eol norm_cr].
    rewrite !(N.eqb_refl 13). change (13 =? 10)%N with false. cbn iota. rewrite IH2. by rewrite !escape_cdata_cons. }
  destruct (decide (c = 10%N)) as [->|H10].
  { rewrite escape_cdata_cons. change (esc1 10) with [10%N]. cbn [app norm_eol norm_cr].
    rewrite (N.eqb_refl 10). change (10 =? 13)%N with false. cbn iota. rewrite IH1. by rewrite !escape_cdata_cons. }
  assert (13%N ∉ esc1 c) as Hn by (intros [?|[? _]]%esc1_in; congruence).
  assert (∃ y t, esc1 c = y :: t ∧ y ≠ 10%N) as (y & t & Ey & Hy).
  { unfold esc1. repeat case_match; eauto. }
  rewrite escape_cdata_cons, (norm_eol_pre _ _ Hn), IH1. rewrite Ey in *. cbn [app]. rewrite norm_cr_pre by done.
  cbn [norm_eol norm_cr]. rewrite !(proj2 (N.eqb_neq c 13)) by done. rewrite (proj2 (N.eqb_neq c 10)) by done.
  rewrite !escape_cdata_cons, Ey, IH1. done.
Qed.
Lemma norm_escape_attrib s :
  norm_eol (escape_attrib s) = escape_attrib (norm_eol s) ∧ norm_cr (escape_attrib s) = escape_attrib (norm_cr s).
Proof.
  induction s as [|c s [IH1 IH2]]; [done|].
  destruct (decide (c = 13%N)) as [->|H13].
  { rewrite escape_attrib_cons. change (esca1 13) with [13%N]. cbn [app norm_eol norm_cr].
    rewrite !(N.eqb_refl 13). change (13 =? 10)%N with false. cbn iota. rewrite IH2. by rewrite !escape_attrib_cons. }
  destruct (decide (c = 10%N)) as [->|H10].
  { rewrite escape_attrib_cons. change (esca1 10) with [10%N]. cbn [app norm_eol norm_cr].
    rewrite (N.eqb_refl 10). change (10 =? 13)%N with false. cbn iota. rewrite IH1. by rewrite !escape_attrib_cons. }
  assert (13%N ∉ esca1 c) as Hn by (intros [?|[? _]]%esca1_in; congruence).
  assert (∃ y t, esca1 c = y :: t ∧ y ≠ 10%N) as (y & t & Ey & Hy).
  { unfold esca1. repeat case_match; eauto. }
  rewrite escape_attrib_cons, (norm_eol_pre _ _ Hn), IH1. rewrite Ey in *. cbn [app]. rewrite norm_cr_pre by done.
  cbn [norm_eol norm_cr]. rewrite !(proj2 (N.eqb_neq c 13)) by done. rewrite (proj2 (N.eqb_neq c 10)) by done.
  rewrite !escape_attrib_cons, Ey, IH1. done.
Qed.
Definition eol_attr (kv : pystr * pystr) : pystr * pystr := (fst kv, norm_eol (snd kv)).
Lemma norm_attr_text kv rest : is_name (fst kv) = true →
  norm_eol (attr_text kv ++ rest) = attr_text (eol_attr kv) ++ norm_eol rest.
Proof.
  intros Hk. unfold attr_text, eol_attr. cbn [fst snd]. rewrite <- !app_assoc.
  rewrite norm_eol_pre by (apply no_cr_lit; reflexivity). f_equal.
  rewrite norm_eol_pre by (by apply escape_no_cr, name_no_cr). f_equal.
  rewrite norm_eol_pre by (apply no_cr_lit; reflexivity). f_equal.
  change (u """" ++ rest) with (34%N :: rest). rewrite (proj1 (norm_app_ne _ 34 _ ltac:(done))).
  by rewrite (proj1 (norm_escape_attrib _)).
Qed.
Lemma norm_attrs_text l rest : (∀ kv, kv ∈ l → is_name (fst kv) = true) →
  norm_eol (mjoin (map attr_text l) ++ rest) = mjoin (map attr_text (map eol_attr l)) ++ norm_eol rest.
Proof.
  induction l as [|kv l IH]; intros H; [done|]. cbn [map].
  repeat match goal with |- context [mjoin (?a :: ?b)] => change (mjoin (a :: b)) with (a ++ mjoin b) end.
  rewrite <- !app_assoc, norm_attr_text by (apply H; left). rewrite IH; [done|]. intros ? ?. apply H. by right.
Qed.
Lemma insert_eol kv l : insert_attr (eol_attr kv) (map eol_attr l) = map eol_attr (insert_attr kv l).
Proof.
  induction l as [|kv' l IH]; [done|]. cbn [map insert_attr]. unfold eol_attr at 1 2. cbn [fst].
  destruct (str_leb _ _); [done|]. cbn [map]. by rewrite IH.
Qed.
Lemma sort_eol l : sort_attrs (map eol_attr l) = map eol_attr (sort_attrs l).
Proof. induction l as [|kv l IH]; [done|]. cbn [map sort_attrs]. by rewrite IH, insert_eol. Qed.
Lemma norm_xml_char s : forallb xml_char s = true → forallb xml_char (norm_eol s) = true ∧ forallb xml_char (norm_cr s) = true.
Proof.
  induction s as [|c s IH]; [done|]. cbn [forallb]. rewrite andb_true_iff. intros [Hc Hs]. destruct (IH Hs) as [H1 H2].
  cbn [norm_eol norm_cr]. split.
  - destruct (c =? 13)%N; cbn [forallb]; by rewrite ?Hc, ?H1, ?H2.
  - destruct (c =? 10)%N; [done|]. destruct (c =? 13)%N; cbn [forallb]; by rewrite ?Hc, ?H1, ?H2.
Qed.
Lemma norm_no_cr s : 13%N ∉ norm_eol s ∧ 13%N ∉ norm_cr s.
Proof.
  induction s as [|c s [H1 H2]]; [split; apply not_elem_of_nil|]. cbn [norm_eol norm_cr]. split.
  - destruct (N.eqb_spec c 13); rewrite not_elem_of_cons; (split; [congruence|done]).
  - destruct (N.eqb_spec c 10); [done|]. destruct (N.eqb_spec c 13); rewrite not_elem_of_cons; (split; [congruence|done]).
Qed.
Lemma norm_attr_eol_char v : forallb xml_char v = true → map attr_norm (norm_eol v) = v ↔ forallb attr_char v = true.
Proof.
  intros Hx. split.
  - intros E. rewrite forallb_forall in Hx |- *. intros c Hc. unfold attr_char, data_char. rewrite (Hx c Hc).
    assert (c ∈ map attr_norm (norm_eol v)) as Hin by (rewrite E; by apply elem_of_list_In).
    apply elem_of_list_fmap in Hin as (d & -> & _). unfold attr_norm, xml_space.
    destruct (N.eqb_spec d 32), (N.eqb_spec d 9), (N.eqb_spec d 13), (N.eqb_spec d 10); simplify_eq/=; try done.
    by rewrite !(proj2 (N.eqb_neq _ _)).
  - intros Hv. rewrite norm_eol_id by (by apply attr_no_cr). by apply attr_norm_id.
Qed.
Lemma norm_eol_data s : norm_eol s = s ↔ 13%N ∉ s.
Proof. split; [|apply norm_eol_id]. intros E. rewrite <- E. apply norm_no_cr. Qed.

Lemma parse_element tag c s a : is_name tag = true → xml_attrs a → forallb xml_char (c :: s) = true →
  ∃ w, document false (u "utf-8") (CElement tag (Some (c :: s)) a) = (inl tt, w) ∧
    parse (w_out w) = Some (NElem tag (map (λ kv, (fst kv, map attr_norm (norm_eol (snd kv)))) (sort_attrs a)) [NText (norm_eol (c :: s))]).
Proof.
  intros Ht [Hnd Ha] Hs. set (cl := CElement tag (Some (c :: s)) a).
  destruct (render_document false (u "utf-8") cl eq_refl) as (w & E & _ & O). exists w. split; [done|].
  rewrite O. cbn [app]. unfold parse. cbn [cl render]. unfold open_text. rewrite <- !app_assoc.
  rewrite norm_eol_pre by (apply no_cr_lit; reflexivity).
  rewrite norm_eol_pre by (by apply escape_no_cr, name_no_cr). unfold attrs_text. rewrite norm_attrs_text.
  2:{ intros [k v] Hin. rewrite sort_attrs_perm in Hin. by apply Ha in Hin as [? _]. }
  rewrite norm_eol_pre by (apply no_cr_lit; reflexivity).
  assert (∃ r, close_text tag = 60%N :: r) as [r Er] by (unfold close_text; eexists; reflexivity).
  rewrite Er, (proj1 (norm_app_ne _ 60 _ ltac:(done))). rewrite <- Er, (proj1 (norm_escape _)), (norm_eol_id (close_text tag)) by (by apply close_text_no_cr).
  rewrite <- sort_eol. change (mjoin (map attr_text (sort_attrs (map eol_attr a)))) with (attrs_text (map eol_attr a)).
  assert (∃ x r', escape_cdata tag = x :: r' ∧ name_start x = true) as (x & r' & Ex & Hx).
  { rewrite (is_name_escape tag Ht). apply is_name_inv in Ht as (x & r' & -> & ? & _). eauto. }
  match goal with |- context [u "<" ++ ?x] => change (u "<" ++ x) with (60%N :: x) end.
  rewrite Ex. cbn [app]. rewrite skip_decl_none by done. cbn [mbind option_bind]. 
  match goal with |- context [x :: r' ++ ?y] => change (x :: r' ++ y) with ((x :: r') ++ y) end. rewrite <- Ex.
  rewrite prun_cons, (pstep_lt _ _ BProlog) by done. cbn [mbind option_bind]. rewrite app_assoc, prun_app, prun_start; [|done|].
  2:{ split.
      - rewrite map_map. by rewrite (map_ext _ fst).
      - intros k v ([k' v'] & [= -> ->] & Hin)%elem_of_list_fmap. destruct (Ha _ _ Hin). split; [done|]. by apply norm_xml_char. }
  cbn [mbind option_bind]. change (u ">") with [62%N]. cbn [app]. rewrite prun_cons.
  rewrite (tag_state_gt _ _ _ _ Ht (bstep_open _ _ BProlog I)). cbn [mbind option_bind].
  rewrite prun_app, prun_text by (by apply norm_xml_char). cbn [mbind option_bind].
  erewrite (prun_close _ _ _ _ _ Ht (flush_text_in _ _ _ _ _)).
  2:{ unfold bstep. rewrite str_eqb_refl. reflexivity. }
  cbn [mbind option_bind frames bclose pfinish all_space forallb]. f_equal. f_equal.
  - rewrite sort_eol, map_map. apply map_ext. intros [k v]. done.
  - rewrite app_nil_r. assert (∃ d t, reverse (norm_eol (c :: s)) = d :: t) as (d & t & Ed).
    { destruct (reverse (norm_eol (c :: s))) eqn:Er'; [|eauto]. exfalso.
      apply (f_equal reverse) in Er'. rewrite reverse_involutive in Er'. cbn in Er'. by destruct (c =? 13)%N. }
    rewrite Ed. cbn [flush_kids add_kid]. rewrite <- Ed, reverse_involutive. done.
Qed.
