(** Attributes after a whole document. *)
From Coq Require Import String.
From stdpp Require Import prelude gmap.
From Verif Require Import PyStr PyHeap Schema Assoc AssocSpec HeapFacts LinksFacts AssocFacts CtorFacts HistorySpec
  HistoryFacts Names TabCIM14 TabCIM15 TabProfiles Tables TableSpec TableFacts BlankFacts Reader ReaderSpec ReaderFacts
  FrameFacts StatementFacts CreateFacts ReaderTabs CompatFacts NumFacts ReadSound ReadStepFacts DocSpec.

(** No attribute is named like the far end of an association. *)
Definition far_names (t : schema) : gmap name unit :=
  foldr (λ c m, foldr (λ pk m, match other_name (snd pk) with Some q => <[q := tt]> m | None => m end) m (c_props c)) ∅ t.
Definition attrs_free (t : schema) (_ : list (name * name)) : bool :=
  let m := far_names t in forallb (λ c, forallb (λ a, match m !! a with None => true | Some _ => false end) (c_attrs c)) t.
Lemma attrs_free_true : all_tables attrs_free = true.
Proof. vm_compute. reflexivity. Qed.
Lemma far_in (ps : list (name * prop)) (m : gmap name unit) q :
  (m !! q = Some tt ∨ ∃ p k, (p, k) ∈ ps ∧ other_name k = Some q) →
  foldr (λ pk m, match other_name (snd pk) with Some q => <[q := tt]> m | None => m end) m ps !! q = Some tt.
Proof.
  induction ps as [|[p0 k0] ps IH]; cbn [foldr snd].
  - intros [?|(p & k & ?%elem_of_nil & _)]; done.
  - intros Hq. assert (other_name k0 = Some q ∨
      foldr (λ pk m, match other_name (snd pk) with Some q => <[q := tt]> m | None => m end) m ps !! q = Some tt) as [E|E].
    { destruct Hq as [Hq|(p & k & [[= -> ->]|Hin]%elem_of_cons & Hk)]; eauto 10. }
    + rewrite E. by rewrite lookup_insert.
    + destruct (other_name k0) as [q'|]; [|done]. destruct (decide (q' = q)) as [->|?]; [by rewrite lookup_insert|by rewrite lookup_insert_ne].
Qed.
Lemma far_names_in t c p k q : c ∈ t → (p, k) ∈ c_props c → other_name k = Some q → far_names t !! q = Some tt.
Proof.
  unfold far_names. induction t as [|c' t IH]; [by intros ?%elem_of_nil|]. cbn [foldr]. intros [->|Hc]%elem_of_cons Hp Hk.
  - apply far_in. right. eauto.
  - apply far_in. left. auto.
Qed.
Lemma tables_far t pm ck a : (t, pm) ∈ tables → plain_attr t ck a →
  ∀ c p k q, lookup_prop t c p = Some k → other_name k = Some q → q ≠ a.
Proof.
  intros Ht (_ & _ & ca & Hca%mro_sub & Ha) c p k q (dd & Hd%mro_sub & Hp)%lookup_in_props Hq ->.
  pose proof (all_tables_ok _ _ _ attrs_free_true Ht) as Hb. unfold attrs_free in Hb.
  apply (all_rows_ok _ _ _ Hb) in Hca. apply (all_rows_ok _ _ _ Hca) in Ha.
  by rewrite (far_names_in t dd p k a Hd Hp Hq) in Ha.
Qed.

Section attribute.
Context (t : schema) (pm : list (name * name)) (Ht : (t, pm) ∈ tables) (base rdf : pystr) (f : nat) (pf : pystr → option pystr).

(** A statement about another object or another attribute. *)
Lemma set_property_other d o e o0 n h w :
  (∀ c p k q, lookup_prop t c p = Some k → other_name k = Some q → q ≠ n) →
  (o ≠ o0 ∨ after_last_dot (local base e) ≠ n) →
  is_Some (cls_of h o0) ∧ slot h o0 (Pub n) = w →
  is_Some (cls_of (snd (set_property t (S f) pf base rdf d o e h)) o0) ∧
  slot (snd (set_property t (S f) pf base rdf d o e h)) o0 (Pub n) = w.
Proof.
  intros Hn Hne HI.
  assert (∀ q, q ≠ n → key_of q ≠ Pub n) as Hk.
  { intros q Hq. unfold key_of. repeat case_match; congruence. }
  apply (pres_set_property t (λ h, is_Some (cls_of h o0) ∧ slot h o0 (Pub n) = w) (λ o k, (o, k) ≠ (o0, Pub n))); try done.
  - intros o' k v h1 [? ?] Hw. rewrite cls_hset. split; [done|]. by rewrite slot_hset_ne.
  - intros h1 ck [Hc ?]. pose proof (fresh_obj_alive _ _ Hc) as Hf. split; [by rewrite cls_alloc, slot_alloc|].
    intros k. intros [= E _]. by rewrite E in Hf.
  - intros c p k q o' Hp Hq [= _ E]. by eapply Hk, E; eapply Hn.
  - intros [= E1 E2]. destruct Hne as [?|Hne]; [done|]. by apply (Hk _ Hne).
Qed.

Lemma rsplit_inv s r : rsplit1_1 s = Some r → ∃ p, s = p ++ u "." ++ r ∧ 46%N ∉ r.
Proof.
  unfold rsplit1_1. destruct (existsb (N.eqb 46) s) eqn:E; [|done]. intros [= <-].
  apply existsb_exists in E as (c & Hc & <-%N.eqb_eq). apply elem_of_list_In in Hc.
  apply elem_of_list_split_r in Hc as (a & b & -> & Hb). exists a.
  rewrite (after_dot a b) by done. by split.
Qed.
(** A statement about the attribute itself. *)
Lemma set_property_same d o ck e a v h h' : cls_of h o = Some ck → plain_attr t ck a → after_last_dot (local base e) = a →
  (∀ r, resource rdf e = Some r → has_prefix (u "#") r = false) →
  slot h o (Pub a) = Some v → plain_val v = true →
  set_property t (S f) pf base rdf d o e h = (inl tt, h') →
  ∃ w, takes rdf pf v e w ∧ slot h' o (Pub a) = Some w ∧ plain_val w = true ∧ cls_of h' o = Some ck.
Proof using Type.
  intros Hc Hpl Ha Hr Hs Hv. pose proof Hpl as (Hpub & Hk & _).
  assert (pkind t h o a = None) as HK by (unfold pkind; by rewrite Hc).
  assert (find_attr t o a h = Found v) as Hfa.
  { apply find_attr_found. rewrite getattr_pub by done. unfold read_key. by rewrite Hpub, Hs. }
  assert (∀ w, setattr t (S f) (VRef o) a w h = (inl tt, hset o (Pub a) w h)) as Hset.
  { intros w. rewrite set_plain by (done || by rewrite Hc). by rewrite Hpub. }
  assert (∀ w, slot (hset o (Pub a) w h) o (Pub a) = Some w) as Hsl.
  { intros w. apply slot_hset. by rewrite Hc. }
  unfold set_property. rewrite Ha. unfold resource in Hr.
  destruct (rdf_attr rdf "resource" (e_attrs e)) as [[|c r]|] eqn:Er.
  - rewrite Hfa. by intros [=].
  - destruct (N.eqb_spec c 35) as [->|Hne]; [specialize (Hr _ eq_refl); done|].
    unfold set_enum. rewrite Hfa. destruct (rsplit1_1 (c :: r)) as [s|] eqn:Es; [|done]. rewrite Hset. intros [= <-].
    apply rsplit_inv in Es as (p & Es & Hd). exists (VStr s). rewrite cls_hset. split_and!; [|apply Hsl|done|done].
    by eapply tk_enum; [exact Er|by apply Hr|exact Es|].
  - unfold set_text, swallow_type, bind. rewrite Hfa.
    assert (∀ w, plain_val w = true → takes rdf pf v e w → hset o (Pub a) w h = h' →
      ∃ w, takes rdf pf v e w ∧ slot h' o (Pub a) = Some w ∧ plain_val w = true ∧ cls_of h' o = Some ck) as Hgo.
    { intros w Hp Htk <-. exists w. by rewrite cls_hset. }
    assert (takes rdf pf v e v → h = h' → ∃ w, takes rdf pf v e w ∧ slot h' o (Pub a) = Some w ∧ plain_val w = true ∧ cls_of h' o = Some ck) as Hno.
    { intros Htk <-. by exists v. }
    destruct (e_text e) as [tx|] eqn:Et.
    + destruct (decide (v = VNone)) as [->|Hn].
      { cbn [convert]. intros [= E]. apply Hno; [|done]. by apply tk_untyped. }
      assert (∀ w, converts pf v tx w → plain_val w = true → convert t (S f) pf v (Some tx) h = (inl w, h)) as Hcv.
      { intros w Hw _. by apply convert_spec. }
      destruct v as [|b|z|rr|s|y|l]; try done.
      * cbn [convert]. rewrite Hset. destruct (str_eqb (title tx) (u "True")) eqn:E'; intros [= E]; refine (Hgo _ _ _ E); try done.
        -- eapply tk_text; [done..|]. by apply cv_true, title_true.
        -- eapply tk_text; [done..|]. apply cv_false. intros ?%title_true. congruence.
      * cbn [convert]. destruct (ascii tx) eqn:Eas; [|done]. destruct (parse_int tx) as [z'|] eqn:E'; [|done]. rewrite Hset.
        intros [= E]. refine (Hgo _ _ _ E); [done|]. eapply tk_text; [done..|]. apply cv_int; [done|by apply parse_int_iff].
      * cbn [convert]. destruct (pf tx) as [z'|] eqn:E'; [|done]. rewrite Hset.
        intros [= E]. refine (Hgo _ _ _ E); [done|]. eapply tk_text; [done..|]. by apply cv_float.
      * cbn [convert]. rewrite Hset. intros [= E]. refine (Hgo _ _ _ E); [done|]. eapply tk_text; [done..|]. by apply cv_str.
    + destruct v as [|b|z|rr|s|y|l]; try done; cbn [convert].
      * intros [= E]. apply Hno; [|done]. by apply tk_untyped.
      * intros [= E]. apply Hno; [|done]. by apply tk_empty.
      * intros [= E]. apply Hno; [|done]. by apply tk_empty.
      * intros [= E]. apply Hno; [|done]. by apply tk_empty.
      * rewrite Hset. intros [= E]. refine (Hgo _ _ _ E); [done|]. by apply tk_empty_str.
Qed.

(** All statements. *)
Definition mine (id : pystr) (a : name) (sts : list (pystr * elem)) : list elem :=
  omap (λ st, if decide (st.1 = id ∧ after_last_dot (local base st.2) = a) then Some st.2 else None) sts.
Lemma exec_attribute d id a o ck sts : assoc id d = Some (VRef o) →
  (∀ id', assoc id' d = Some (VRef o) → id' = id) → plain_attr t ck a →
  (∀ e r, e ∈ mine id a sts → resource rdf e = Some r → has_prefix (u "#") r = false) →
  ∀ h h' v, cls_of h o = Some ck → slot h o (Pub a) = Some v → plain_val v = true →
  exec base rdf t (S f) pf d sts h = (inl tt, h') →
  ∃ w, takes_all rdf pf v (mine id a sts) w ∧ slot h' o (Pub a) = Some w ∧ plain_val w = true ∧ cls_of h' o = Some ck.
Proof using Ht.
  intros Hid Huniq Hpl. pose proof (tables_far t pm ck a Ht Hpl) as Hfar.
  induction sts as [|[i e] sts IH]; intros Hr h h' v Hc Hs Hv.
  { intros [= <-]. exists v. split; [apply ta_nil|done]. }
  unfold exec. cbn [for_each]. fold (exec base rdf t (S f) pf d). unfold exec1 at 1. cbn [fst snd]. unfold bind.
  destruct (assoc i d) as [vi|] eqn:Ei; [|done]. destruct vi as [| | | | |oi|]; try done.
  destruct (set_property t (S f) pf base rdf d oi e h) as [[[]|x] h1] eqn:E1; [|done]. intros E2.
  unfold mine in Hr |- *. cbn [omap list_omap fst snd] in Hr |- *. case_decide as Hd.
  - destruct Hd as [-> Ha]. assert (oi = o) as -> by congruence.
    destruct (set_property_same d o ck e a v h h1 Hc Hpl Ha) as (w & Hw & Hs1 & Hv1 & Hc1); [|done..|].
    { intros r Hre. eapply Hr; [left|done]. }
    destruct (IH (λ e' r Hin, Hr e' r (elem_of_list_further _ _ _ Hin)) h1 h' w Hc1 Hs1 Hv1 E2) as (w' & Hw' & Hrest).
    exists w'. split; [|done]. by eapply ta_cons.
  - assert (oi ≠ o ∨ after_last_dot (local base e) ≠ a) as Hne.
    { destruct (decide (after_last_dot (local base e) = a)) as [Ha|?]; [|by right]. left. intros ->. apply Hd. split; [|done]. by apply Huniq. }
    pose proof (set_property_other d oi e o a h (Some v) Hfar Hne) as Ho. rewrite E1 in Ho. cbn [snd] in Ho.
    destruct Ho as [Hc1 Hs1]; [split; [by rewrite Hc|done]|].
    assert (cls_of h1 o = Some ck) as Hc1'.
    { pose proof (pres_set_property t (classes_kept h) (λ _ _, True)) as Hp.
      assert (classes_kept h h1) as Hkc.
      { change h1 with (snd ((inl tt : unit + exn), h1)). rewrite <- E1. apply Hp; try done.
        - intros o1 k1 v1 h2 H1 _ o' Ho'. rewrite cls_hset. by apply H1.
        - intros h2 ck1 H1. split; [|done]. intros o' Ho'. rewrite cls_alloc; [by apply H1|].
          apply fresh_obj_alive. by rewrite (H1 o' Ho'). }
      rewrite (Hkc o); [done|]. by rewrite Hc. }
    apply (IH Hr h1 h' v Hc1' Hs1 Hv E2).
Qed.
End attribute.

(** The values new objects start with. *)
Lemma starts_blank S ck ws id a c : (∀ c, c ∈ mro S ck → reader_row c = true) →
  (∀ id, blank_new S ck [] (uuid_kw id) = Some (ws ++ [(Pub (u "UUID"), BV (VStr id))])) →
  blank_check (mro S ck) ws = true → c ∈ mro S ck → a ∈ c_attrs c → lookup_prop S ck a = None →
  ∃ v, starts S ck id a v ∧ bview S ck id (key_of a) = Some (OV v) ∧ plain_val v = true.
Proof.
  intros Hrow Hn Hk Hc Ha Hp. unfold starts. destruct (decide (a = u "UUID")) as [->|Hne].
  { exists (VStr id). split_and!; [done| |done]. unfold bview. rewrite Hn, last_write_app. cbn [last_write].
    by rewrite decide_True. }
  unfold blank_check in Hk. apply andb_true_iff in Hk as [_ Hk]. apply (all_rows_ok _ _ _ Hk) in Hc.
  apply andb_true_iff in Hc as [[Hk1 _]%andb_true_iff _].
  apply (all_rows_ok _ _ _ Hk1) in Ha. apply orb_true_iff in Ha as [->%str_eqb_eq|Ha]; [done|].
  destruct (ctor_default (mro S ck) a) as [d|] eqn:Ed; [|done].
  apply andb_true_iff in Ha as [[_ Ha2%negb_true_iff]%andb_true_iff Ha3].
  assert (read_slot (lookup_in (mro S ck)) a = key_of a) as Hrs.
  { unfold read_slot. unfold lookup_prop in Hp. by rewrite Hp. }
  rewrite Hrs in Ha2, Ha3. unfold bval_is in Ha3. destruct (write_map ws !! key_of a) as [[w|]|] eqn:Em; try done.
  apply andb_true_iff in Ha3 as [->%bool_decide_eq_true _].
  exists d. split_and!; [done|by apply (bview_map _ _ _ _ _ _ (Hn id) Em)|].
  apply ctor_default_in in Ed as (c' & Hc' & Hin). specialize (Hrow c' Hc').
  apply andb_true_iff in Hrow as [Hrow _]. by apply (all_rows_ok _ _ _ Hrow) in Hin.
Qed.
Lemma tables_starts t pm tag k id a : (t, pm) ∈ tables → assoc tag pm = Some k → k ∉ unconstructible → plain_attr t k a →
  ∃ v, starts t k id a v ∧ bview t k id (Pub a) = Some (OV v) ∧ plain_val v = true.
Proof.
  intros Ht Ha Hu (Hpub & Hl & c0 & Hc0 & Hca). apply assoc_in in Ha. destruct (map_class t pm tag k Ht Ha) as (c & Hc & _).
  pose proof (blank_one_ok t pm k c Ht Hc) as Hb. rewrite decide_False in Hb by done. destruct Hb as (ws & Hb1 & Hb2).
  rewrite <- Hpub. eapply (starts_blank t k ws id a c0); try done.
  - intros c' Hc'%mro_sub. by eapply reader_row_ok.
  - intros id'. unfold blank_new. rewrite Hc. by apply blank_uuid_chain.
Qed.

(** Elements determine the values. *)
Lemma converts_fun pf v t w w' : converts pf v t w → converts pf v t w' → w = w'.
Proof.
  intros H1 H2. pose proof (convert_spec [] 0 pf v t w heap_empty H1) as E1.
  pose proof (convert_spec [] 0 pf v t w' heap_empty H2) as E2. congruence.
Qed.
Lemma takes_fun rdf pf v e w w' : takes rdf pf v e w → takes rdf pf v e w' → w = w'.
Proof.
  intros H1 H2. destruct H1 as [v e t w Hr Ht Hc|e Hr|s e Hr Ht|v e Hr Ht Hv|v e uri p s Hr Hn -> Hd]; inversion H2; simplify_eq; try done.
  all: try (match goal with H : converts _ VNone _ _ |- _ => inversion H end).
  - by eapply converts_fun.
  - f_equal. rename select (_ ++ _ = _ ++ _) into E0. apply (f_equal after_last_dot) in E0.
    change (u "." ++ s) with (46%N :: s) in E0. change (u "." ++ s0) with (46%N :: s0) in E0. by rewrite !after_dot in E0 by done.
Qed.
Lemma takes_all_fun rdf pf v es w w' : takes_all rdf pf v es w → takes_all rdf pf v es w' → w = w'.
Proof.
  intros H1. revert w'. induction H1 as [v|v e w es x Ht Hts IH]; intros w' H2; inversion H2; subst; [done|].
  apply IH. match goal with H : takes _ _ v e ?y |- _ => by rewrite (takes_fun _ _ _ _ _ _ Ht H) end.
Qed.
Lemma takes_all_snoc rdf pf v es e x : takes_all rdf pf v (es ++ [e]) x ↔ ∃ w, takes_all rdf pf v es w ∧ takes rdf pf w e x.
Proof.
  split.
  - revert v. induction es as [|e' es IH]; intros v H; inversion H; subst.
    + match goal with H : takes_all _ _ _ [] _ |- _ => inversion H; subst end. exists v. split; [apply ta_nil|done].
    + match goal with H : takes_all _ _ _ (es ++ [e]) _ |- _ => apply IH in H as (w' & ? & ?) end.
      exists w'. split; [|done]. by eapply ta_cons.
  - intros (w & H & Ht). induction H as [v|v e' w' es x' H1 H2 IH]; cbn [app].
    + eapply ta_cons; [done|apply ta_nil].
    + eapply ta_cons; [done|auto].
Qed.
Lemma takes_all_app rdf pf v es es' x : takes_all rdf pf v (es ++ es') x ↔ ∃ w, takes_all rdf pf v es w ∧ takes_all rdf pf w es' x.
Proof.
  revert v. induction es as [|e es IH]; intros v; cbn [app].
  - split; [intros H; exists v; split; [apply ta_nil|done]|]. intros (w & H & ?). by inversion H; subst.
  - split.
    + intros H. inversion H as [|? ? w ? ? H1 H2]; subst. apply IH in H2 as (w' & ? & ?). exists w'. split; [by eapply ta_cons|done].
    + intros (w & H & ?). inversion H as [|? ? w' ? ? H1 H2]; subst. eapply ta_cons; [done|]. apply IH. eauto.
Qed.
Lemma starts_fun S ck id a v w : starts S ck id a v → starts S ck id a w → v = w.
Proof. unfold starts. case_decide; congruence. Qed.

(** A read that returns. *)
Section returning.
Context (t : schema) (pm : list (name * name)) (Ht : (t, pm) ∈ tables) (base rdf : pystr) (f : nat) (pf : pystr → option pystr).
Lemma uuid_made k tag id : assoc tag pm = Some k → is_Some (blank_new t k [] (uuid_kw id)) →
  bview t k id (Pub (u "UUID")) = Some (OV (VStr id)).
Proof using Ht.
  intros Ha [ws Hb]. destruct (tables_makes t pm Ht _ _ Ha) as [[ws' Hws]|Hr]; unfold bview in *.
  - rewrite Hws, last_write_app. cbn [last_write]. by rewrite decide_True.
  - assert (Wf heap_empty) as H0 by (split; intros *; unfold slot; simpl; by rewrite ?lookup_empty).
    destruct (construct_blank t 0 heap_empty k [] (uuid_kw id) ws H0 Hb) as (h' & E' & _).
    destruct (Hr 0%nat heap_empty id H0) as (h2 & E2 & _). congruence.
Qed.
Lemma known_created evs d h d' h1 : Created t (declared base rdf pm evs) d h d' h1 →
  ∀ id, known d' id = known_id base rdf pm evs d id.
Proof.
  intros HC id. unfold known, known_id, declared_class. destruct (assoc id (reverse (declared base rdf pm evs))) as [k|] eqn:E.
  - by destruct (cr_new _ _ _ _ _ _ HC id k E) as (o & -> & _).
  - by rewrite (cr_old _ _ _ _ _ _ HC id E).
Qed.
Lemma reads_returns err root evs d h d' h' : Wf h → foreign_root base evs →
  reads base rdf t pm (S f) pf err root evs d h = (None, d', h') →
  ∃ h1, pass1 t pm (S f) base rdf err evs false d h = (None, d', h1) ∧ Created t (declared base rdf pm evs) d h d' h1 ∧
    exec base rdf t (S f) pf d' (doc_statements base rdf pm evs d) h1 = (inl tt, h').
Proof using Ht.
  intros Hwf Hf E. rewrite reads_exec in E.
  destruct (pass1 t pm (S f) base rdf err evs false d h) as [[[x1|] d1] h1] eqn:E1; [done|].
  pose proof (pass1_created _ _ _ _ _ _ _ (tables_makes t pm Ht) Hf _ _ _ _ _ Hwf E1) as HC.
  assert (statements base rdf (known d1) None evs = doc_statements base rdf pm evs d) as Est.
  { apply statements_ext. by eapply known_created. }
  rewrite Est in E. destruct (exec _ _ _ _ _ _ _ _) as [[[]|x] h2] eqn:E2; [|done]. destruct err; [done|]. simplify_eq. eauto.
Qed.
Lemma created_unique evs d h d' h1 id k o : dict_alive d h → Created t (declared base rdf pm evs) d h d' h1 →
  declared_class base rdf pm evs id = Some k → assoc id d' = Some (VRef o) → ∀ id', assoc id' d' = Some (VRef o) → id' = id.
Proof using Ht.
  intros Hd HC Hk Ho id' Ho'. destruct (cr_new _ _ _ _ _ _ HC id k Hk) as (o1 & Ho1 & Hn & Hc & Hv). assert (o1 = o) as -> by congruence.
  destruct (declared_class base rdf pm evs id') as [k'|] eqn:Hk'.
  - destruct (cr_new _ _ _ _ _ _ HC id' k' Hk') as (o2 & Ho2 & _ & _ & Hv'). assert (o2 = o) as -> by congruence.
    apply assoc_reverse_in in Hk, Hk'.
    destruct (declared_map _ _ _ _ _ _ Hk) as [tag Htag]. destruct (declared_map _ _ _ _ _ _ Hk') as [tag' Htag'].
    pose proof (uuid_made k tag id Htag (cr_made _ _ _ _ _ _ HC id k Hk)) as E1. rewrite <- Hv in E1.
    pose proof (uuid_made k' tag' id' Htag' (cr_made _ _ _ _ _ _ HC id' k' Hk')) as E2. rewrite <- Hv' in E2. congruence.
  - unfold declared_class in Hk'. rewrite (cr_old _ _ _ _ _ _ HC id' Hk') in Ho'. destruct (Hd _ _ Ho') as (o2 & [= <-] & [? Hc2]). congruence.
Qed.
Lemma reads_attribute err root evs d h d' h' id k a : Wf h → dict_alive d h → foreign_root base evs →
  reads base rdf t pm (S f) pf err root evs d h = (None, d', h') →
  declared_class base rdf pm evs id = Some k → plain_attr t k a →
  (∀ e r, e ∈ about base rdf pm evs d id a → resource rdf e = Some r → has_prefix (u "#") r = false) →
  ∃ o v0 v, assoc id d' = Some (VRef o) ∧ cls_of h' o = Some k ∧ starts t k id a v0 ∧
    takes_all rdf pf v0 (about base rdf pm evs d id a) v ∧ view h' o (Pub a) = Some (OV v).
Proof using Ht.
  intros Hwf Hd Hf Hr Hk Hpl Hno. destruct (reads_returns err root evs d h d' h' Hwf Hf Hr) as (h1 & _ & HC & Hex).
  destruct (cr_new _ _ _ _ _ _ HC id k Hk) as (o & Ho & Hn & Hc & Hv).
  pose proof (created_unique evs d h d' h1 id k o Hd HC Hk Ho) as Hu.
  pose proof (assoc_reverse_in _ _ _ Hk) as Hin. destruct (declared_map _ _ _ _ _ _ Hin) as [tag Htag].
  pose proof (cr_made _ _ _ _ _ _ HC id k Hin) as Hmd.
  destruct (tables_starts t pm tag k id a Ht Htag (blank_new_unraised t pm tag k id Ht Htag Hmd) Hpl) as (v0 & Hst & Hb & Hpv).
  rewrite <- Hv in Hb. apply view_val in Hb.
  destruct (exec_attribute t pm Ht base rdf f pf d' id a o k _ Ho Hu Hpl Hno h1 h' v0 Hc Hb Hpv Hex) as (v & Hta & Hs & Hpv2 & Hc').
  exists o, v0, v. split_and!; [done|done|done|exact Hta|]. unfold view. rewrite Hs. cbn. by destruct v.
Qed.
End returning.
