(** Documents that are read without complaints. *)
From Coq Require Import String.
From stdpp Require Import prelude gmap.
From Verif Require Import PyStr PyHeap Schema Assoc AssocSpec HeapFacts TableSpec Reader ReaderSpec VocabSpec DocSpec ReaderLog LogSpec QuietSpec
  Tables TabProfiles TabCIM14 TabCIM15 TableFacts CtorFacts BlankFacts ReaderFacts CreateFacts ReaderTabs StatementFacts ReadStepFacts ReadDocFacts
  FrameFacts CompatFacts ReadSound VocabFacts DocFacts LogFacts PropReader PropLog.

(** A new object has what its class has. *)
Lemma blank_has t pm tag k id a : (t, pm) ∈ tables → assoc tag pm = Some k → k ∉ unconstructible → class_has t k a →
  is_Some (bview t k id (read_slot (lookup_prop t k) a)).
Proof.
  intros Ht Ha Hu (c0 & Hc0 & Hca). apply assoc_in in Ha. destruct (map_class t pm tag k Ht Ha) as (c & Hc & _).
  pose proof (blank_one_ok t pm k c Ht Hc) as Hb. rewrite decide_False in Hb by done. destruct Hb as (ws & Hb1 & Hk).
  assert (blank_new t k [] (uuid_kw id) = Some (ws ++ [(Pub (u "UUID"), BV (VStr id))])) as Hn.
  { unfold blank_new. rewrite Hc. by apply blank_uuid_chain. }
  unfold blank_check in Hk. apply andb_true_iff in Hk as [Hku Hk]. apply (all_rows_ok _ _ _ Hk) in Hc0.
  apply andb_true_iff in Hc0 as [[H1 H2]%andb_true_iff H3].
  change (lookup_in (mro t k)) with (lookup_prop t k) in *.
  assert (∀ v, bval_is (write_map ws !! read_slot (lookup_prop t k) a) v = true → key_eqb (read_slot (lookup_prop t k) a) (Pub (u "UUID")) = false →
    is_Some (bview t k id (read_slot (lookup_prop t k) a))) as Hv.
  { intros v Hv Hne. unfold bval_is in Hv. destruct (write_map ws !! _) as [b|] eqn:Em; [|done]. rewrite (bview_map _ _ _ _ _ _ Hn Em Hne). by eexists. }
  destruct Hca as [Ha'|[[Ha' Hm]|[Ha' Hp]]].
  - apply (all_rows_ok _ _ _ H1) in Ha'. apply orb_true_iff in Ha' as [->%str_eqb_eq|Ha'].
    + destruct (lookup_prop t k (u "UUID")) eqn:El; [done|]. unfold read_slot. rewrite El. change (key_of (u "UUID")) with (Pub (u "UUID")).
      unfold bview. rewrite Hn, last_write_app. cbn [last_write]. rewrite decide_True by done. by eexists.
    + destruct (ctor_default (mro t k) a) as [v|]; [|done]. apply andb_true_iff in Ha' as [[_ Hne%negb_true_iff]%andb_true_iff Ha']. eauto.
  - apply (all_rows_ok _ _ _ H2) in Ha'. apply orb_true_iff in Ha' as [Ha'%existsb_str|Ha']; [done|].
    apply andb_true_iff in Ha' as [Hne%negb_true_iff Ha']. eauto.
  - apply (all_rows_ok _ _ _ H3) in Ha'. apply orb_true_iff in Ha' as [Ha'%negb_true_iff|Ha'].
    + exfalso. apply elem_of_list_fmap in Hp as (q & -> & Hq). apply not_true_iff_false in Ha'. apply Ha', existsb_exists.
      exists q. split; [by apply elem_of_list_In|apply str_eqb_refl].
    + apply andb_true_iff in Ha' as [[_ Hne%negb_true_iff]%andb_true_iff Ha']. unfold bval_nil in Ha'.
      destruct (write_map ws !! _) as [b|] eqn:Em; [|done]. rewrite (bview_map _ _ _ _ _ _ Hn Em Hne). by eexists.
Qed.
Lemma slot_getattr S h o ck p : cls_of h o = Some ck → is_Some (slot h o (read_slot (lookup_prop S ck) p)) →
  ∃ v, fst (getattr S (VRef o) p h) = inl v.
Proof.
  intros Hc [v Hs]. unfold getattr, obj_prop. rewrite Hc. cbn [mbind option_bind].
  unfold read_slot in Hs. destruct (lookup_prop S ck p) as [[]|]; cbn [read_key bind]; unfold bind; cbn [read_key]; rewrite Hs; try by eexists.
  case_decide; by eexists.
Qed.

(** Slots stay. *)
Lemma run2_slot base rdf S fuel pf d evs cur h o k : is_Some (cls_of h o) → is_Some (slot h o k) →
  is_Some (slot (snd (run2 base rdf S fuel pf d evs cur h)) o k).
Proof.
  intros Hc Hs. set (I h := is_Some (cls_of h o) ∧ is_Some (slot h o k)).
  assert (I (snd (run2 base rdf S fuel pf d evs cur h))) as [_ ?]; [|done].
  apply (pres_run2 S I (λ _ _, True)); try done.
  - intros o' k' v h' [H1 H2] _. split; [by rewrite cls_hset|]. destruct (decide ((o', k') = (o, k))) as [[= -> ->]|Hne].
    + by rewrite slot_hset.
    + by rewrite slot_hset_ne.
  - intros h' ck [H1 H2]. split; [|done]. pose proof (fresh_obj_alive _ _ H1). split; [by rewrite cls_alloc|by rewrite slot_alloc].
Qed.

(** The positions of a document are its statements. *)
Lemma statement_position base rdf k evs st : ∀ cur, st ∈ statements base rdf k cur evs →
  ∃ pre rest, evs = pre ++ EEnd st.2 :: rest ∧ cursor base rdf k cur pre = Some st.1 ∧ in_base base st.2 = true ∧ has_id rdf st.2 = false.
Proof.
  induction evs as [|ev evs IH]; intros cur; cbn [statements]; [by intros ?%elem_of_nil|]. intros Hin.
  assert (∀ cur', st ∈ statements base rdf k cur' evs → cursor base rdf k cur [ev] = cur' →
    ∃ pre rest, ev :: evs = pre ++ EEnd st.2 :: rest ∧ cursor base rdf k cur pre = Some st.1 ∧ in_base base st.2 = true ∧ has_id rdf st.2 = false) as Hgo.
  { intros cur' H Hc. destruct (IH cur' H) as (pre & rest & -> & Hp & H1 & H2). exists (ev :: pre), rest. split; [done|]. split; [|done].
    change (ev :: pre) with ([ev] ++ pre). rewrite cursor_app. by rewrite Hc. }
  destruct cur as [id|], ev as [e|e|p v]; try (by apply (Hgo _ Hin)).
  destruct (in_base base e) eqn:Eb; [destruct (has_id rdf e) eqn:Eh|].
  - apply (Hgo _ Hin). cbn. by rewrite Eb, Eh.
  - apply elem_of_cons in Hin as [->|Hin]; [by exists [], evs|]. apply (Hgo _ Hin). cbn. by rewrite Eb, Eh.
  - apply (Hgo _ Hin). cbn. by rewrite Eb.
Qed.
(** Objects that the second pass does not find were not made. *)
Lemma unopened_start base rdf k evs l id : ∀ cur, (l, id) ∈ unopened base rdf k cur evs →
  ∃ e, EStart e ∈ evs ∧ names_object base rdf e l id ∧ k id = false.
Proof.
  induction evs as [|ev evs IH]; intros cur; cbn [unopened]; [by intros ?%elem_of_nil|]. intros Hin.
  assert (∀ cur', (l, id) ∈ unopened base rdf k cur' evs → ∃ e, EStart e ∈ ev :: evs ∧ names_object base rdf e l id ∧ k id = false) as Hgo.
  { intros cur' (e & He & H)%IH. exists e. split; [by right|done]. }
  destruct cur as [i|], ev as [e|e|p v]; try (by apply (Hgo _ Hin)).
  - destruct (in_base base e && has_id rdf e); by apply (Hgo _ Hin).
  - apply elem_of_app in Hin as [Hin|Hin]; [|by apply (Hgo _ Hin)]. destruct (in_base base e) eqn:Eb; [|by apply elem_of_nil in Hin].
    destruct (uuid_of rdf (e_attrs e)) as [i|] eqn:Eu; [|by apply elem_of_nil in Hin]. destruct (k i) eqn:Ek; [by apply elem_of_nil in Hin|].
    apply elem_of_list_singleton in Hin as [= -> ->]. apply in_base_iff in Eb as [l' Hl]. rewrite (local_app base e l' Hl).
    exists e. split; [left|]. split; [by apply (uuid_iff base rdf e l' i Hl)|done].
Qed.
Lemma label_exists S h o : ∃ n, class_label S h o n.
Proof.
  destruct (cls_of h o) as [ck|] eqn:Ec; [destruct (find_cls S ck) as [c|] eqn:Ef|].
  - exists (c_name c). left. by exists ck, c.
  - exists []. right. split; [done|]. intros n (ck' & c & H1 & H2 & _). congruence.
  - exists []. right. split; [done|]. intros n (ck' & c & H1 & H2 & _). congruence.
Qed.

Section quiet.
Context (t : schema) (pm : list (name * name)) (Ht : (t, pm) ∈ tables) (base rdf : pystr) (f : nat) (pf : pystr → option pystr).
Context (err : bool) (root : elem) (evs : list event) (d : dict) (h : heap).
Context (Hwf : Wf h) (Hd : dict_alive d h) (Hf : foreign_root base evs).
Context (Hself : self_contained base rdf pm evs d) (Hattr : attributes_known base rdf t pm evs d).
Notation Reaches := (Reaches base rdf t pm (S f) pf).
Lemma known_same d' h1 : Created t (declared base rdf pm evs) d h d' h1 → ∀ id, known_id base rdf pm evs d id = known d' id.
Proof using Type.
  intros HC id. unfold known_id, known. destruct (declared_class base rdf pm evs id) as [k|] eqn:Ek.
  - destruct (cr_new _ _ _ _ _ _ HC id k Ek) as (o' & -> & _). done.
  - by rewrite (cr_old _ _ _ _ _ _ HC id Ek).
Qed.
(** What is known at the end tag of a property. *)
Lemma position pre e a rest o d' hk : evs = pre ++ EEnd e :: rest → is_property base rdf e a →
  Reaches err root pre (EEnd e :: rest) d h (Some (VRef o)) d' hk →
  has_attr t hk o a ∧ (∃ id, (id, e) ∈ doc_statements base rdf pm evs d) ∧
  ∀ y, is_Some (class_in base rdf pm evs d h y) ↔ is_Some (assoc y d').
Proof using All.
  intros Eevs Hp HR. pose proof HR as (h1' & E1' & Erun). apply Reaches_exec in HR as (h1 & E1 & E2 & Hcur).
  rewrite <- Eevs in *. assert (h1' = h1) as -> by congruence.
  pose proof (pass1_created t pm base rdf f err evs (tables_makes t pm Ht) Hf false d h d' h1 Hwf E1) as HC.
  destruct (pass1_classes t pm base rdf evs d h d' h1 Hd HC) as [Hd1 Hcl].
  pose proof (known_same d' h1 HC) as Hkn.
  destruct (cursor base rdf (known d') None pre) as [id|] eqn:Ecu; [|done]. cbn in Hcur.
  assert ((id, e) ∈ doc_statements base rdf pm evs d) as Hin.
  { unfold doc_statements. rewrite (statements_ext base rdf _ (known d')) by done. rewrite Eevs, statements_app, Ecu.
    apply elem_of_app. right. cbn [statements]. pose proof Hp as (Hb & H1 & H2 & _). rewrite Hb. unfold has_id. rewrite H1, H2. by left. }
  destruct (Hself _ _ Hin) as [k Hk]. destruct (cr_new _ _ _ _ _ _ HC id k Hk) as (o' & Ho' & Hn & Hc & Hv).
  assert (o' = o) as -> by congruence. split; [|split; [by exists id|]].
  - left. pose proof (assoc_reverse_in _ _ _ Hk) as Hdin. destruct (declared_map _ _ _ _ _ _ Hdin) as [tag Htag].
    pose proof (cr_made _ _ _ _ _ _ HC id k Hdin) as Hmd.
    pose proof (blank_has t pm tag k id a Ht Htag (blank_new_unraised t pm tag k id Ht Htag Hmd) (Hattr _ _ _ _ Hin Hp Hk)) as Hs.
    rewrite <- Hv in Hs. destruct Hs as [w Hs]. apply view_slot in Hs as [v Hs].
    assert (cls_of hk o = Some k) as Hck.
    { pose proof (run2_classes base rdf t (S f) pf d' pre None h1 h1 (λ _ _, eq_refl)) as Hcl2. rewrite Erun in Hcl2. cbn [snd] in Hcl2.
      rewrite (Hcl2 o) by (by rewrite Hc). done. }
    apply (slot_getattr t hk o k a Hck).
    pose proof (run2_slot base rdf t (S f) pf d' pre None h1 o (read_slot (lookup_prop t k) a)) as Hsl. rewrite Erun in Hsl. cbn [snd] in Hsl.
    apply Hsl; [by rewrite Hc|by rewrite Hs].
  - intros y. rewrite Hcl. split.
    + intros Hy. destruct (assoc y d'); [by eexists|]. by destruct Hy.
    + intros [v Hv']. rewrite Hv'. cbn. destruct (Hd1 _ _ Hv') as (o2 & -> & Ho2). exact Ho2.
Qed.
(** Every statement has a position. *)
Lemma positions d' h' id e a : reads base rdf t pm (S f) pf err root evs d h = (None, d', h') →
  (id, e) ∈ doc_statements base rdf pm evs d → is_property base rdf e a →
  ∃ k o hk, property_at base rdf t pm (S f) pf err root evs d h k o e a d' hk.
Proof using Ht Hwf Hf Hself.
  intros (h1 & E1 & E2)%reads_some Hin Hp.
  pose proof (pass1_created t pm base rdf f err evs (tables_makes t pm Ht) Hf false d h d' h1 Hwf E1) as HC.
  destruct (Hself _ _ Hin) as [k Hk]. destruct (cr_new _ _ _ _ _ _ HC id k Hk) as (o & Ho & _).
  unfold doc_statements in Hin. rewrite (statements_ext base rdf _ (known d')) in Hin by (apply (known_same d' h1 HC)).
  destruct (statement_position _ _ _ _ _ _ Hin) as (pre & rest & Ee & Hcu & _). cbn [fst snd] in *.
  rewrite pass2_run in E2. rewrite Ee in E2. rewrite run2_app in E2. unfold bind in E2.
  pose proof (run2_cursor base rdf t (S f) pf d' pre None (λ id H, ltac:(done)) h1) as Hrun. change (obj_of d' None) with (@None val) in Hrun. change (@None name) with (@None pystr) in Hrun.
  destruct (run2 base rdf t (S f) pf d' pre None h1) as [[c|x] hk] eqn:Er; [|done].
  exists (length pre), o, hk, pre, rest. split; [done|]. split; [done|]. split; [done|].
  exists h1. rewrite <- Ee. split; [done|]. rewrite Er. f_equal. f_equal.
  destruct (exec base rdf t (S f) pf d' (statements base rdf (known d') None pre) h1) as [[[]|x] h2]; [|done]. assert (c = obj_of d' (cursor base rdf (known d') None pre)) as -> by congruence. rewrite Hcu. exact Ho.
Qed.
End quiet.
