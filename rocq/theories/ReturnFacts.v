(** When a read raises nothing. *)
From Coq Require Import String.
From stdpp Require Import prelude gmap.
From Verif Require Import PyStr PyHeap Schema Assoc AssocSpec HeapFacts LinksFacts AssocFacts CtorFacts HistorySpec
  HistoryFacts Names TabCIM14 TabCIM15 TabProfiles Tables TableSpec TableFacts BlankFacts Reader ReaderSpec ReaderFacts
  FrameFacts StatementFacts CreateFacts ReaderTabs CompatFacts NumFacts ReadSound ReadStepFacts RoundDocFacts RoundFacts RoundTables DocSpec DocFacts RefFacts.

Lemma set_ref_returns S (Hde : distinct_ends S) f h d o ck a id y tk : Sound S h → cls_of h o = Some ck →
  assoc id d = Some (VRef y) → cls_of h y = Some tk → links_to S ck a tk → key_of a = Pub a →
  match lookup_prop S ck a with Some (POneMany _ | PManyOne _ | POneOne _ | PManyMany _ | PAlias _ _) => True | _ => False end →
  ∃ h', set_ref S (Datatypes.S (Datatypes.S f)) d o a id h = (inl tt, h').
Proof.
  intros Hs Hc Hid Hy Hl Hpub Hk. destruct (lookup_prop S ck a) as [k|] eqn:Ek; [|done].
  assert ((∃ p c, k = PAlias p c) ∨ match k with PAlias _ _ => False | _ => True end) as [(p & c & ->)|Hnal] by (destruct k; eauto).
  - unfold links_to in Hl. rewrite Ek in Hl. destruct Hl as [q He].
    assert (∀ p, pkind S h o p = lookup_prop S ck p) as HK by (intros p'; unfold pkind; by rewrite Hc).
    unfold set_ref. rewrite Hid. pose proof He as [Hp _].
    destruct (Sound_view S h o p (POneMany q) Hs) as [z Hz]; [by rewrite HK|done|]. pose proof Hz as [v Hv]%view_slot.
    assert (fst (getattr S (VRef o) a h) = inl (if decide (val_cls h v = Some c) then v else VNone)) as Hg.
    { unfold getattr. rewrite obj_prop_pkind, HK, Ek. unfold bind, read_key. rewrite Hv. by case_decide. }
    apply find_attr_found in Hg. rewrite Hg.
    assert (v = VNone ∨ ∃ y', v = VRef y') as Hvv.
    { destruct (lk_single _ _ (proj2 (so_consistent _ _ Hs)) o p q z) as [->|(y' & ys & -> & _)]; [by rewrite HK|done| |];
        apply view_val in Hz; rewrite Hz in Hv; injection Hv as <-; eauto. }
    assert (∃ h', setattr S (Datatypes.S (Datatypes.S f)) (VRef o) a (VRef y) h = (inl tt, h')) as Hset.
    { destruct (set_single_sound S h o ck p y tk q Hs Hc Hy He f) as (h2 & E & _). exists h2. rewrite <- E.
      cbn [setattr]. by rewrite obj_prop_pkind, HK, Ek. }
    case_decide; [|done]. destruct Hvv as [-> |[y' ->]]; [done|by eexists].
  - destruct (set_ref_effect S Hde f h d o ck a id y tk Hs Hc Hid Hy Hl Hpub) as (h' & E & _); [rewrite Ek; by destruct k|]. by exists h'.
Qed.

Lemma set_property_takes t f pf base rdf d o ck e a v w h : cls_of h o = Some ck → plain_attr t ck a → is_property base rdf e a →
  slot h o (Pub a) = Some v → takes rdf pf v e w → ∃ h', set_property t (S f) pf base rdf d o e h = (inl tt, h').
Proof.
  intros Hc Hpl Ha Hs Htk. pose proof Hpl as (Hpub & Hk & _).
  assert (pkind t h o a = None) as HK by (unfold pkind; by rewrite Hc).
  assert (find_attr t o a h = Found v) as Hfa.
  { apply find_attr_found. rewrite getattr_pub by done. unfold read_key. by rewrite Hpub, Hs. }
  assert (∀ w, setattr t (S f) (VRef o) a w h = (inl tt, hset o (Pub a) w h)) as Hset.
  { intros w'. rewrite set_plain by (done || by rewrite Hc). by rewrite Hpub. }
  destruct Htk as [v e tx w Hr Ht Hcv|e Hr|s e Hr Ht|v e Hr Ht Hv|v e uri p s Hr Hn -> Hd].
  - rewrite (attribute_set base rdf t (S f) pf d o e a (Some tx)) by done. unfold set_text. rewrite Hfa.
    unfold swallow_type, bind. rewrite (convert_spec _ _ _ _ _ _ _ Hcv), Hset. by eexists.
  - rewrite (attribute_set base rdf t (S f) pf d o e a (e_text e)) by done. unfold set_text. rewrite Hfa.
    unfold swallow_type, bind. cbn [convert]. by eexists.
  - rewrite (attribute_set base rdf t (S f) pf d o e a None) by done. unfold set_text. rewrite Hfa.
    unfold swallow_type, bind. cbn [convert]. rewrite Hset. by eexists.
  - rewrite (attribute_set base rdf t (S f) pf d o e a None) by done. unfold set_text. rewrite Hfa.
    unfold swallow_type, bind. destruct v; try done; cbn [convert]; by eexists.
  - destruct (p ++ u "." ++ s) as [|c r] eqn:E; [by destruct p|].
    rewrite (enum_set base rdf t (S f) pf d o e a c r) by done. unfold set_enum. rewrite Hfa, <- E.
    change (u "." ++ s) with (46%N :: s). rewrite rsplit_dot by done. rewrite Hset. by eexists.
Qed.

Lemma exec_raises S f base rdf pf d sts : ∀ h x h2, exec base rdf S f pf d sts h = (inr x, h2) →
  ∃ pre st post hk, sts = pre ++ st :: post ∧ exec base rdf S f pf d pre h = (inl tt, hk) ∧ exec1 base rdf S f pf d st hk = (inr x, h2).
Proof.
  induction sts as [|st sts IH]; intros h x h2; [done|]. unfold exec. cbn [for_each]. fold (exec base rdf S f pf d). unfold bind.
  destruct (exec1 base rdf S f pf d st h) as [[[]|y] h1] eqn:E1.
  - intros (pre & st' & post & hk & -> & E2 & E3)%IH. exists (st :: pre), st', post, hk. split_and!; [done| |done].
    unfold exec. cbn [for_each]. fold (exec base rdf S f pf d). unfold bind. by rewrite E1.
  - intros [= -> ->]. exists [], st, sts, h. done.
Qed.

Section reading.
Context (t : schema) (pm : list (name * name)) (Ht : (t, pm) ∈ tables) (base rdf : pystr) (f : nat) (pf : pystr → option pystr).
Context (root : elem) (evs : list event) (d : dict) (h : heap).
Context (Hs : Sound t h) (Hd : dict_alive d h) (Hf : foreign_root base evs) (Hcomp : compatible_doc base rdf t pm evs d h).
Context (Hends : refers_to_ends base rdf t pm evs d h) (Hself : self_contained base rdf pm evs d).
Context (Hplain : attributes_plain base rdf t pm evs d) (Hinst : instantiable base rdf pm evs).
Notation cl := (class_in base rdf pm evs d h).
Lemma reads_return : (∀ id k a, declared_class base rdf pm evs id = Some k → plain_attr t k a → about base rdf pm evs d id a ≠ [] →
    ∃ v0 v, starts t k id a v0 ∧ takes_all rdf pf v0 (about base rdf pm evs d id a) v) →
  ∃ d' h', reads base rdf t pm (S (S f)) pf false root evs d h = (None, d', h').
Proof using Ht Hs Hd Hf Hcomp Hends Hself Hplain Hinst.
  intros Hval. pose proof (proj1 (so_consistent _ _ Hs)) as Hwf. pose proof (tables_makes t pm Ht) as Hmk.
  destruct (pass1_returns t pm (S f) base rdf evs Hmk Hf) with (c := false) (d := d) (h := h) as (d' & h1 & E1); [|done|].
  { intros id k Hin. destruct (declared_map _ _ _ _ _ _ Hin) as [tag Htag].
    destruct (blank_ws _ _ _ _ Ht Htag (Hinst _ _ Hin)) as (ws & Hws & _). by rewrite Hws. }
  pose proof (pass1_created _ _ _ _ _ _ _ Hmk Hf _ _ _ _ _ Hwf E1) as HC.
  destruct (pass1_classes t pm base rdf evs d h d' h1 Hd HC) as [Hd1 Hcl].
  pose proof (Created_Sound t pm Ht base rdf _ _ _ _ _ Hs HC) as Hs1.
  assert (∀ id e, (id, e) ∈ doc_statements base rdf pm evs d → ∃ ck, cl id = Some ck ∧ compatible base rdf t cl ck e ∧ ∃ a, is_property base rdf e a) as Hst.
  { intros id e Hin. destruct (statements_prop _ _ _ _ _ _ _ Hin) as [a Ha].
    assert (doc_statements base rdf pm evs d = statements base rdf (λ id, match cl id with Some _ => true | None => false end) None evs) as Est.
    { apply statements_ext. intros i. unfold known_id, class_in. destruct (declared_class base rdf pm evs i); [done|].
      destruct (assoc i d) as [v|] eqn:Ev; [|done]. destruct (Hd _ _ Ev) as (o & -> & [k Hk]). cbn. by rewrite Hk. }
    rewrite Est in Hin. destruct (Hcomp id e Hin) as (ck & ? & ?). eauto 10. }
  rewrite reads_exec, E1.
  assert (statements base rdf (known d') None evs = doc_statements base rdf pm evs d) as ->.
  { apply statements_ext. by eapply known_created. }
  destruct (exec base rdf t (S (S f)) pf d' (doc_statements base rdf pm evs d) h1) as [[[]|x] h2] eqn:E2; [by eauto|]. exfalso.
  destruct (exec_raises _ _ _ _ _ _ _ _ _ _ E2) as (pre & [i e] & post & hk & Ests & E3 & E4).
  destruct (exec_sound t (tables_distinct t pm Ht) f pf base rdf d' pre cl h1 Hs1 Hd1 Hcl) as [HF HS].
  { intros id e' Hin. apply Hst. rewrite Ests. set_solver. }
  rewrite E3 in HF, HS. cbn [snd] in HF, HS. assert (same_classes h1 hk) as Hsc by apply HF.
  assert ((i, e) ∈ doc_statements base rdf pm evs d) as Hin by (rewrite Ests; set_solver).
  destruct (Hst i e Hin) as (ck & Hck & Hco & a & Ha). destruct (Hself i e Hin) as [k Hk].
  destruct (cr_new _ _ _ _ _ _ HC i k Hk) as (o & Ho & Hn & Hc & Hv).
  assert (ck = k) as -> by (unfold class_in in Hck; rewrite Hk in Hck; congruence).
  unfold exec1 in E4. cbn [fst snd] in E4. rewrite Ho in E4.
  assert (cls_of hk o = Some k) as Hck' by (by rewrite Hsc).
  pose proof Ha as (_ & _ & _ & Hname).
  assert (plain_attr t k a → False) as Hpl.
  { intros Hpl. assert (about base rdf pm evs d i a = mine base i a pre ++ e :: mine base i a post) as Eab.
    { unfold about. rewrite Ests. unfold mine. rewrite omap_app. cbn [omap list_omap fst snd]. by rewrite decide_True. }
    assert (∀ e' r, e' ∈ mine base i a pre → resource rdf e' = Some r → has_prefix (u "#") r = false) as Hno.
    { intros e' r Hin'. eapply Hplain; [done..|]. rewrite Eab. set_solver. }
    destruct (Hval i k a Hk Hpl) as (v0 & v & Hst0 & Hta); [rewrite Eab; by destruct (mine base i a pre)|].
    rewrite Eab in Hta. apply takes_all_app in Hta as (w & Hta1 & Hta2). inversion Hta2 as [|? ? w' ? ? Htk _]; subst.
    pose proof (assoc_reverse_in _ _ _ Hk) as Hdin. destruct (declared_map _ _ _ _ _ _ Hdin) as [tag Htag].
    destruct (tables_starts t pm tag k i (after_last_dot (local base e)) Ht Htag (Hinst _ _ Hdin) Hpl) as (v1 & Hst1 & Hb & Hpv).
    rewrite (starts_fun _ _ _ _ _ _ Hst0 Hst1) in *. rewrite <- Hv in Hb. apply view_val in Hb.
    destruct (exec_attribute t pm Ht base rdf (S f) pf d' i _ o k pre Ho (created_unique t pm Ht base rdf evs d h d' h1 i k o Hd HC Hk Ho) Hpl Hno
      h1 hk v1 Hc Hb Hpv E3) as (w2 & Hta3 & Hs2 & _ & _).
    rewrite (takes_all_fun _ _ _ _ _ _ Hta1 Hta3) in Htk.
    destruct (set_property_takes t (S f) pf base rdf d' o k e _ w2 w' hk Hck' Hpl Ha Hs2 Htk) as (h3 & E5). congruence. }
  specialize (Hco a Ha). destruct (resource rdf e) as [r|] eqn:Er; [|by apply Hpl].
  destruct r as [|c r]; [by apply Hpl|]. destruct (N.eq_dec c 35) as [->|Hne].
  - assert (reference_elem base rdf e a r) as He by done.
    rewrite (reference_set base rdf t (S (S f)) pf d' o e a r hk He) in E4.
    destruct (assoc r d') as [v|] eqn:Er'.
    + destruct (Hd1 _ _ Er') as (y & -> & [tk Htk]).
      assert (cl r = Some tk) as Hcr by (by rewrite Hcl, Er').
      destruct (Hends i a r k) as [Hpub Hkd]; [by exists e; rewrite Hcr|done|].
      destruct (set_ref_returns t (tables_distinct t pm Ht) f hk d' o k a r y tk) as (h3 & E5); try done; [by rewrite Hsc|by apply Hco|]. congruence.
    + unfold set_ref in E4. rewrite Er' in E4. by destruct (find_attr t o a hk).
  - apply Hpl. destruct c as [|c]; [done|]. do 6 (destruct c as [c|c|]; try done).
Qed.
End reading.
