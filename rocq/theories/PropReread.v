(** Properties C71-C75: namespaces, text on references, failed and repeated
    reads, plain lists. *)
From Coq Require Import String.
From stdpp Require Import prelude gmap.
From Verif Require Import PyStr PyHeap Schema Assoc AssocSpec HeapFacts AssocFacts AddRemoveFacts CtorFacts BlankFacts History HistorySpec HistoryFacts
  Names TabCIM14 TabCIM15 TabProfiles Tables TableSpec TableFacts Reader ReaderSpec ReaderFacts RegionFacts FrameFacts CreateFacts
  ReaderTabs ArgFacts GraphCheck StatementFacts CompatFacts ReadSound NumFacts ReadStepFacts ReadDocFacts ReadDemo PropReader VocabSpec VocabFacts.

(** *** C71: the namespace has to end in # *)
(** The namespace of an element. *)
Definition elem_ns (e : elem) (uri : pystr) : Prop := 125%N ∉ uri ∧ ∃ l, e_tag e = u "{" ++ uri ++ u "}" ++ l.
Definition has_elem (evs : list event) (e : elem) : Prop := EStart e ∈ evs ∨ EEnd e ∈ evs.

Lemma pass1_outside t pm fuel base rdf err evs : (∀ e, has_elem evs e → in_base base e = false) →
  ∀ c d h, pass1 t pm fuel base rdf err evs c d h = (if err then Some ParseError else None, d, h).
Proof.
  induction evs as [|ev evs IH]; intros Ho c d h; [done|].
  assert (∀ e, has_elem evs e → in_base base e = false) as Ho' by (intros e [He|He]; apply Ho; [left|right]; by right).
  destruct ev as [e|e|p v]; cbn [pass1 pass1_step]; [by apply IH| |by apply IH].
  rewrite (Ho e) by (right; left). by apply IH.
Qed.
Lemma pass2_outside t fuel pf base rdf d err evs : (∀ e, has_elem evs e → in_base base e = false) →
  ∀ h, pass2 t fuel pf base rdf d err evs None h = (if err then Some ParseError else None, h).
Proof.
  induction evs as [|ev evs IH]; intros Ho h; [done|].
  assert (∀ e, has_elem evs e → in_base base e = false) as Ho' by (intros e [He|He]; apply Ho; [left|right]; by right).
  destruct ev as [e|e|p v]; cbn [pass2 pass2_step]; [|by apply IH..].
  rewrite (Ho e) by (left; left). by apply IH.
Qed.
Lemma skip_root_some evs e : has_elem evs e → ∃ r, skip_root evs = Some r ∧ ∀ e', has_elem r e' → has_elem evs e'.
Proof.
  induction evs as [|ev evs IH]; [by intros [?%elem_of_nil|?%elem_of_nil]|]. intros He.
  assert (∀ e', has_elem evs e' → has_elem (ev :: evs) e') as Hr by (intros e' [?|?]; [left|right]; by right).
  destruct ev as [e1|e1|p v]; cbn [skip_root]; [by eauto..|].
  destruct IH as (r & -> & Hr').
  { destruct He as [[|]%elem_of_cons|[|]%elem_of_cons]; try done; [by left|by right]. }
  exists r. split; [done|]. auto.
Qed.
Lemma read_outside t pm fuel pf base rdf src d h e : s_error src = false → has_elem (s_events src) e →
  (∀ e, has_elem (s_events src) e → in_base base e = false) →
  read t pm fuel pf base rdf src d h = (None, d, h).
Proof.
  intros Herr He Ho. unfold read. destruct (skip_root_some _ _ He) as (r & -> & Hr). rewrite Herr.
  assert (∀ e, has_elem r e → in_base base e = false) as Ho' by auto.
  by rewrite (pass1_outside t pm fuel base rdf false r Ho' false d h), (pass2_outside t fuel pf base rdf d false r Ho' h).
Qed.
Lemma other_ns ns uri e : 125%N ∉ ns → elem_ns e uri → uri ≠ ns → in_base (u "{" ++ ns ++ u "}") e = false.
Proof.
  intros Hn (Hu & l & El) Hne. destruct (in_base _ e) eqn:E; [|done]. destruct Hne.
  apply in_base_iff in E as (l' & E'). rewrite El in E'. change (u "{" ++ uri ++ u "}" ++ l) with (123%N :: uri ++ 125%N :: l) in E'.
  rewrite <- !(assoc_L (++)) in E'. change (u "{" ++ ns ++ u "}" ++ l') with (123%N :: ns ++ 125%N :: l') in E'. injection E' as E'.
  clear -Hn Hu E'. revert uri Hu E'. induction ns as [|c ns IH]; intros [|x uri] Hu E'; simpl in *; try done.
  - injection E' as -> _. destruct Hu. left.
  - injection E' as <- _. destruct Hn. left.
  - injection E' as -> E'. f_equal. apply IH; [|..|done]; set_solver.
Qed.
Lemma default_read fuel pf src sd h m : xmlns src = inl m → ∃ t pm, (t, pm) ∈ tables ∧
  cimread fuel pf cim14_uri (cim14, cim14_map) (cim15, cim15_map) src None None sd h =
  read t pm fuel pf (u "{" ++ detected_ns m ++ u "}") (rdf_ns m) src (default [] sd) h.
Proof.
  intros Hx. destruct (decide (strip_hash (default [] (assoc (u "cim") m)) = cim14_uri)) as [E|E].
  - exists cim14, cim14_map. split; [left|].
    assert (detects14 m) as Hd.
    { destruct (assoc (u "cim") m) as [ns|] eqn:Ens; [|exfalso; revert E; clear; by vm_compute].
      exists ns. split; [done|]. rewrite <- strip_with_hash. simpl in E. by rewrite E. }
    rewrite (C23_cim14 fuel pf src sd h m Hx Hd). destruct Hd as (ns & Hns & Hh). unfold detected_ns. rewrite Hns. simpl default. rewrite Hh.
    by rewrite <- (assoc_L (++)).
  - exists cim15, cim15_map. split; [right; left|]. apply C23_cim15; [done|].
    intros (ns & Hns & Hh). destruct E. rewrite Hns. simpl. rewrite <- strip_with_hash in Hh. by apply (proj1 (hash_inj _ _)) in Hh.
Qed.
Lemma hash_brace s : 125%N ∉ s → 125%N ∉ with_hash s.
Proof. intros Hs. unfold with_hash. case_bool_decide; [done|]. intros [?|[?|?%elem_of_nil]%elem_of_cons]%elem_of_app; done. Qed.

(** Without arguments, elements count when their namespace is what prefix cim
    is bound to, extended by # if there is none at its end.  If there is no such
    element, nothing is read and nothing is reported by an exception. *)
Theorem C71_default fuel pf src sd h m e : xmlns src = inl m → s_error src = false → has_elem (s_events src) e →
  125%N ∉ default [] (assoc (u "cim") m) →
  (∀ e, has_elem (s_events src) e → ∃ uri, elem_ns e uri ∧ uri ≠ detected_ns m) →
  cimread fuel pf cim14_uri (cim14, cim14_map) (cim15, cim15_map) src None None sd h = (None, default [] sd, h).
Proof.
  intros Hx Herr He Hb Ho. destruct (default_read fuel pf src sd h m Hx) as (t & pm & _ & ->).
  apply (read_outside _ _ _ _ _ _ _ _ _ e); [done..|]. intros e' (uri & Hu & Hne)%Ho. apply (other_ns _ uri); [|done..].
  by apply hash_brace.
Qed.
Print Assumptions C71_default.
(** So a document whose CIM namespace does not end in # is read as empty. *)
Theorem C71_no_hash fuel pf src sd h m e ns : xmlns src = inl m → s_error src = false → has_elem (s_events src) e →
  assoc (u "cim") m = Some ns → 125%N ∉ ns → last ns ≠ Some 35%N →
  (∀ e, has_elem (s_events src) e → ∃ uri, elem_ns e uri ∧ (uri = ns ∨ uri ≠ ns ++ u "#")) →
  cimread fuel pf cim14_uri (cim14, cim14_map) (cim15, cim15_map) src None None sd h = (None, default [] sd, h).
Proof.
  intros Hx Herr He Hns Hb Hl Ho. apply (C71_default _ _ _ _ _ m e); [done..|by rewrite Hns|].
  intros e' (uri & Hu & Hne)%Ho. exists uri. split; [done|]. unfold detected_ns. rewrite Hns. simpl default.
  unfold with_hash. rewrite bool_decide_eq_false_2 by done. destruct Hne as [->|?]; [|done].
  intros E. apply (f_equal length) in E. rewrite app_length in E. simpl in E. lia.
Qed.
Print Assumptions C71_no_hash.
(** With arguments # is always added, so nsURI must not end in it. *)
Theorem C71_given fuel pf src sd h m e t pm ns t14 t15 : xmlns src = inl m → s_error src = false → has_elem (s_events src) e →
  pm ≠ [] → ns ≠ [] → 125%N ∉ ns →
  (∀ e, has_elem (s_events src) e → ∃ uri, elem_ns e uri ∧ uri ≠ ns ++ u "#") →
  cimread fuel pf cim14_uri t14 t15 src (Some (t, pm)) (Some ns) sd h = (None, default [] sd, h).
Proof.
  intros Hx Herr He Hp Hn Hb Ho. rewrite (C23_given fuel pf src sd h m t pm ns t14 t15 Hx Hp Hn).
  apply (read_outside _ _ _ _ _ _ _ _ _ e); [done..|]. intros e' (uri & Hu & Hne)%Ho.
  change (u "{" ++ ns ++ u "#}") with (u "{" ++ ns ++ u "#" ++ u "}"). rewrite (assoc_L (++) ns). apply (other_ns _ uri); [|done..].
  set_solver.
Qed.
Print Assumptions C71_given.
(** A terminal in the namespace http://iec.ch/TC57/2010/CIM-schema-cim15, as
    bound to prefix cim. *)
Definition e_rdf : elem := Elem (u "{" ++ R ++ u "}RDF") [] None true.
Definition e_term : elem := Elem (u "{http://iec.ch/TC57/2010/CIM-schema-cim15}Terminal") [(rdf_key R "ID", u "t1")] None false.
Definition src_nohash : source := Source
  [ENs (u "rdf") R; ENs (u "cim") (u "http://iec.ch/TC57/2010/CIM-schema-cim15"); EStart e_rdf; EStart e_term; EEnd e_term; EEnd e_rdf] false.
Lemma no_brace s : existsb (N.eqb 125) s = false → 125%N ∉ s.
Proof.
  intros H Hin. assert (existsb (N.eqb 125) s = true); [|congruence]. apply existsb_exists. exists 125%N. split; [by apply elem_of_list_In|done].
Qed.
Example C71_example :
  xmlns src_nohash = inl [(u "rdf", R); (u "cim", u "http://iec.ch/TC57/2010/CIM-schema-cim15")] ∧
  has_elem (s_events src_nohash) e_term ∧ elem_ns e_term (u "http://iec.ch/TC57/2010/CIM-schema-cim15") ∧
  elem_ns e_rdf R ∧ (∀ e, has_elem (s_events src_nohash) e → e = e_term ∨ e = e_rdf) ∧ R ≠ u "http://iec.ch/TC57/2010/CIM-schema-cim15#".
Proof.
  split; [compute_now|]. split; [left; do 3 right; left|]. split; [split; [apply no_brace; compute_now|by exists (u "Terminal")]|].
  split; [split; [apply no_brace; compute_now|by exists (u "RDF")]|]. split.
  - intros e [H|H]; repeat (apply elem_of_cons in H as [H|H]; [first [discriminate H|injection H as ->; by auto]|]); by apply elem_of_nil in H.
  - by vm_compute.
Qed.

(** *** C72: text in the element of a reference *)
Lemma evaluates_found t h o a w : evaluates h (getattr t (VRef o) a h) (Some w) →
  ∃ v, find_attr t o a h = Found v ∧ match w with OV v' => v = v' | OL xs => ∃ l, v = VList l ∧ h_lists h !! l = Some xs end.
Proof.
  intros He. destruct w as [v|xs]; cbn [evaluates] in He.
  - exists v. split; [|done]. apply (find_attr_found t). by rewrite He.
  - destruct He as (l & He & Hl). exists (VList l). split; [|by exists l]. apply (find_attr_found t). by rewrite He.
Qed.
Lemma text_step t pm base rdf fuel pf err root pre e rest d h o d' hk a text cur :
  Reaches base rdf t pm fuel pf err root pre (EEnd e :: rest) d h (Some (VRef o)) d' hk →
  attribute_elem base rdf e a text → find_attr t o a hk = Found cur →
  match swallow_type (let* v := convert t fuel pf cur text in setattr t fuel (VRef o) a v) hk with
  | (inl _, h') => Reaches base rdf t pm fuel pf err root (pre ++ [EEnd e]) rest d h (Some (VRef o)) d' h'
  | (inr x, h') => reads base rdf t pm fuel pf err root (pre ++ EEnd e :: rest) d h = (Some x, d', h')
  end.
Proof.
  intros HR He Hf.
  pose proof (property_step base rdf t fuel pf d' o e a hk (proj1 He)) as E.
  rewrite (attribute_set base rdf t fuel pf d' o e a text hk He) in E. unfold set_text in E. rewrite Hf in E.
  destruct (swallow_type _ hk) as [[[]|x] h'].
  - eapply (Reaches_step base rdf); [exact HR|exact E].
  - eapply (Reaches_raise base rdf); [exact HR|exact E].
Qed.
(** A property that is None: the text is ignored. *)
Theorem C72_unset t pm base rdf fuel pf err root pre e rest d h o d' hk a text :
  Reaches base rdf t pm fuel pf err root pre (EEnd e :: rest) d h (Some (VRef o)) d' hk →
  attribute_elem base rdf e a text → evaluates hk (getattr t (VRef o) a hk) (Some (OV VNone)) →
  Reaches base rdf t pm fuel pf err root (pre ++ [EEnd e]) rest d h (Some (VRef o)) d' hk.
Proof.
  intros HR He (v & Hf & ->)%evaluates_found. by apply (text_step _ _ _ _ _ _ _ _ _ _ _ _ _ _ _ _ _ _ _ HR He Hf).
Qed.
Print Assumptions C72_unset.
(** A collection and no text. *)
Theorem C72_no_text t pm base rdf fuel pf err root pre e rest d h o d' hk a xs :
  Reaches base rdf t pm fuel pf err root pre (EEnd e :: rest) d h (Some (VRef o)) d' hk →
  attribute_elem base rdf e a None → evaluates hk (getattr t (VRef o) a hk) (Some (OL xs)) →
  Reaches base rdf t pm fuel pf err root (pre ++ [EEnd e]) rest d h (Some (VRef o)) d' hk.
Proof.
  intros HR He (v & Hf & l & -> & _)%evaluates_found. by apply (text_step _ _ _ _ _ _ _ _ _ _ _ _ _ _ _ _ _ _ _ HR He Hf).
Qed.
Print Assumptions C72_no_text.

Lemma list_slot h o k xs : view h o k = Some (OL xs) → ∃ l, slot h o k = Some (VList l) ∧ h_lists h !! l = Some xs.
Proof.
  unfold view. destruct (slot h o k) as [v|]; [|done]. simpl. destruct v; try done.
  destruct (h_lists h !! l) as [ys|] eqn:E; [|done]. intros [= ->]. eauto.
Qed.
Ltac fwd E := rewrite (bind_inl _ _ _ _ _ E).
(** The collection of a one-to-many association and some text: the members are
    detached, then the read fails. *)
Theorem C72_one_many t pm base rdf f pf err root pre e rest d h o d' hk a c s p' xs :
  Reaches base rdf t pm (S (S (S f))) pf err root pre (EEnd e :: rest) d h (Some (VRef o)) d' hk →
  attribute_elem base rdf e a (Some (c :: s)) → Consistent t hk →
  pkind t hk o a = Some (PManyOne p') → view hk o (Priv a) = Some (OL xs) →
  ∃ h', reads base rdf t pm (S (S (S f))) pf err root (pre ++ EEnd e :: rest) d h = (Some AttributeError, d', h') ∧
    same_classes hk h' ∧ Consistent t h' ∧ view h' o (Priv a) = Some (OL []) ∧
    (∀ z pz, VRef z ∈ xs → ends_one_many (pkind t hk) z pz o a → view h' z (Priv pz) = Some (OV VNone)) ∧
    (∀ o' k, (o', k) ≠ (o, Priv a) →
       (∀ pz, k = Priv pz → VRef o' ∈ xs → ¬ ends_one_many (pkind t hk) o' pz o a) → view h' o' k = view hk o' k).
Proof.
  intros HR He HC Hk Hv. destruct (list_slot _ _ _ _ Hv) as (l & Hs & Hl).
  set (h1 := lset (fresh_list hk) (map (λ c, VStr [c]) (c :: s)) hk).
  destruct (new_list_Frame hk (map (λ c, VStr [c]) (c :: s))) as (HF1 & Hlo1 & HV1); [apply HC|]. fold h1 in HF1, Hlo1, HV1.
  assert (∀ o r, pkind t h1 o r = pkind t hk o r) as HK by (intros; by apply Frame_pkind).
  assert (Consistent t h1) as HC1.
  { split; [by eapply Frame_wf|]. destruct HC as [_ HL]. revert HL. clear -HK HV1. intros [L1 L2 L3 L4]. unfold ends_one_many, ends_one_one, ends_many_many, resolves in *.
    split; setoid_rewrite HK; setoid_rewrite HV1; done. }
  destruct (detach_all t f o a p' xs h1 HC1) as (h2 & E2 & HF2 & HC2 & Hv2 & Hm2 & Hfr2); [by rewrite HK|by rewrite HV1|].
  assert (h_lists h2 !! fresh_list hk = Some (map (λ c, VStr [c]) (c :: s))) as Hl2.
  { destruct HF2 as (_ & _ & HKp). apply HKp; [|done]. unfold h1. by rewrite lists_lset. }
  exists h2.
  assert (find_attr t o a hk = Found (VList l)) as Hfo.
  { apply (find_attr_found t). unfold getattr. rewrite obj_prop_pkind, Hk. unfold read_key. by rewrite Hs. }
  pose proof (text_step _ _ _ _ _ _ _ _ _ _ _ _ _ _ _ _ _ _ _ HR He Hfo) as HT.
  assert (setattr t (S (S (S f))) (VRef o) a (VList (fresh_list hk)) h1 = (inr AttributeError, h2)) as Eset.
  { assert (slot h1 o (Priv a) = Some (VList l)) as Hs1 by (unfold h1; by rewrite slot_lset).
    assert (h_lists h1 !! l = Some xs) as Hl1.
    { destruct (list_slot h1 o (Priv a) xs) as (l' & Hs' & Hl'); [by rewrite HV1|]. rewrite Hs1 in Hs'. by injection Hs' as <-. }
    cbn [setattr]. rewrite obj_prop_pkind, HK, Hk.
    assert (read_key (VRef o) (Priv a) h1 = (inl (VList l), h1)) as R1 by (unfold read_key; by rewrite Hs1).
    fwd R1. assert (iter_val (VList l) h1 = (inl xs, h1)) as R2 by (unfold iter_val; by rewrite Hl1). fwd R2. fwd E2.
    assert (iter_val (VList (fresh_list hk)) h2 = (inl (map (λ c, VStr [c]) (c :: s)), h2)) as R3 by (unfold iter_val; by rewrite Hl2).
    fwd R3. cbn [map for_each]. done. }
  unfold swallow_type in HT. assert (convert t (S (S (S f))) pf (VList l) (Some (c :: s)) hk = (inl (VList (fresh_list hk)), h1)) as Ec by done.
  rewrite (bind_inl _ _ _ _ _ Ec) in HT. rewrite Eset in HT. split; [exact HT|].
  split. { intros o'. transitivity (cls_of h1 o'); [by apply (Frame_cls h1)|by apply (Frame_cls hk)]. }
  split; [done|]. split; [done|]. split.
  - intros z pz Hz Hen. apply Hm2; [done|]. revert Hen. unfold ends_one_many, resolves. by setoid_rewrite HK.
  - intros o' k Hne Hn. rewrite Hfr2; [apply HV1|done|]. intros pz Ek Hz Hen. apply (Hn pz Ek Hz). revert Hen.
    unfold ends_one_many, resolves. by setoid_rewrite HK.
Qed.
Print Assumptions C72_one_many.
(** The collection of a many-to-many association and some text: the read fails
    and nothing has changed. *)
Theorem C72_many_many t pm base rdf f pf err root pre e rest d h o d' hk a c s q xs :
  Reaches base rdf t pm (S f) pf err root pre (EEnd e :: rest) d h (Some (VRef o)) d' hk →
  attribute_elem base rdf e a (Some (c :: s)) → Consistent t hk →
  pkind t hk o a = Some (PManyMany q) → view hk o (Priv a) = Some (OL xs) →
  ∃ h', reads base rdf t pm (S f) pf err root (pre ++ EEnd e :: rest) d h = (Some AttributeError, d', h') ∧
    same_classes hk h' ∧ ∀ o' k, view h' o' k = view hk o' k.
Proof.
  intros HR He HC Hk Hv. destruct (list_slot _ _ _ _ Hv) as (l & Hs & Hl).
  set (h1 := lset (fresh_list hk) (map (λ c, VStr [c]) (c :: s)) hk).
  destruct (new_list_Frame hk (map (λ c, VStr [c]) (c :: s))) as (HF1 & Hlo1 & HV1); [apply HC|]. fold h1 in HF1, Hlo1, HV1.
  assert (∀ o r, pkind t h1 o r = pkind t hk o r) as HK by (intros; by apply Frame_pkind).
  assert (slot h1 o (Priv a) = Some (VList l)) as Hs1 by (unfold h1; by rewrite slot_lset).
  assert (h_lists h1 !! l = Some xs) as Hl1.
  { destruct (list_slot h1 o (Priv a) xs) as (l' & Hs' & Hl'); [by rewrite HV1|]. rewrite Hs1 in Hs'. by injection Hs' as <-. }
  assert (∃ h2, setattr t (S f) (VRef o) a (VList (fresh_list hk)) h1 = (inr AttributeError, h2) ∧ same_classes h1 h2 ∧
    ∀ o' k, view h2 o' k = view h1 o' k) as (h2 & Eset & Hsc & HV2).
  { cbn [setattr]. rewrite obj_prop_pkind, HK, Hk.
    assert (read_key (VRef o) (Priv a) h1 = (inl (VList l), h1)) as R1 by (unfold read_key; by rewrite Hs1).
    fwd R1. assert (iter_val (VList l) h1 = (inl xs, h1)) as R2 by (unfold iter_val; by rewrite Hl1). fwd R2.
    destruct xs as [|x xs].
    - cbn [for_each]. assert (ret tt h1 = (inl tt, h1)) as R3 by done. fwd R3.
      exists h1. split; [|done]. apply bind_inr. unfold live_each, h1. rewrite lists_lset. cbn [map length live_from].
      rewrite lists_lset. done.
    - pose proof HC as [Hwf HL]. destruct (lk_many_many _ _ HL _ _ _ _ Hk Hv) as (? & [= <-] & Hm).
      destruct (Hm x) as (y & zs & -> & [_ Hky] & Hvy & _); [left|]. rewrite <- HV1 in Hvy. destruct (list_slot _ _ _ _ Hvy) as (ly & Hsy & Hly).
      assert (getattr t (VRef y) q h1 = (inl (VList ly), h1)) as R3.
      { unfold getattr. rewrite obj_prop_pkind, HK, Hky. unfold read_key. by rewrite Hsy. }
      assert (iter_val (VList ly) h1 = (inl zs, h1)) as R4 by (unfold iter_val; by rewrite Hly).
      destruct (new_list_Frame h1 (without (VRef o) zs)) as (HF2 & _ & HV2); [by eapply Frame_wf|].
      set (h2 := lset (fresh_list h1) (without (VRef o) zs) h1) in *.
      assert (slot h2 o (Priv a) = Some (VList l)) as Hs2 by (unfold h2; by rewrite slot_lset).
      exists h2. split; [|split; [intros ?; by apply (Frame_cls h1)|done]].
      cbn [for_each]. apply bind_inr, bind_inr. fwd R3. fwd R4.
      assert (new_list (without (VRef o) zs) h1 = (inl (VList (fresh_list h1)), h2)) as R5 by done. fwd R5.
      assert (read_key (VRef o) (Priv a) h2 = (inl (VList l), h2)) as R6 by (unfold read_key; by rewrite Hs2). by fwd R6. }
  assert (find_attr t o a hk = Found (VList l)) as Hfo.
  { apply (find_attr_found t). unfold getattr. rewrite obj_prop_pkind, Hk. unfold read_key. by rewrite Hs. }
  pose proof (text_step _ _ _ _ _ _ _ _ _ _ _ _ _ _ _ _ _ _ _ HR He Hfo) as HT.
  exists h2. unfold swallow_type in HT. assert (convert t (S f) pf (VList l) (Some (c :: s)) hk = (inl (VList (fresh_list hk)), h1)) as Ec by done.
  rewrite (bind_inl _ _ _ _ _ Ec) in HT. rewrite Eset in HT. split; [exact HT|]. split.
  - intros o'. rewrite Hsc. by apply (Frame_cls hk).
  - intros o' k. by rewrite HV2, HV1.
Qed.
Print Assumptions C72_many_many.

(** A reference that is set: the text becomes the first argument of a new
    object of the same class, unless the constructor refuses it. *)
Section slot_kept.
Context (t : schema) (o : nat) (k : key) (v : val).
Definition holds (h : heap) : Prop := slot h o k = Some v.
Definition elsewhere (o' : nat) (k' : key) : Prop := (o', k') ≠ (o, k).
Lemma holds_write o' k' w h : holds h → elsewhere o' k' → holds (hset o' k' w h).
Proof. unfold holds, elsewhere. intros Hh Hne. rewrite slot_hset_ne; [done|]. congruence. Qed.
Lemma holds_list l xs h : holds h → holds (lset l xs h).
Proof. unfold holds. by rewrite slot_lset. Qed.
End slot_kept.
Lemma set_one_many_slot t f o a q w y h r h' : setattr t (S f) (VRef o) a w h = (r, h') →
  pkind t h o a = Some (POneMany q) → slot h o (Priv a) = Some (VRef y) → (y, q) ≠ (o, a) →
  slot h' o (Priv a) = Some (VRef y) ∨ slot h' o (Priv a) = Some w.
Proof.
  intros E Hk Hs Hne. cbn [setattr] in E. rewrite obj_prop_pkind, Hk in E.
  assert (read_key (VRef o) (Priv a) h = (inl (VRef y), h)) as R1 by (unfold read_key; by rewrite Hs).
  rewrite (bind_inl _ _ _ _ _ R1) in E. rewrite decide_False in E by done.
  set (upto := bind (getattr t (VRef o) a) _) in E.
  assert (pres (holds o (Priv a) (VRef y)) upto) as Hup.
  { subst upto. pose proof (holds_write o (Priv a) (VRef y)) as HW. pose proof (holds_list o (Priv a) (VRef y)) as HL.
    do 4 (apply pres_bind; [first [by apply pres_getattr|by apply pres_iter|by eapply pres_new_list]|intros ?]).
    eapply pres_write; [exact (λ o' k' w h, HW o' k' w h)|]. intros o' [= <-]. unfold elsewhere. congruence. }
  specialize (Hup h Hs). destruct (upto h) as [[[]|x] h1] eqn:Eu; cbn [snd] in Hup.
  2: { rewrite (bind_inr _ _ _ _ _ Eu) in E. injection E as <- <-. by left. }
  rewrite (bind_inl _ _ _ _ _ Eu) in E. unfold holds in Hup. destruct (slot_cls _ _ _ _ Hup) as [ck Hc].
  assert (write_key (VRef o) (Priv a) w h1 = (inl tt, hset o (Priv a) w h1)) as R2.
  { apply write_key_ok. by eauto. }
  rewrite (bind_inl _ _ _ _ _ R2) in E. right.
  match type of E with ?m _ = _ => assert (pres (holds o (Priv a) w) m) as HP end.
  { pose proof (holds_list o (Priv a) w) as HL. apply pres_bind; [by apply pres_read|intros now]. case_decide; [by apply pres_ret|].
    apply pres_bind; [by apply pres_read|intros lst]. apply pres_bind; [by apply pres_contains|intros []]; [by apply pres_ret|].
    by eapply pres_append. }
  specialize (HP (hset o (Priv a) w h1)). rewrite E in HP. apply HP. unfold holds. apply slot_hset. by eauto.
Qed.
Lemma set_keeps_class t f v p w h r h' n ck : setattr t f v p w h = (r, h') → cls_of h n = Some ck → cls_of h' n = Some ck.
Proof.
  intros E Hc. assert (pres (λ h, cls_of h n = Some ck) (setattr t f v p w)) as HP.
  { apply (pres_setattr t (λ h, cls_of h n = Some ck) (λ _ _, True)); try done. intros o k x h2 H2 _. by rewrite cls_hset. }
  specialize (HP h Hc). by rewrite E in HP.
Qed.
Theorem C72_single t pm base rdf f pf err root pre e rest d h o d' hk a text q y ck : (t, pm) ∈ tables →
  Reaches base rdf t pm (S f) pf err root pre (EEnd e :: rest) d h (Some (VRef o)) d' hk →
  attribute_elem base rdf e a text → Consistent t hk →
  pkind t hk o a = Some (POneMany q) → view hk o (Priv a) = Some (OV (VRef y)) → cls_of hk y = Some ck →
  (∃ x h', reads base rdf t pm (S f) pf err root (pre ++ EEnd e :: rest) d h = (Some x, d', h')) ∨
  ∃ h', Reaches base rdf t pm (S f) pf err root (pre ++ [EEnd e]) rest d h (Some (VRef o)) d' h' ∧
    (view h' o (Priv a) = Some (OV (VRef y)) ∨
     ∃ n, cls_of hk n = None ∧ cls_of h' n = Some ck ∧ view h' o (Priv a) = Some (OV (VRef n))).
Proof.
  intros Ht HR He HC Hk Hv Hc. pose proof (view_val _ _ _ _ Hv) as Hs.
  assert (find_attr t o a hk = Found (VRef y)) as Hfo.
  { apply (find_attr_found t). unfold getattr. rewrite obj_prop_pkind, Hk. unfold read_key. by rewrite Hs. }
  pose proof (text_step _ _ _ _ _ _ _ _ _ _ _ _ _ _ _ _ _ _ _ HR He Hfo) as HT.
  assert (∀ h' v, slot h' o (Priv a) = Some (VRef v) → view h' o (Priv a) = Some (OV (VRef v))) as Hsv.
  { intros h' v E. unfold view. by rewrite E. }
  assert (is_Some (cls_of hk o)) as Ho by (by eapply slot_cls).
  set (arg := match text with Some s => VStr s | None => VNone end).
  assert (convert t (S f) pf (VRef y) text hk = construct t (S f) ck [arg] [] hk) as Ec.
  { unfold convert. rewrite Hc. by destruct text. }
  assert (closed_region hk (λ _, False)) as Hcl by (by intros ???).
  destruct (safe_construct hk (λ _, False) t (S f) ck [arg] [] (tables_plain t pm Ht ck)) with (h := hk) as [HI _].
  { repeat constructor. by destruct text. } { constructor. } { by apply Inv_start. }
  assert (∀ h1 r, construct t (S f) ck [arg] [] hk = (r, h1) → cls_of h1 o = cls_of hk o ∧ slot h1 o (Priv a) = Some (VRef y)) as Hkeep.
  { intros h1 r E. rewrite E in HI. destruct (Inv_view hk (λ _, False) (proj1 HC) h1 o (Priv a) HI Ho) as [H1 H2]; [exact (λ F, F)|].
    split; [done|]. rewrite Hv in H2. by apply view_val. }
  unfold swallow_type in HT. unfold bind in HT. rewrite Ec in HT. destruct (construct t (S f) ck [arg] [] hk) as [[v|x] h1] eqn:Econ.
  - destruct (Hkeep h1 _ eq_refl) as [Hc1 Hs1].
    assert (∃ n, v = VRef n ∧ cls_of hk n = None ∧ cls_of h1 n = Some ck) as (n & -> & Hn & Hcn).
    { pose proof Econ as Econ'. unfold construct in Econ'. destruct (find_cls t ck) as [c0|] eqn:Ef; [|done].
      apply bind_inv in Econ' as ([] & h2 & _ & Er). unfold ret in Er. injection Er as <- <-. exists (fresh_obj hk).
      split; [done|]. split; [apply fresh_obj_cls|]. by apply (construct_classes t (S f) ck [arg] [] hk _ h2 c0 Ef Econ). }
    assert ((y, q) ≠ (o, a)) as Hne.
    { destruct (lk_single _ _ (proj2 HC) _ _ _ _ Hk Hv) as [?|(t' & ys & [= <-] & (_ & p' & Hk' & _) & _)]; [done|].
      intros [= -> ->]. congruence. }
    destruct (setattr t (S f) (VRef o) a (VRef n) h1) as [[[]|x] h2] eqn:Eset.
    + right. exists h2. split; [exact HT|]. destruct (set_one_many_slot t f o a q (VRef n) y h1 _ h2 Eset) as [?|?]; try done.
      * unfold pkind. by rewrite Hc1.
      * left. by apply Hsv.
      * right. exists n. split; [done|]. split; [|by apply Hsv]. by apply (set_keeps_class t (S f) (VRef o) a (VRef n) h1 _ h2 n ck Eset).
    + assert (slot h2 o (Priv a) = Some (VRef y) ∨ slot h2 o (Priv a) = Some (VRef n)) as Hor.
      { eapply set_one_many_slot; [exact Eset| |done|done]. unfold pkind. by rewrite Hc1. }
      destruct x; try (left; by eexists _, _). right. exists h2. split; [exact HT|].
      destruct Hor as [?|?]; [left; by apply Hsv|right]. exists n. split; [done|].
      split; [|by apply Hsv]. by apply (set_keeps_class t (S f) (VRef o) a (VRef n) h1 _ h2 n ck Eset).
  - destruct (Hkeep h1 _ eq_refl) as [Hc1 Hs1]. destruct x; try (left; by eexists _, _).
    right. exists h1. split; [exact HT|]. left. by apply Hsv.
Qed.
Print Assumptions C72_single.
(** An energy consumer with a load response, and the text [x] for it. *)
Definition single_doc : list event :=
  flat Bb [obj "LoadResponseCharacteristic" "l1" [];
           obj "EnergyConsumer" "e1" [ref "EnergyConsumer.LoadResponse" "#l1"; att "EnergyConsumer.LoadResponse" "x"]] ++ [EEnd root].
(** The consumer loses its load response to an object that is not in the
    result. *)
Theorem C72_ignored_refuted :
  let '(x, d', h') := reads Bb R bal bal_map 20 pf_demo false root single_doc [] heap_empty in
  x = None ∧ d' = [(u "l1", VRef 0); (u "e1", VRef 1)] ∧
  view h' 1 (Priv n_LoadResponse) = Some (OV (VRef 2)) ∧ view h' 0 (Priv n_EnergyConsumer) = Some (OL []) ∧
  view h' 2 (Pub (u "pFrequencyExponent")) = Some (OV (VStr (u "x"))).
Proof. vm_compute. by split_and!. Qed.
Print Assumptions C72_ignored_refuted.
Definition coll_doc : list event :=
  flat Bt [obj "TopologicalNode" "n1" [ref "TopologicalNode.Terminal" "#t1"; att "TopologicalNode.Terminal" "x"];
           obj "Terminal" "t1" []] ++ [EEnd root].
Definition many_doc : list event :=
  flat Bb [obj "TransformerEnd" "e1" [ref "TransformerEnd.ToMeshImpedance" "#m1"];
           obj "TransformerMeshImpedance" "m1" [att "TransformerMeshImpedance.ToTransformerEnd" "x"]] ++ [EEnd root].
Example C72_example :
  (single_doc = take 6 single_doc ++ EEnd (pel_elem Bb (att "EnergyConsumer.LoadResponse" "x")) :: drop 7 single_doc ∧
   attribute_elem Bb R (pel_elem Bb (att "EnergyConsumer.LoadResponse" "x")) n_LoadResponse (Some (u "x")) ∧
   ∃ cur d' hk, Reaches Bb R bal bal_map 20 pf_demo false root (take 6 single_doc) (drop 6 single_doc) [] heap_empty cur d' hk ∧
     cur = Some (VRef 1) ∧ Consistent bal hk ∧ pkind bal hk 1 n_LoadResponse = Some (POneMany n_EnergyConsumer) ∧
     view hk 1 (Priv n_LoadResponse) = Some (OV (VRef 0)) ∧
     cls_of hk 0 = Some n_CIM15_CDPSM_Balanced_IEC61970_LoadModel_LoadResponseCharacteristic_LoadResponseCharacteristic) ∧
  (coll_doc = take 4 coll_doc ++ EEnd (pel_elem Bt (att "TopologicalNode.Terminal" "x")) :: drop 5 coll_doc ∧
   attribute_elem Bt R (pel_elem Bt (att "TopologicalNode.Terminal" "x")) n_Terminal (Some (u "x")) ∧
   ∃ cur d' hk, Reaches Bt R topo topo_map 20 pf_demo false root (take 4 coll_doc) (drop 4 coll_doc) [] heap_empty cur d' hk ∧
     cur = Some (VRef 0) ∧ Consistent topo hk ∧ pkind topo hk 0 n_Terminal = Some (PManyOne n_TopologicalNode) ∧
     view hk 0 (Priv n_Terminal) = Some (OL [VRef 1])) ∧
  (many_doc = take 6 many_doc ++ EEnd (pel_elem Bb (att "TransformerMeshImpedance.ToTransformerEnd" "x")) :: drop 7 many_doc ∧
   attribute_elem Bb R (pel_elem Bb (att "TransformerMeshImpedance.ToTransformerEnd" "x")) n_ToTransformerEnd (Some (u "x")) ∧
   ∃ cur d' hk, Reaches Bb R bal bal_map 20 pf_demo false root (take 6 many_doc) (drop 6 many_doc) [] heap_empty cur d' hk ∧
     cur = Some (VRef 1) ∧ Consistent bal hk ∧ pkind bal hk 1 n_ToTransformerEnd = Some (PManyMany n_ToMeshImpedance) ∧
     view hk 1 (Priv n_ToTransformerEnd) = Some (OL [VRef 0])).
Proof.
  split; [|split]; (split; [compute_now|]; split; [repeat split; compute_now|]).
  - destruct (reach_ex bal bal_map Bb 6 single_doc [] heap_empty (λ cur d' hk, bool_decide (cur = Some (VRef 1)) && inv_b bal hk &&
      bool_decide (pkind bal hk 1 n_LoadResponse = Some (POneMany n_EnergyConsumer)) && view_is hk 1 (Priv n_LoadResponse) (OV (VRef 0)) &&
      bool_decide (cls_of hk 0 = Some n_CIM15_CDPSM_Balanced_IEC61970_LoadModel_LoadResponseCharacteristic_LoadResponseCharacteristic)))
      as (cur & d' & hk & HR & HP); [compute_now|].
    rewrite !andb_true_iff, !bool_decide_eq_true in HP. destruct HP as [[[[? [? _]%inv_b_ok] ?] ?%view_is_ok] ?].
    exists cur, d', hk. split; [exact HR|]. repeat (split; [assumption|]). assumption.
  - destruct (reach_ex topo topo_map Bt 4 coll_doc [] heap_empty (λ cur d' hk, bool_decide (cur = Some (VRef 0)) && inv_b topo hk &&
      bool_decide (pkind topo hk 0 n_Terminal = Some (PManyOne n_TopologicalNode)) && view_is hk 0 (Priv n_Terminal) (OL [VRef 1])))
      as (cur & d' & hk & HR & HP); [compute_now|].
    rewrite !andb_true_iff, !bool_decide_eq_true in HP. destruct HP as [[[? [? _]%inv_b_ok] ?] ?%view_is_ok].
    exists cur, d', hk. split; [exact HR|]. repeat (split; [assumption|]). assumption.
  - destruct (reach_ex bal bal_map Bb 6 many_doc [] heap_empty (λ cur d' hk, bool_decide (cur = Some (VRef 1)) && inv_b bal hk &&
      bool_decide (pkind bal hk 1 n_ToTransformerEnd = Some (PManyMany n_ToMeshImpedance)) && view_is hk 1 (Priv n_ToTransformerEnd) (OL [VRef 0])))
      as (cur & d' & hk & HR & HP); [compute_now|].
    rewrite !andb_true_iff, !bool_decide_eq_true in HP. destruct HP as [[[? [? _]%inv_b_ok] ?] ?%view_is_ok].
    exists cur, d', hk. split; [exact HR|]. repeat (split; [assumption|]). assumption.
Qed.

(** *** C73: documents that are not well formed *)
Lemma pass1_failing t pm fuel base rdf evs : ∀ c d h, pass1 t pm fuel base rdf true evs c d h =
  match pass1 t pm fuel base rdf false evs c d h with (None, d', h') => (Some ParseError, d', h') | r => r end.
Proof.
  induction evs as [|ev evs IH]; intros c d h; [done|]. destruct ev as [e|e|p v]; cbn [pass1]; [..|apply IH];
    (destruct (pass1_step _ _ _ _ _ _ _ _ _) as [[d'|x] h']; [apply IH|done]).
Qed.
Lemma pass1_raises t pm fuel base rdf evs c d h : fst (fst (pass1 t pm fuel base rdf true evs c d h)) ≠ None.
Proof. rewrite pass1_failing. by destruct (pass1 _ _ _ _ _ _ _ _ _ _) as [[[x|] d'] h']. Qed.
(** Always an exception, whatever the arguments. *)
Theorem C73_raises fuel pf uri14 t14 t15 src pm ns sd h : s_error src = true →
  fst (fst (cimread fuel pf uri14 t14 t15 src pm ns sd h)) ≠ None.
Proof.
  intros He. assert (∀ t pm base rdf d, fst (fst (read t pm fuel pf base rdf src d h)) ≠ None) as Hr.
  { intros t pm0 base rdf d. unfold read. destruct (skip_root _) as [evs|]; [|done]. rewrite He.
    pose proof (pass1_raises t pm0 fuel base rdf evs false d h) as Hx. by destruct (pass1 _ _ _ _ _ _ _ _ _ _) as [[[x|] d'] h']. }
  unfold cimread. destruct (xmlns src) as [m|x]; [|done]. cbv beta zeta. destruct (negb _); [done|].
  destruct ns as [n|], pm as [[t pm]|]; try done. destruct (get_cim_ns uri14 m) as [n b]. destruct b; [destruct t14|destruct t15]; apply Hr.
Qed.
Print Assumptions C73_raises.

(** The heap after the first pass does not depend on the dictionary. *)
Lemma pass1_dict t pm fuel base rdf err evs : ∀ c d d2 h,
  fst (fst (pass1 t pm fuel base rdf err evs c d h)) = fst (fst (pass1 t pm fuel base rdf err evs c d2 h)) ∧
  snd (pass1 t pm fuel base rdf err evs c d h) = snd (pass1 t pm fuel base rdf err evs c d2 h).
Proof.
  induction evs as [|ev evs IH]; intros c d d2 h; [done|].
  destruct ev as [e|e|p v]; cbn [pass1 pass1_step]; [apply IH| |apply IH].
  destruct (in_base base e); [|apply IH]. destruct (uuid_of _ _) as [id|]; [|apply IH]. destruct (assoc _ pm) as [k|]; [|apply IH].
  unfold bind. destruct (construct _ _ _ _ _ _) as [[o|x] h']; [apply IH|done].
Qed.
Lemma pass1_unchanged t pm base rdf fuel err evs c d h o k : (t, pm) ∈ tables → Wf h → is_Some (cls_of h o) →
  let h' := snd (pass1 t pm fuel base rdf err evs c d h) in cls_of h' o = cls_of h o ∧ view h' o k = view h o k.
Proof.
  intros Ht Hwf Ho. assert (closed_region h (λ _, False)) as Hcl by (by intros ???).
  destruct (pass1_dict t pm fuel base rdf err evs c d [] h) as [_ ->]. apply (Inv_view h (λ _, False) Hwf); [|done|exact (λ F, F)].
  apply (Inv_pass1 h (λ _, False) t (tables_plain t pm Ht) pm fuel base rdf err evs c [] h); [by apply Inv_start|constructor].
Qed.
(** The objects that existed before are as they were, even those of
    start_dict. *)
Theorem C73_unchanged fuel pf src pm ns sd h o k : s_error src = true →
  match pm with Some m => m ∈ tables | None => True end → Wf h → is_Some (cls_of h o) →
  let h' := snd (cimread fuel pf cim14_uri (cim14, cim14_map) (cim15, cim15_map) src pm ns sd h) in
  cls_of h' o = cls_of h o ∧ view h' o k = view h o k.
Proof.
  intros He Hpm Hwf Ho.
  assert (∀ t pm base rdf d, (t, pm) ∈ tables → let h' := snd (read t pm fuel pf base rdf src d h) in
    cls_of h' o = cls_of h o ∧ view h' o k = view h o k) as Hr.
  { intros t pm0 base rdf d Ht. unfold read. destruct (skip_root _) as [evs|]; [|done]. rewrite He.
    pose proof (pass1_unchanged t pm0 base rdf fuel true evs false d h o k Ht Hwf Ho) as Hu.
    pose proof (pass1_raises t pm0 fuel base rdf evs false d h) as Hx. by destruct (pass1 _ _ _ _ _ _ _ _ _ _) as [[[x|] d'] h']. }
  unfold cimread. destruct (xmlns src) as [m|x]; [|done]. generalize (default [] sd). intros d. cbv beta zeta. destruct (negb _); [done|].
  destruct ns as [n|], pm as [[t pm]|]; try done; [by apply Hr|]. destruct (get_cim_ns cim14_uri m) as [n b].
  destruct b; apply Hr; [left|right; left].
Qed.
Print Assumptions C73_unchanged.
(** The first pass itself only raises TypeError. *)
Lemma pass1_exn t pm base rdf f evs : makes t pm → ∀ c d h x d' h', Wf h →
  pass1 t pm (S f) base rdf false evs c d h = (Some x, d', h') → x = TypeError.
Proof.
  intros Hm. induction evs as [|ev evs IH]; intros c d h x d' h' Hwf; [done|].
  destruct ev as [e|e|p v]; cbn [pass1 pass1_step]; [by apply IH| |by apply IH].
  destruct (in_base base e); [|by apply IH]. destruct (uuid_of _ _) as [id|]; [|by apply IH].
  destruct (assoc _ pm) as [k|] eqn:Ek; [|by apply IH]. unfold bind. destruct (Hm _ _ Ek) as [[ws Hws]|Hr].
  - destruct (construct_blank t f h k [] _ _ Hwf (Hws id)) as (h1 & E1 & Hwf1 & _). fold (uuid_kw id). rewrite E1. by apply IH.
  - destruct (Hr f h id Hwf) as (h1 & E1 & _). fold (uuid_kw id). rewrite E1. by intros [= <- _ _].
Qed.
(** The dictionary, on the other hand, has been filled: every object declared
    before the error is in it, without any of its properties; it has replaced
    what start_dict had under that identifier. *)
Theorem C73_dictionary t pm base rdf f pf root evs d h d' h' : (t, pm) ∈ tables → Wf h → foreign_root base evs →
  reads base rdf t pm (S f) pf true root evs d h = (Some ParseError, d', h') →
  map fst d' = add_keys (map fst d) (map fst (declared base rdf pm evs)) ∧
  (∀ id, declared_class base rdf pm evs id = None → assoc id d' = assoc id d) ∧
  (∀ id k, declared_class base rdf pm evs id = Some k → ∃ o,
     assoc id d' = Some (VRef o) ∧ cls_of h o = None ∧ cls_of h' o = Some k ∧
     ∃ h1 o1 h2, construct t (S f) k [] [(u "UUID", VStr id)] h1 = (inl (VRef o1), h2) ∧ ∀ ky, view h' o ky = view h2 o1 ky).
Proof.
  intros Ht Hwf Hf. rewrite read_unfold, pass1_failing.
  destruct (pass1 _ _ _ _ _ _ _ _ _ _) as [[[x|] d1] h1] eqn:E.
  { intros [= -> -> ->]. by pose proof (pass1_exn t pm base rdf f evs (tables_makes t pm Ht) _ _ _ _ _ _ Hwf E). }
  intros [= <- <-]. pose proof (pass1_created t pm base rdf f false evs (tables_makes t pm Ht) Hf false d h d1 h1 Hwf E) as HC.
  split; [apply HC|]. split; [apply HC|]. intros id k Hk. destruct (cr_new _ _ _ _ _ _ HC id k Hk) as (o & Ho & Hn & Hc & Hv).
  exists o. split_and!; [done..|].
  destruct (cr_made _ _ _ _ _ _ HC id k) as [ws Hws]; [by apply assoc_reverse_in|].
  destruct (construct_blank t f h k [] _ _ Hwf Hws) as (h2 & E2 & _ & _ & _ & HV).
  exists h, (fresh_obj h), h2. split; [done|]. intros ky. rewrite Hv, HV, apply_writes_self. unfold bview. rewrite Hws. f_equal.
  destruct (view h (fresh_obj h) ky) eqn:Ev; [|done]. apply view_Some_cls in Ev. rewrite fresh_obj_cls in Ev. by destruct Ev.
Qed.
Print Assumptions C73_dictionary.
(** A document that ends after its second object; start_dict has a node named
    n1. *)
Definition cut_doc : list event := take 12 topo_doc.
Notation cut_heap := (Heap {[0%nat := Obj n_CIM14_CPSM_Topology_Topology_TopologicalNode_TopologicalNode {[Pub n_name := VStr (u "old")]}]} ∅).
Notation cut_read := (reads Bt R topo topo_map 20 pf_demo true root cut_doc [(u "n1", VRef 0)] cut_heap).
Example C73_example :
  Wf cut_heap ∧ foreign_root Bt cut_doc ∧ declared Bt R topo_map cut_doc =
    [(u "c1", n_CIM14_CPSM_Topology_Core_ConnectivityNode_ConnectivityNode); (u "n1", n_CIM14_CPSM_Topology_Topology_TopologicalNode_TopologicalNode)] ∧
  ∃ h', cut_read = (Some ParseError, [(u "n1", VRef 2); (u "c1", VRef 1)], h') ∧
    view h' 0 (Pub n_name) = Some (OV (VStr (u "old"))) ∧ view h' 1 (Pub n_name) = Some (OV (VStr [])).
Proof.
  split; [apply wf_b_ok; compute_now|]. split; [apply foreign_b_ok; compute_now|]. split; [compute_now|].
  exists (snd cut_read). split; [|split; compute_now].
  assert (∀ (r : res) x, bool_decide (fst r = x) = true → r = (x, snd r)) as Hx.
  { intros [a b] x Hb%bool_decide_eq_true. simpl in Hb. by subst. }
  apply (Hx cut_read (Some ParseError, [(u "n1", VRef 2); (u "c1", VRef 1)])). compute_now.
Qed.

(** *** C74: reading again *)
Lemma add_keys_NoDup new : ∀ ks, NoDup ks → NoDup (add_keys ks new).
Proof.
  induction new as [|k new IH]; intros ks Hn; cbn [add_keys]; [done|]. apply IH.
  destruct (existsb (str_eqb k) ks) eqn:E; [done|]. apply NoDup_app. split_and!; [done| |apply NoDup_singleton].
  intros x Hx ->%elem_of_list_singleton. apply ReaderFacts.existsb_str in Hx. congruence.
Qed.
Lemma NoDup_assoc {B} (d : list (pystr * B)) k v : NoDup (map fst d) → (k, v) ∈ d → assoc k d = Some v.
Proof.
  induction d as [|[k' v'] d IH]; [by intros _ ?%elem_of_nil|]. cbn [map fst assoc]. intros [Hn Hd]%NoDup_cons [E|Hin]%elem_of_cons.
  - injection E as -> ->. by rewrite (proj2 (str_eqb_eq k' k') eq_refl).
  - destruct (str_eqb k k') eqn:E; [|by apply IH]. apply str_eqb_eq in E as ->. destruct Hn. apply elem_of_list_fmap. by exists (k', v).
Qed.
(** A document that declares everything start_dict contains changes no existing
    object, whether it is read completely or fails. *)
Theorem C74_unchanged t pm base rdf f pf err root evs d h o ky : (t, pm) ∈ tables → Wf h → foreign_root base evs →
  NoDup (map fst d) → (∀ id, id ∈ map fst d → is_Some (declared_class base rdf pm evs id)) → is_Some (cls_of h o) →
  let h' := snd (reads base rdf t pm (S f) pf err root evs d h) in cls_of h' o = cls_of h o ∧ view h' o ky = view h o ky.
Proof.
  intros Ht Hwf Hf Hn Hd Ho. cbv zeta. rewrite read_unfold.
  pose proof (pass1_unchanged t pm base rdf (S f) err evs false d h o ky Ht Hwf Ho) as Hu.
  destruct (pass1 _ _ _ _ _ _ _ _ _ _) as [[[x|] d1] h1] eqn:E; [done|].
  pose proof (pass1_created t pm base rdf f err evs (tables_makes t pm Ht) Hf false d h d1 h1 Hwf E) as HC.
  assert (closed_region h (λ _, False)) as Hcl by (by intros ???).
  assert (Inv h (λ _, False) h1) as HI.
  { pose proof (Inv_pass1 h (λ _, False) t (tables_plain t pm Ht) pm (S f) base rdf err evs false [] h) as [HI _];
      [by apply Inv_start|constructor|]. destruct (pass1_dict t pm (S f) base rdf err evs false d [] h) as [_ Es]. rewrite E in Es. cbn [snd] in Es. by rewrite Es. }
  assert (good_dict h (λ _, False) d1) as Hg.
  { apply Forall_forall. intros [id v] Hin. cbn [snd].
    assert (assoc id d1 = Some v) as Ha.
    { apply NoDup_assoc; [|done]. rewrite (cr_keys _ _ _ _ _ _ HC). by apply add_keys_NoDup. }
    destruct (declared_class base rdf pm evs id) as [k|] eqn:Ek.
    - destruct (cr_new _ _ _ _ _ _ HC id k Ek) as (n & Hn1 & Hn2 & _). rewrite Ha in Hn1. injection Hn1 as ->. by right.
    - pose proof (cr_old _ _ _ _ _ _ HC id Ek) as Eo. rewrite Ha in Eo. symmetry in Eo. apply assoc_in in Eo.
      destruct (Hd id) as [k Hk]; [|congruence]. apply elem_of_list_fmap. by exists (id, v). }
  pose proof (Inv_pass2 h (λ _, False) t (tables_plain t pm Ht) (S f) pf base rdf d1 err evs Hg None h1 HI) as HI2.
  destruct (pass2 _ _ _ _ _ _ _ _ _ _) as [x h2]. cbn [snd] in *. apply (Inv_view h (λ _, False) Hwf); [by apply HI2|done|exact (λ F, F)].
Qed.
Print Assumptions C74_unchanged.
(** So reading a document a second time, with the first result as start_dict,
    does not update the objects of the first result: it makes new ones. *)
Theorem C74_again t pm base rdf f pf err root evs h d1 h1 d2 h2 : (t, pm) ∈ tables → Wf h → Wf h1 → foreign_root base evs →
  reads base rdf t pm (S f) pf err root evs [] h = (None, d1, h1) →
  reads base rdf t pm (S f) pf err root evs d1 h1 = (None, d2, h2) →
  map fst d2 = map fst d1 ∧
  (∀ id v, (id, v) ∈ d2 → ∃ o, v = VRef o ∧ cls_of h1 o = None ∧ is_Some (cls_of h2 o)) ∧
  (∀ o ky, is_Some (cls_of h1 o) → cls_of h2 o = cls_of h1 o ∧ view h2 o ky = view h1 o ky).
Proof.
  intros Ht Hwf Hwf1 Hf E1 E2.
  assert (NoDup (map fst d1) ∧ ∀ id, id ∈ map fst d1 ↔ is_Some (declared_class base rdf pm evs id)) as [Hn Hd].
  { revert E1. rewrite read_unfold. destruct (pass1 _ _ _ _ _ _ _ _ _ _) as [[[x|] d0] h0] eqn:E; [done|].
    destruct (pass2 _ _ _ _ _ _ _ _ _ _) as [x h3]. intros [= -> -> ->].
    pose proof (pass1_created t pm base rdf f err evs (tables_makes t pm Ht) Hf false [] h d1 h0 Hwf E) as HC.
    assert (NoDup (map fst d1)) as Hn. { rewrite (cr_keys _ _ _ _ _ _ HC). apply add_keys_NoDup. constructor. }
    split; [done|]. intros id. split.
    - intros ([i v] & -> & Hin)%elem_of_list_fmap. cbn [fst]. destruct (declared_class base rdf pm evs i) as [k|] eqn:Ek; [by eauto|].
      pose proof (cr_old _ _ _ _ _ _ HC i Ek) as Eo. by rewrite (NoDup_assoc d1 i v Hn Hin) in Eo.
    - intros [k Hk]. destruct (cr_new _ _ _ _ _ _ HC id k Hk) as (n & Hn1%assoc_in & _). apply elem_of_list_fmap. by exists (id, VRef n). }
  split; [|split].
  - destruct (C24_keys t pm base rdf f pf err root evs d1 h1 d2 h2 Ht Hwf1 Hf E2) as [Hk _]. rewrite Hk.
    assert (∀ id, id ∈ map fst (declared base rdf pm evs) → id ∈ map fst d1) as Hin.
    { intros id Hi. destruct (C24_keys t pm base rdf f pf err root evs [] h d1 h1 Ht Hwf Hf E1) as [_ H]. apply H. by right. }
    clear -Hin. revert Hin. generalize (map fst (declared base rdf pm evs)). generalize (map fst d1). intros ks new. revert ks.
    induction new as [|k new IH]; intros ks Hin; cbn [add_keys]; [done|].
    assert (existsb (str_eqb k) ks = true) as -> by (apply ReaderFacts.existsb_str, Hin; left). apply IH. intros id Hi. apply Hin. by right.
  - intros id v Hin.
    assert (NoDup (map fst d2)) as Hn2.
    { destruct (C24_keys t pm base rdf f pf err root evs d1 h1 d2 h2 Ht Hwf1 Hf E2) as [-> _]. by apply add_keys_NoDup. }
    destruct (declared_class base rdf pm evs id) as [k|] eqn:Ek.
    + destruct (C25_classes t pm base rdf f pf err root evs d1 h1 d2 h2 id k Ht Hwf1 Hf E2 Ek) as (o & Ha & Ho & Hc & _).
      rewrite (NoDup_assoc d2 id v Hn2 Hin) in Ha. injection Ha as ->. exists o. split_and!; [done|done|]. by rewrite Hc.
    + exfalso. assert (id ∈ map fst d2) as Hi by (apply elem_of_list_fmap; by exists (id, v)).
      apply (C24_keys t pm base rdf f pf err root evs d1 h1 d2 h2 Ht Hwf1 Hf E2) in Hi as [Hi|Hi].
      * apply Hd in Hi as [? ?]. congruence.
      * assert (id ∈ map fst d1) as Hi1 by (apply (C24_keys t pm base rdf f pf err root evs [] h d1 h1 Ht Hwf Hf E1); by right).
        apply Hd in Hi1 as [? ?]. congruence.
  - intros o ky Ho. pose proof (C74_unchanged t pm base rdf f pf err root evs d1 h1 o ky Ht Hwf1 Hf Hn) as H. rewrite E2 in H.
    apply H; [|done]. intros id Hi. by apply Hd.
Qed.
Print Assumptions C74_again.
Notation twice1 := (reads Bt R topo topo_map 20 pf_demo false root topo_doc [] heap_empty).
Notation twice2 := (reads Bt R topo topo_map 20 pf_demo false root topo_doc (snd (fst twice1)) (snd twice1)).
Example C74_example :
  foreign_root Bt topo_doc ∧ Wf (snd twice1) ∧ fst (fst twice1) = None ∧ fst (fst twice2) = None ∧
  snd (fst twice1) = [(u "c1", VRef 0); (u "n1", VRef 1); (u "n2", VRef 2); (u "t1", VRef 3)] ∧
  snd (fst twice2) = [(u "c1", VRef 4); (u "n1", VRef 5); (u "n2", VRef 6); (u "t1", VRef 7)].
Proof.
  split; [apply foreign_b_ok; compute_now|]. split; [apply wf_b_ok; compute_now|]. split; [compute_now|]. split; [compute_now|].
  split; compute_now.
Qed.

(** *** C75: plain lists *)
(** [o.a] is an ordinary attribute that holds a list. *)
Definition plain_list (t : schema) (h : heap) (o : nat) (a : name) (xs : list val) : Prop :=
  key_of a = Pub a ∧ pkind t h o a = None ∧ is_Some (cls_of h o) ∧ view h o (Pub a) = Some (OL xs).
Lemma plain_list_found t h o a xs : plain_list t h o a xs → ∃ l, find_attr t o a h = Found (VList l) ∧ h_lists h !! l = Some xs.
Proof.
  intros (Hp & Hk & _ & Hv). destruct (list_slot _ _ _ _ Hv) as (l & Hs & Hl). exists l. split; [|done]. apply (find_attr_found t).
  unfold getattr. rewrite obj_prop_pkind, Hk, Hp. unfold read_key. by rewrite Hs.
Qed.
(** A reference to an object: there is no method of the expected name, and the
    read fails. *)
Theorem C75_reference t pm base rdf fuel pf err root pre e rest d h o d' hk a xs id v :
  Reaches base rdf t pm fuel pf err root pre (EEnd e :: rest) d h (Some (VRef o)) d' hk →
  reference_elem base rdf e a id → plain_list t hk o a xs → assoc id d' = Some v →
  reads base rdf t pm fuel pf err root (pre ++ EEnd e :: rest) d h = (Some AttributeError, d', hk).
Proof.
  intros HR He Hp Ha. destruct (plain_list_found _ _ _ _ _ Hp) as (l & Hf & _). destruct Hp as (Hp & Hk & _ & _).
  eapply (Reaches_raise base rdf); [exact HR|].
  rewrite (property_step base rdf t fuel pf d' o e a hk (proj1 He)), (reference_set base rdf t fuel pf d' o e a id hk He).
  unfold set_ref. rewrite Hf, Ha.
  assert (match a with 95%N :: _ => true | _ => false end = false) as ->.
  { destruct a as [|c a]; [done|]. destruct c as [|c]; [done|]. unfold key_of in Hp. do 7 (destruct c as [c|c|]; try done). }
  unfold add. by rewrite obj_prop_pkind, Hk.
Qed.
Print Assumptions C75_reference.
(** Text: the attribute becomes the list of its characters. *)
Theorem C75_text t pm base rdf f pf err root pre e rest d h o d' hk a s xs : Wf hk →
  Reaches base rdf t pm (S f) pf err root pre (EEnd e :: rest) d h (Some (VRef o)) d' hk →
  attribute_elem base rdf e a (Some s) → plain_list t hk o a xs →
  ∃ h', Reaches base rdf t pm (S f) pf err root (pre ++ [EEnd e]) rest d h (Some (VRef o)) d' h' ∧
    same_classes hk h' ∧ view h' o (Pub a) = Some (OL (map (λ c, VStr [c]) s)) ∧
    ∀ o' k, (o', k) ≠ (o, Pub a) → view h' o' k = view hk o' k.
Proof.
  intros Hwf HR He Hp. destruct (plain_list_found _ _ _ _ _ Hp) as (l & Hf & _). destruct Hp as (Hp & Hk & Hc & _).
  set (h1 := lset (fresh_list hk) (map (λ c, VStr [c]) s) hk).
  destruct (new_list_Frame hk (map (λ c, VStr [c]) s)) as (HF1 & Hlo1 & HV1); [done|]. fold h1 in HF1, Hlo1, HV1.
  assert (is_Some (cls_of h1 o)) as Hc1 by (by rewrite (Frame_cls hk)).
  assert (setattr t (S f) (VRef o) a (VList (fresh_list hk)) h1 = (inl tt, hset o (Pub a) (VList (fresh_list hk)) h1)) as Es.
  { rewrite set_plain; [by rewrite Hp| |done]. by rewrite (Frame_pkind _ hk). }
  pose proof (text_step _ _ _ _ _ _ _ _ _ _ _ _ _ _ _ _ _ _ _ HR He Hf) as HT. unfold swallow_type in HT.
  assert (convert t (S f) pf (VList l) (Some s) hk = (inl (VList (fresh_list hk)), h1)) as Ec by done.
  rewrite (bind_inl _ _ _ _ _ Ec), Es in HT. eexists. split; [exact HT|].
  assert (h_lists h1 !! fresh_list hk = Some (map (λ c, VStr [c]) s)) as Hl1 by (unfold h1; by rewrite lists_lset).
  split; [|split].
  - intros o'. rewrite cls_hset. by apply (Frame_cls hk).
  - rewrite (view_hset_list _ _ _ _ _ _ _ Hc1 Hl1). by rewrite upd_eq.
  - intros o' k' Hne. rewrite (view_hset_list _ _ _ _ _ _ _ Hc1 Hl1). rewrite upd_ne by done. apply HV1.
Qed.
Print Assumptions C75_text.
(** Where this happens: the collections that constructors store in an ordinary
    attribute. *)
Definition plain_collections : list (name * name) :=
  (n_CIM14_IEC61970_Protection_ProtectionEquipment_ProtectionEquipment, n_ProtectedSwitches) ::
  (n_CIM14_ENTSOE_Dynamics_IEC61970_Dynamics_DynamicsMetaBlockReference_DynamicsMetaBlockReference, n_MetaBlock) ::
  map (λ n, (n_CIM14_ENTSOE_Dynamics_Thing_Thing, u n))
    ["ScheduleSteps"; "synchronousGeneratorType"; "tpqo"; "ElectricalAssets"; "SafetyDocuments"; "ratedS"; "tppdo"; "tpdo"; "ChangeItems";
     "ErpOrganisationRoles"; "CircuitSections"; "tppqo"; "DocumentRoles"; "PSREvent"; "OutageStepRoles"; "NetworkDataSets"]%string.
Definition unpaired (c : cls) : list (name * name) :=
  omap (λ s, match s with SPlainMany p => Some (c_key c, p) | _ => None end) (c_steps c).
Definition pair_eqb (x y : name * name) : bool := str_eqb x.1 y.1 && str_eqb x.2 y.2.
Lemma pair_eqb_eq x y : pair_eqb x y = true ↔ x = y.
Proof. destruct x, y. unfold pair_eqb. rewrite andb_true_iff, !str_eqb_eq. cbn [fst snd]. split; [by intros [-> ->]|by intros [= -> ->]]. Qed.
Definition pairs_eqb (xs ys : list (name * name)) : bool :=
  forallb (λ x, existsb (pair_eqb x) ys) xs && forallb (λ y, existsb (pair_eqb y) xs) ys.
Lemma unpaired_all : pairs_eqb (flat_map unpaired (flat_map fst tables)) plain_collections = true.
Proof. vm_compute. reflexivity. Qed.
Theorem C75_where k p : (k, p) ∈ plain_collections ↔
  ∃ t pm c, (t, pm) ∈ tables ∧ c ∈ t ∧ c_key c = k ∧ SPlainMany p ∈ c_steps c.
Proof.
  assert ((k, p) ∈ plain_collections ↔ (k, p) ∈ flat_map unpaired (flat_map fst tables)) as ->.
  { pose proof unpaired_all as H. unfold pairs_eqb in H. rewrite andb_true_iff, !forallb_forall in H. revert H.
    generalize (flat_map unpaired (flat_map fst tables)), plain_collections. intros xs ys [H1 H2]. split; intros Hin%elem_of_list_In.
    - apply H2, existsb_exists in Hin as (x & Hx & <-%pair_eqb_eq). by apply elem_of_list_In.
    - apply H1, existsb_exists in Hin as (x & Hx & <-%pair_eqb_eq). by apply elem_of_list_In. }
  generalize tables. intros T. rewrite elem_of_list_In, in_flat_map. split.
  - intros (c & ([t pm] & Ht & Hc)%in_flat_map & Hp). unfold unpaired in Hp. apply elem_of_list_In, elem_of_list_omap in Hp as (s & Hs & Es).
    destruct s; try done. injection Es as <- <-. exists t, pm, c. split_and!; try done; by apply elem_of_list_In.
  - intros (t & pm & c & Ht & Hc & <- & Hp). exists c. split.
    + apply in_flat_map. exists (t, pm). split; by apply elem_of_list_In.
    + apply elem_of_list_In, elem_of_list_omap. by exists (SPlainMany p).
Qed.
Print Assumptions C75_where.
(** [<cim:ProtectionEquipment.ProtectedSwitches rdf:resource="#b"/>] *)
Definition B14 : pystr := u "{" ++ cim14_uri ++ u "#}".
Definition plain_doc : list event :=
  flat B14 [obj "ProtectionEquipment" "e" [ref "ProtectionEquipment.ProtectedSwitches" "#b"]; obj "Breaker" "b" []] ++ [EEnd root].
Definition plain_text_doc : list event :=
  flat B14 [obj "ProtectionEquipment" "e" [att "ProtectionEquipment.ProtectedSwitches" "ab"]; obj "Breaker" "b" []] ++ [EEnd root].
Example C75_example :
  (plain_doc = take 2 plain_doc ++ EEnd (pel_elem B14 (ref "ProtectionEquipment.ProtectedSwitches" "#b")) :: drop 3 plain_doc ∧
   reference_elem B14 R (pel_elem B14 (ref "ProtectionEquipment.ProtectedSwitches" "#b")) n_ProtectedSwitches (u "b") ∧
   ∃ cur d' hk, Reaches B14 R cim14 cim14_map 20 pf_demo false root (take 2 plain_doc) (drop 2 plain_doc) [] heap_empty cur d' hk ∧
     cur = Some (VRef 0) ∧ plain_list cim14 hk 0 n_ProtectedSwitches [] ∧ assoc (u "b") d' = Some (VRef 1)) ∧
  (plain_text_doc = take 2 plain_text_doc ++ EEnd (pel_elem B14 (att "ProtectionEquipment.ProtectedSwitches" "ab")) :: drop 3 plain_text_doc ∧
   attribute_elem B14 R (pel_elem B14 (att "ProtectionEquipment.ProtectedSwitches" "ab")) n_ProtectedSwitches (Some (u "ab")) ∧
   ∃ cur d' hk, Reaches B14 R cim14 cim14_map 20 pf_demo false root (take 2 plain_text_doc) (drop 2 plain_text_doc) [] heap_empty cur d' hk ∧
     cur = Some (VRef 0) ∧ plain_list cim14 hk 0 n_ProtectedSwitches [] ∧ Wf hk).
Proof.
  assert (∀ t h o a xs ck, bool_decide (key_of a = Pub a) = true → bool_decide (cls_of h o = Some ck) = true →
    bool_decide (lookup_prop t ck a = None) = true → view_is h o (Pub a) (OL xs) = true → plain_list t h o a xs) as Hi.
  { intros t h o a xs ck H1%bool_decide_eq_true H2%bool_decide_eq_true H3%bool_decide_eq_true H4%view_is_ok.
    split_and!; [done| |by rewrite H2|done]. unfold pkind. by rewrite H2. }
  split; (split; [compute_now|]; split; [repeat split; compute_now|]).
  - destruct (reach_ex cim14 cim14_map B14 2 plain_doc [] heap_empty (λ cur d' hk, bool_decide (cur = Some (VRef 0)) &&
      bool_decide (assoc (u "b") d' = Some (VRef 1)) &&
      bool_decide (cls_of hk 0 = Some n_CIM14_IEC61970_Protection_ProtectionEquipment_ProtectionEquipment) && view_is hk 0 (Pub n_ProtectedSwitches) (OL [])))
      as (cur & d' & hk & HR & HP); [compute_now|].
    rewrite !andb_true_iff in HP. destruct HP as [[[H1%bool_decide_eq_true H2%bool_decide_eq_true] H3] H4].
    exists cur, d', hk. split; [exact HR|]. split; [exact H1|]. split; [|exact H2].
    eapply Hi; [compute_now|exact H3|compute_now|exact H4].
  - destruct (reach_ex cim14 cim14_map B14 2 plain_text_doc [] heap_empty (λ cur d' hk, bool_decide (cur = Some (VRef 0)) &&
      PropReader.wf_b hk &&
      bool_decide (cls_of hk 0 = Some n_CIM14_IEC61970_Protection_ProtectionEquipment_ProtectionEquipment) && view_is hk 0 (Pub n_ProtectedSwitches) (OL [])))
      as (cur & d' & hk & HR & HP); [compute_now|].
    rewrite !andb_true_iff in HP. destruct HP as [[[H1%bool_decide_eq_true H2] H3] H4].
    exists cur, d', hk. split; [exact HR|]. split; [exact H1|]. split; [|apply PropReader.wf_b_ok; exact H2].
    eapply Hi; [compute_now|exact H3|compute_now|exact H4].
Qed.
