(** Property C103: objects described a second time. *)
From Coq Require Import String ZArith.
From stdpp Require Import prelude gmap.
From Verif Require Import PyStr PyHeap Schema Assoc AssocSpec HeapFacts TableSpec Reader ReaderSpec ReaderFacts FrameFacts CreateFacts
  StatementFacts ReaderTabs ReadSound ReadStepFacts ReadDocFacts Names TabCIM14 TabCIM15 TabProfiles Tables DocSpec DocFacts RefFacts ReadDemo DocDemo PropReader PropDoc PropAssoc.
From Verif Require Import XmlSpec XmlCalls XmlWriter XmlDocFacts WriteSpec CimWriter WriteFacts WriteTables PropWriter PropOutput RoundSpec RoundDemo PropRound FilesSpec PropFiles SecondSpec SecondFacts.
Notation rdf_ns := PropWriter.rdf_ns.

(** *** Replacement *)
(** Where the document describes an identifier of the dictionary again, the
    dictionary gets a new object.  The former one is as before, and the single
    ends that referred to it still do. *)
Theorem C103_replaced t pm base rdf f pf err root evs d h d' h' id o ck k : (t, pm) ∈ tables →
  Sound t h → dict_alive d h → foreign_root base evs → compatible_doc base rdf t pm evs d h → coherent base rdf t pm evs d h →
  reads base rdf t pm (S (S f)) pf err root evs d h = (None, d', h') →
  assoc id d = Some (VRef o) → only_key d id o → cls_of h o = Some ck → declared_class base rdf pm evs id = Some k →
  (∃ o', assoc id d' = Some (VRef o') ∧ cls_of h o' = None ∧ cls_of h' o' = Some k) ∧
  not_listed d' o ∧ cls_of h' o = Some ck ∧
  (∀ a v, plain_attr t ck a → view h o (Pub a) = Some (OV v) → view h' o (Pub a) = Some (OV v)) ∧
  (∀ x p kk, pkind t h x p = Some kk → match kk with POneMany _ | POneOne _ => True | _ => False end →
    view h x (Priv p) = Some (OV (VRef o)) → view h' x (Priv p) = Some (OV (VRef o))).
Proof.
  intros Ht HS Hd Hf Hc Hco Hr Ho Hu Hck Hk.
  pose proof (second_unlisted t pm Ht base rdf (S f) pf err root evs d h d' h' HS Hd Hf Hr id o Ho Hu (ex_intro _ _ Hk)) as Hno.
  destruct (reads_inv t pm Ht base rdf f pf err root evs d h d' h' HS Hd Hf Hc Hco Hr) as (h1 & HC & _ & _ & _ & _ & HI).
  split; [|split; [done|split; [|split]]].
  - destruct (cr_new _ _ _ _ _ _ HC id k Hk) as (o' & Ho' & Hn & Hk' & _). exists o'. split_and!; try done. by rewrite (in_classes _ _ _ _ _ _ _ _ HI).
  - destruct (reads_old t pm Ht base rdf f pf err root evs d h d' h' HS Hd Hf Hc Hco Hr o) as [-> _]; [by rewrite Hck|done].
  - intros a v Hpl Hv. by apply (unlisted_keeps t pm Ht base rdf (S f) pf err root evs d h d' h' HS Hd Hf Hr o ck a v Hno Hck Hpl Hv).
  - intros x p kk Hkk Hs Hv. unfold pkind in Hkk. destruct (cls_of h x) as [cx|] eqn:Hcx; [|done].
    destruct (C88_kept t pm base rdf f pf err root evs d h d' h' x cx p kk Ht HS Hd Hf Hc Hco Hr Hcx Hkk Hs) as [_ ->]. done.
Qed.
Print Assumptions C103_replaced.
(** Nothing that is new refers to the former object, in any kind of reference. *)
Theorem C103_not_referred t pm base rdf f pf err root evs d h d' h' id o k x p kk : (t, pm) ∈ tables →
  Sound t h → dict_alive d h → foreign_root base evs → compatible_doc base rdf t pm evs d h → coherent base rdf t pm evs d h →
  reads base rdf t pm (S (S f)) pf err root evs d h = (None, d', h') →
  assoc id d = Some (VRef o) → only_key d id o → declared_class base rdf pm evs id = Some k →
  cls_of h x = None → pkind t h' x p = Some kk →
  match kk with
  | POneMany _ | POneOne _ => view h' x (Priv p) ≠ Some (OV (VRef o))
  | PManyOne _ | PManyMany _ => ¬ held h' x p (VRef o)
  | _ => True
  end.
Proof.
  intros Ht HS Hd Hf Hc Hco Hr Ho Hu Hk Hx Hkk.
  pose proof (second_unlisted t pm Ht base rdf (S f) pf err root evs d h d' h' HS Hd Hf Hr id o Ho Hu (ex_intro _ _ Hk)) as Hno.
  pose proof (reads_single t pm Ht base rdf f pf err root evs d h d' h' HS Hd Hf Hc Hco Hr x p kk Hkk) as Hone.
  assert (∀ v, ¬ held h x p v) as Hheld.
  { intros v Hv. destruct (held_old _ _ _ _ Hv). congruence. }
  unfold pkind in Hkk. destruct (cls_of h' x) as [cx|] eqn:Hcx; [|done]. cbn in Hkk.
  destruct kk as [q|q|q|q| |q|a c]; try done.
  - destruct (Hone eq_refl) as [(x1 & y1 & oy & _ & _ & Hy & ->)|[_ Hv]]; [intros [= <-]; by eapply Hno|]. rewrite Hx in Hv. by rewrite Hv.
  - destruct (C88_collection t pm base rdf f pf err root evs d h d' h' x cx p q Ht HS Hd Hf Hc Hco Hr Hcx Hkk) as (ys & Hv & _ & Hm).
    intros (ys' & Hv' & Hin). rewrite Hv in Hv'. injection Hv' as <-. apply Hm in Hin as [?|(x1 & p1 & y1 & o1 & c1 & _ & Hi & _)]; [by eapply Hheld|by eapply Hno].
  - destruct (Hone eq_refl) as [(x1 & y1 & oy & _ & _ & Hy & ->)|[_ Hv]]; [intros [= <-]; by eapply Hno|]. rewrite Hx in Hv. by rewrite Hv.
  - destruct (C88_many t pm base rdf f pf err root evs d h d' h' x cx p q Ht HS Hd Hf Hc Hco Hr Hcx Hkk) as (ys & Hv & Hm).
    intros (ys' & Hv' & Hin). rewrite Hv in Hv'. injection Hv' as <-. apply Hm in Hin as [?|(x1 & y1 & _ & _ & Hi)]; [by eapply Hheld|by eapply Hno].
Qed.
Print Assumptions C103_not_referred.
(** The object for an identifier that the document does not describe stays, and
    its attributes take the statements about the identifier: those are in
    elements whose class the package map does not have. *)
Theorem C103_in_place t pm base rdf f pf err root evs d h d' h' id o ck a v0 : (t, pm) ∈ tables →
  Sound t h → dict_alive d h → foreign_root base evs → reads base rdf t pm (S f) pf err root evs d h = (None, d', h') →
  assoc id d = Some (VRef o) → only_key d id o → declared_class base rdf pm evs id = None →
  cls_of h o = Some ck → plain_attr t ck a → view h o (Pub a) = Some (OV v0) →
  (∀ e r, e ∈ about base rdf pm evs d id a → resource rdf e = Some r → has_prefix (u "#") r = false) →
  assoc id d' = Some (VRef o) ∧ cls_of h' o = Some ck ∧
  ∃ v, takes_all rdf pf v0 (about base rdf pm evs d id a) v ∧ view h' o (Pub a) = Some (OV v).
Proof.
  intros Ht HS Hd Hf Hr Ho Hu Hk Hck Hpl Hv Hno.
  by apply (undescribed_takes t pm Ht base rdf f pf err root evs d h d' h' HS Hd Hf Hr id o ck a v0).
Qed.
Print Assumptions C103_in_place.

(** *** Exports *)
(** Of the references an export has only the identifiers. *)
Theorem C103_ids t fint d enc h h' : SameIds t h h' → ∀ w, writes_to t fint d enc h = (inl tt, h, w) ↔ writes_to t fint d enc h' = (inl tt, h', w).
Proof.
  assert (∀ h h' o e, SameIds t h h' → Writes t fint cim_ns h o e → Writes t fint cim_ns h' o e) as Hw.
  { clear h h'. intros h h' o e HI (k & top & below & as_ & es & rs & H1 & H2 & H3 & H4 & H5 & H6 & H7 & H8 & H9).
    assert (∀ o a v s, sees t h o a v → text_of v s → sees t h' o a v) as Hs.
    { intros o1 a v s Hv Ht. destruct (si_to _ _ _ HI _ _ _ Hv) as (v' & Hv' & [->|(? & ? & ? & -> & _)]); [done|inversion Ht]. }
    assert (∀ o a v w, sees t h o a v → equal fint v w → sees t h' o a v) as Hq.
    { intros o1 a v w Hv He. destruct (si_to _ _ _ HI _ _ _ Hv) as (v' & Hv' & [->|(? & ? & ? & -> & _)]); [done|].
      inversion He; subst. match goal with H : number _ (VRef _) _ |- _ => inversion H end. }
    exists k, top, below, as_, es, rs. rewrite (si_cls _ _ _ HI). split_and!; try done.
    - by eapply si_uuid.
    - eapply listed_mono; [|exact H6]. intros c r. apply listed_mono. intros a r' [?|(? & v & dv & Hv & Hdv & [[Heq ->]|(Hne & s & Ht & ->)])]; [by left| |];
        (right; split; [done|]; exists v, dv); (split; [eauto|]); (split; [done|]); [by left|right; eauto].
    - eapply listed_mono; [|exact H7]. intros c r. apply listed_mono. intros a r' [?|(dt & v & s & ? & Hv & Ht & ->)]; [by left|].
      right. exists dt, v, s. split_and!; try done. by eapply Hs.
    - eapply listed_mono; [|exact H8]. intros c r. apply listed_mono. intros a r' [?|(? & [[Hn ->]|(x & i & s & Hx & Hi & Ht & ->)])]; [by left| |]; (right; split; [done|]).
      + left. split; [|done]. eapply Hs; [done|constructor].
      + right. destruct (si_to _ _ _ HI _ _ _ Hx) as (v' & Hv' & [->|(y & y' & j & [= <-] & -> & Hj & Hj')]).
        * exists x, i, s. split_and!; try done. by eapply Hs.
        * exists y', i, s. split_and!; try done. by rewrite (sees_det _ _ _ _ _ _ Hi Hj). }
  intros HI w. rewrite !writes_spec. split; intros [_ (es & Hes & Ed)]; (split; [done|]); exists es; (split; [|done]);
    (eapply Forall2_impl; [exact Hes|]); intros kv e (o & Eo & Ho); exists o; (split; [done|]).
  - by apply (Hw h h').
  - apply (Hw h' h); [by apply SameIds_sym|done].
Qed.
Print Assumptions C103_ids.
(** So replacing references by the object the dictionary has for the identifier
    does not change the export. *)
Theorem C103_repointed t f fint d enc h h' w : Sound t h → rtc (repoints t (S f)) h h' →
  writes_to t fint d enc h = (inl tt, h, w) ↔ writes_to t fint d enc h' = (inl tt, h', w).
Proof. intros HS Hr. apply C103_ids. by apply (repoints_all t f). Qed.
Print Assumptions C103_repointed.
(** Reading the export back makes these replacements: the result is a copy of the
    graph as it would be after them. *)
Theorem C103_healed t pm t14 t15 pf fint enc h h' d w hr f f' : (t, pm) ∈ tables → Sound t h → rtc (repoints t (S f')) h h' →
  Portable t pm pf h' d → Sound t hr → enc_ok enc → writes_to t fint d enc h = (inl tt, h, w) →
  ∃ src d2 h2, parses_to (w_out w) src ∧
    cimread (S (S f)) pf cim14_uri t14 t15 src (Some (t, pm)) (Some cim15_uri) None hr = (None, d2, h2) ∧
    Copies t h' d h2 d2 ∧ Adds hr h2 d2 ∧ Sound t h2.
Proof.
  intros Ht HS Hr HP Hs He Hw. apply (C103_repointed _ _ _ _ _ _ _ _ HS Hr) in Hw. by eapply C54_round_trip.
Qed.
Print Assumptions C103_healed.

(** *** Examples *)
Definition alive_b (d : dict) (h : heap) : bool := forallb (λ kv : pystr * val, match kv.2 with VRef o => match cls_of h o with Some _ => true | None => false end | _ => false end) d.
Lemma alive_b_ok d h : alive_b d h = true → dict_alive d h.
Proof.
  intros H id v Hin%assoc_in. unfold alive_b in H. rewrite forallb_forall in H. specialize (H _ (proj1 (elem_of_list_In _ _) Hin)). cbn [snd] in H.
  destruct v as [| | | | |o|]; try done. exists o. split; [done|]. by destruct (cls_of h o).
Qed.
Definition only_key_b (d : dict) (id : pystr) (o : nat) : bool := forallb (λ kv : pystr * val, str_eqb kv.1 id || negb (bool_decide (kv.2 = VRef o))) d.
Lemma only_key_b_ok d id o : only_key_b d id o = true → only_key d id o.
Proof.
  intros H id' Hin%assoc_in. unfold only_key_b in H. rewrite forallb_forall in H. specialize (H _ (proj1 (elem_of_list_In _ _) Hin)). cbn [fst snd] in H.
  apply orb_true_iff in H as [H%str_eqb_eq|H]; [done|]. by rewrite bool_decide_eq_true_2 in H.
Qed.
Notation g_h := (snd (demo_r plant_evs)).
Notation g_d := (snd (fst (demo_r plant_evs))).
Notation g_cls := n_CIM15_CDPSM_Balanced_IEC61970_Generation_Production_GeneratingUnit_GeneratingUnit.
(** A second file describes the generating unit [g1] again, without its name. *)
Definition again_evs : list event :=
  flat Bb [Item (u "GeneratingUnit") (rabout "g1") None [att "GeneratingUnit.initialP" "7.5"]] ++ [EEnd root].
Notation again_r := (reads Bb R bal bal_map 20 pf_demo false root again_evs g_d g_h).
Lemma again_compatible : compatible_doc Bb R bal bal_map again_evs g_d g_h.
Proof. apply compatible_doc_b_ok. compute_now. Qed.
Lemma again_coherent : coherent Bb R bal bal_map again_evs g_d g_h.
Proof. apply coherent_b_ok. compute_now. Qed.
Lemma g_sound : Sound bal g_h.
Proof. apply (po_sound _ _ _ _ _ (proj1 C54_example)). Qed.
Lemma again_returns : again_r = (None, snd (fst again_r), snd again_r).
Proof. assert (fst (fst again_r) = None) as H by compute_now. exact (triple_eq again_r None (snd (fst again_r)) H eq_refl). Qed.
Example C103_example :
  Sound bal g_h ∧ dict_alive g_d g_h ∧ foreign_root Bb again_evs ∧ compatible_doc Bb R bal bal_map again_evs g_d g_h ∧
  coherent Bb R bal bal_map again_evs g_d g_h ∧ fst (fst again_r) = None ∧
  assoc (u "g1") g_d = Some (VRef 0) ∧ only_key g_d (u "g1") 0 ∧ cls_of g_h 0 = Some g_cls ∧
  declared_class Bb R bal_map again_evs (u "g1") = Some g_cls ∧ plain_attr bal g_cls n_name ∧
  pkind bal g_h 1 n_GeneratingUnit = Some (POneMany n_SynchronousMachines) ∧ view g_h 1 (Priv n_GeneratingUnit) = Some (OV (VRef 0)).
Proof.
  split; [exact g_sound|]. split; [apply alive_b_ok; compute_now|]. split; [apply foreign_b_ok; compute_now|].
  split; [exact again_compatible|]. split; [exact again_coherent|]. split; [compute_now|]. split; [compute_now|].
  split; [apply only_key_b_ok; compute_now|]. split; [compute_now|]. split; [compute_now|]. split; [apply plain_b_ok; compute_now|].
  split; compute_now.
Qed.
(** That the descriptions are merged: the unit of the dictionary has lost its name. *)
Theorem C103_merged_refuted : ∃ t pm base rdf pf evs d h d' h' id o o' ck a v, (t, pm) ∈ tables ∧ Sound t h ∧ dict_alive d h ∧ foreign_root base evs ∧
  reads base rdf t pm 20 pf false root evs d h = (None, d', h') ∧ assoc id d = Some (VRef o) ∧ assoc id d' = Some (VRef o') ∧
  cls_of h o = Some ck ∧ cls_of h' o' = Some ck ∧ plain_attr t ck a ∧ about base rdf pm evs d id a = [] ∧
  view h o (Pub a) = Some (OV v) ∧ view h' o' (Pub a) ≠ Some (OV v).
Proof.
  exists bal, bal_map, Bb, R, pf_demo, again_evs, g_d, g_h, (snd (fst again_r)), (snd again_r), (u "g1"), 0, 2, g_cls, n_name, (VStr (u "A<B")).
  split; [exact bal_in|]. split; [exact g_sound|]. split; [apply alive_b_ok; compute_now|]. split; [apply foreign_b_ok; compute_now|].
  split; [exact again_returns|]. split; [compute_now|]. split; [compute_now|]. split; [compute_now|]. split; [compute_now|].
  split; [apply plain_b_ok; compute_now|]. split; [compute_now|]. split; [compute_now|].
  assert (view (snd again_r) 2 (Pub n_name) = Some (OV (VStr []))) as -> by compute_now. done.
Qed.
Print Assumptions C103_merged_refuted.
(** That references still lead to objects of the dictionary: the machine refers to
    the former unit. *)
Theorem C103_led_refuted : ∃ t pm base rdf pf evs d h d' h' x p q o, (t, pm) ∈ tables ∧ Sound t h ∧ dict_alive d h ∧ foreign_root base evs ∧
  reads base rdf t pm 20 pf false root evs d h = (None, d', h') ∧ lists d x ∧ lists d o ∧ lists d' x ∧ ¬ lists d' o ∧
  pkind t h x p = Some (POneMany q) ∧ view h x (Priv p) = Some (OV (VRef o)) ∧ view h' x (Priv p) = Some (OV (VRef o)).
Proof.
  exists bal, bal_map, Bb, R, pf_demo, again_evs, g_d, g_h, (snd (fst again_r)), (snd again_r), 1, n_GeneratingUnit, n_SynchronousMachines, 0.
  split; [exact bal_in|]. split; [exact g_sound|]. split; [apply alive_b_ok; compute_now|]. split; [apply foreign_b_ok; compute_now|].
  split; [exact again_returns|]. split; [apply lists_b_ok; compute_now|]. split; [apply lists_b_ok; compute_now|]. split; [apply lists_b_ok; compute_now|].
  split; [rewrite <- lists_b_ok; apply not_true_iff_false; compute_now|]. split; [compute_now|]. split; compute_now.
Qed.
Print Assumptions C103_led_refuted.
(** The export of this state is that of the mended graph, and is read back like
    it. *)
Notation mended := (setattr bal 20 (VRef 1) n_GeneratingUnit (VRef 2) (snd again_r)).
Lemma mended_step : repoints bal 20 (snd again_r) (snd mended).
Proof.
  exists 1, n_GeneratingUnit, n_SynchronousMachines, 0, 2, (u "g1"), g_cls.
  split; [compute_now|]. split; [compute_now|]. split; [compute_now|]. split; [compute_now|].
  split; [apply see_ok; compute_now|]. split; [apply see_ok; compute_now|]. apply run_ok. compute_now.
Qed.
Lemma again_sound : Sound bal (snd again_r).
Proof.
  refine (reads_sound bal bal_map bal_in Bb R 18 pf_demo false root again_evs g_d g_h None (snd (fst again_r)) (snd again_r) g_sound _ _ again_compatible again_returns _).
  - apply alive_b_ok. compute_now.
  - apply foreign_b_ok. compute_now.
  - done.
Qed.
Lemma mended_sound : Sound bal (snd mended).
Proof. exact (proj1 (repoints_step bal 19 _ _ again_sound mended_step)). Qed.
Example C103_example_export :
  Sound bal (snd again_r) ∧ rtc (repoints bal 20) (snd again_r) (snd mended) ∧ Portable bal bal_map pf_demo (snd mended) (snd (fst again_r)) ∧
  Sound bal heap_empty ∧ enc_ok (u "utf-8") ∧ fst (fst (writes_to bal fint_demo (snd (fst again_r)) (u "utf-8") (snd again_r))) = inl tt ∧
  snd (fst again_r) = [(u "g1", VRef 2); (u "m1", VRef 1)] ∧
  view (snd again_r) 1 (Priv n_GeneratingUnit) = Some (OV (VRef 0)) ∧ view (snd mended) 1 (Priv n_GeneratingUnit) = Some (OV (VRef 2)).
Proof.
  split; [exact again_sound|]. split; [eapply rtc_once, mended_step|]. split; [apply portable_b_ok; [exact mended_sound|compute_now]|].
  split; [apply Sound_empty|]. split; [right; by left|]. split; [compute_now|]. split; [compute_now|]. split; compute_now.
Qed.
(** An element of a class that the package map does not have changes the object
    in place. *)
Definition patch_evs : list event :=
  flat Bb [Item (u "Patch") (rabout "g1") None [att "IdentifiedObject.name" "B"]] ++ [EEnd root].
Notation patch_r := (reads Bb R bal bal_map 20 pf_demo false root patch_evs g_d g_h).
Lemma patch_returns : patch_r = (None, snd (fst patch_r), snd patch_r).
Proof. assert (fst (fst patch_r) = None) as H by compute_now. exact (triple_eq patch_r None (snd (fst patch_r)) H eq_refl). Qed.
Example C103_example_in_place :
  assoc (u "Patch") bal_map = None ∧ Sound bal g_h ∧ dict_alive g_d g_h ∧ foreign_root Bb patch_evs ∧ fst (fst patch_r) = None ∧
  assoc (u "g1") g_d = Some (VRef 0) ∧ only_key g_d (u "g1") 0 ∧ declared_class Bb R bal_map patch_evs (u "g1") = None ∧
  cls_of g_h 0 = Some g_cls ∧ plain_attr bal g_cls n_name ∧ view g_h 0 (Pub n_name) = Some (OV (VStr (u "A<B"))) ∧
  map e_text (about Bb R bal_map patch_evs g_d (u "g1") n_name) = [Some (u "B")] ∧
  view (snd patch_r) 0 (Pub n_name) = Some (OV (VStr (u "B"))).
Proof.
  split; [compute_now|]. split; [exact g_sound|]. split; [apply alive_b_ok; compute_now|]. split; [apply foreign_b_ok; compute_now|].
  split; [compute_now|]. split; [compute_now|]. split; [apply only_key_b_ok; compute_now|]. split; [compute_now|]. split; [compute_now|].
  split; [apply plain_b_ok; compute_now|]. split; [compute_now|]. split; compute_now.
Qed.
(** That elements of unknown classes have no effect. *)
Theorem C103_ignored_refuted : ∃ t pm base rdf pf evs d h d' h' o a v, (t, pm) ∈ tables ∧ Sound t h ∧ dict_alive d h ∧ foreign_root base evs ∧
  declared base rdf pm evs = [] ∧ reads base rdf t pm 20 pf false root evs d h = (None, d', h') ∧
  view h o (Pub a) = Some (OV v) ∧ view h' o (Pub a) ≠ Some (OV v).
Proof.
  exists bal, bal_map, Bb, R, pf_demo, patch_evs, g_d, g_h, (snd (fst patch_r)), (snd patch_r), 0, n_name, (VStr (u "A<B")).
  split; [exact bal_in|]. split; [exact g_sound|]. split; [apply alive_b_ok; compute_now|]. split; [apply foreign_b_ok; compute_now|].
  split; [compute_now|]. split; [exact patch_returns|]. split; [compute_now|].
  assert (view (snd patch_r) 0 (Pub n_name) = Some (OV (VStr (u "B")))) as -> by compute_now. done.
Qed.
Print Assumptions C103_ignored_refuted.
