(** Attributes have the types that the classes declare (_attr_types of all
    classes, for example CIM14/IEC61970/Core/Terminal.py:90;
    PyCIM/RDFXMLReader.py). *)
From Coq Require Import String ZArith.
From stdpp Require Import prelude gmap.
From Verif Require Import PyStr PyHeap Schema Assoc AssocSpec TableSpec TableFacts HeapFacts Reader ReaderSpec ReaderFacts FrameFacts CreateFacts
  Names TabCIM14 TabCIM15 TabProfiles Tables BlankFacts DocSpec DocFacts ReadDemo DocDemo PropReader PropDoc RoundSpec PropExport.
From Verif Require Import AttrTypes TabTypes TypesSpec PropClean.
From Verif Require Import Ecore EcoreSpec.
From Verif Require RoundTables PropWritable PropRound EcoreFacts PropEcore.

Definition type_b (v : val) (ty : pytype) : bool :=
  match v, ty with VBool _, TyBool | VInt _, TyInt | VFloat _, TyFloat | VStr _, TyStr => true | _, _ => false end.
Lemma type_b_ok v ty : type_b v ty = true → has_type v ty.
Proof. by destruct v, ty. Qed.
Definition is_none (v : val) : bool := match v with VNone => true | _ => false end.
Definition str_ty (ty : pytype) : bool := match ty with TyStr => true | _ => false end.
Fixpoint names_eqb (xs ys : list name) : bool :=
  match xs, ys with [], [] => true | x :: xs, y :: ys => str_eqb x y && names_eqb xs ys | _, _ => false end.
Lemma names_eqb_ok xs : ∀ ys, names_eqb xs ys = true → xs = ys.
Proof. induction xs as [|x xs IH]; intros [|y ys]; try done. cbn. by intros [->%str_eqb_eq ->%IH]%andb_true_iff. Qed.
Definition row_b (m : gmap name cls) (x : name * list (name * pytype)) : bool :=
  match m !! x.1 with
  | Some c => names_eqb (map fst x.2) (c_attrs c) && forallb (λ y : name * pytype,
      match assoc y.1 (c_defaults c) with Some v => type_b v y.2 | None => false end &&
      match assoc y.1 (c_params c) with
      | Some v => type_b v y.2 || str_eqb x.1 phase_cls && str_eqb y.1 n_phase && is_none v
      | None => false end &&
      match assoc y.1 (c_enums c) with Some _ => str_ty y.2 | None => true end &&
      (negb (str_eqb y.1 (u "UUID")) || str_ty y.2)) x.2
  | None => false
  end.
Definition types_b (x : (schema * list (name * name)) * types) : bool :=
  names_eqb (map fst x.2) (map c_key x.1.1) && let m := cmap x.1.1 in forallb (row_b m) x.2.
Lemma zip_l {A B} (xs : list A) : ∀ (ys : list B) p, p ∈ zip xs ys → p.1 ∈ xs.
Proof.
  induction xs as [|x xs IH]; intros [|y ys] p Hp; try by apply elem_of_nil in Hp. apply elem_of_cons in Hp as [->|Hp]; [by left|]. right. by eapply IH.
Qed.
Lemma types_true : forallb types_b (zip tables all_types) = true.
Proof. vm_compute. reflexivity. Qed.
Lemma types_row t pm M : typed t pm M → types_b ((t, pm), M) = true.
Proof. intros Hg. exact (all_rows_ok _ _ _ types_true Hg). Qed.
Lemma typed_in t pm M : typed t pm M → (t, pm) ∈ tables.
Proof. intros Hg. exact (zip_l _ _ _ Hg). Qed.
Lemma types14 : typed cim14 cim14_map cim14_types.
Proof. unfold typed. left. Qed.
Local Opaque tables all_types typed.
Lemma mro_fuel_finds S n : ∀ k c, c ∈ mro_fuel n S k → find_cls S (c_key c) = Some c.
Proof.
  induction n as [|n IH]; intros k c Hc; [by apply elem_of_nil in Hc|]. cbn [mro_fuel] in Hc. destruct (find_cls S k) as [c0|] eqn:E; [|by apply elem_of_nil in Hc].
  apply elem_of_cons in Hc as [->|Hc]; [destruct (find_cls_in _ _ _ E) as [_ ->]; done|]. destruct (c_base c0); [by eapply IH|by apply elem_of_nil in Hc].
Qed.
Lemma mro_finds S k c : c ∈ mro S k → find_cls S (c_key c) = Some c.
Proof. apply mro_fuel_finds. Qed.

(** *** C114 *)
(** The classes declare a type for each of their attributes, which is the type
    of its default and of the default of the constructor, with one exception. *)
Theorem C114_tables t pm M : typed t pm M → map fst M = map c_key t ∧ ∀ k ts, (k, ts) ∈ M → ∃ c, find_cls t k = Some c ∧
  map fst ts = c_attrs c ∧ ∀ a ty, (a, ty) ∈ ts →
    (∃ v, assoc a (c_defaults c) = Some v ∧ has_type v ty) ∧
    (∃ v, assoc a (c_params c) = Some v ∧ (has_type v ty ∨ k = phase_cls ∧ a = n_phase ∧ v = VNone)) ∧
    (is_Some (assoc a (c_enums c)) ∨ a = u "UUID" → ty = TyStr).
Proof.
  intros Hg%types_row. apply andb_true_iff in Hg as [H1 H2]. cbn beta iota delta [fst snd] in H1, H2.
  split; [by apply names_eqb_ok|]. intros k ts Hin. apply (all_rows_ok _ _ _ H2) in Hin. unfold row_b in Hin. cbn beta iota delta [fst snd] in Hin.
  rewrite cmap_find in Hin. destruct (find_cls t k) as [c|]; [|done]. exists c. split; [done|]. apply andb_true_iff in Hin as [Hn Hr].
  split; [by apply names_eqb_ok|]. intros a ty Ha. apply (all_rows_ok _ _ _ Hr) in Ha. cbn beta iota delta [fst snd] in Ha.
  apply andb_true_iff in Ha as [[[A1 A2]%andb_true_iff A3]%andb_true_iff A4]. split_and!.
  - destruct (assoc a (c_defaults c)) as [v|]; [|done]. exists v. split; [done|]. by apply type_b_ok.
  - destruct (assoc a (c_params c)) as [v|]; [|done]. exists v. split; [done|].
    apply orb_true_iff in A2 as [?%type_b_ok|[[?%str_eqb_eq ?%str_eqb_eq]%andb_true_iff Hv]%andb_true_iff]; [by left|right]. by destruct v.
  - intros [[dt E]| ->]; [rewrite E in A3; by destruct ty|]. rewrite str_eqb_refl in A4. by destruct ty.
Qed.
Print Assumptions C114_tables.

(** The types declared are those of the models. *)
Theorem C114_model t pm M T E : group t pm M → typed t pm T → E ∈ M → ∃ ts, (ec_key E, ts) ∈ T ∧
  of_model (ec_key E) (map fst ts) = map fst (ec_attrs E) ∧
  ∀ a ety ty, (a, ety) ∈ ec_attrs E → (a, ty) ∈ ts → ∀ v, of_type ety v ↔ has_type v ty.
Proof.
  intros Hg Hty HE. destruct (EcoreFacts.impl_ok t pm M Hg E HE) as (c & Hc & Him & _). destruct (C114_tables t pm T Hty) as [Hk HT].
  assert (ec_key E ∈ map fst T) as Hin. { rewrite Hk. apply elem_of_list_fmap. exists c. by destruct (find_cls_in _ _ _ Hc). }
  apply elem_of_list_fmap in Hin as ([k ts] & Ek & Hin). cbn [fst] in Ek. subst k. exists ts. split; [done|].
  destruct (HT _ _ Hin) as (c' & Hc' & Hat & Hdef). rewrite Hc in Hc'. injection Hc' as <-. split; [rewrite Hat; apply Him|].
  intros a ety ty Ha Hts v. destruct (Hdef a ty Hts) as ((dv & Hd & Hv) & _). rewrite (im_defaults _ _ _ Him a ety Ha) in Hd. injection Hd as <-.
  assert (∀ s, has_type (VStr s) ty → ty = TyStr) as Hs by (by destruct ty).
  assert (ty = match ety with TFloat => TyFloat | TInt => TyInt | TBool => TyBool | _ => TyStr end) as ->.
  { destruct ety as [| | | | | |n [|l ls]]; cbn [zero] in Hv; try exact (Hs _ Hv); by destruct ty. }
  destruct ety; cbn [of_type]; (split; [by intros [? ->]|]); destruct v; cbn [has_type]; intros ?; try done; by eexists.
Qed.
Print Assumptions C114_model.
(** The sequence number of terminals. *)
Example C114_model_example : group cim14 cim14_map TabEcore.ecore_cim14 ∧ typed cim14 cim14_map cim14_types ∧
  ∃ E, E ∈ TabEcore.ecore_cim14 ∧ ec_key E = n_CIM14_IEC61970_Core_Terminal_Terminal ∧ (n_sequenceNumber, TInt) ∈ ec_attrs E.
Proof.
  destruct PropEcore.C108_example as (Hg & _ & E & HE & Hk & _ & _ & _ & Ha). split; [exact Hg|].
  split; [exact types14|]. exists E. exact (conj HE (conj Hk Ha)).
Qed.

Lemma takes_type rdf pf v es w ty : takes_all rdf pf v es w → has_type v ty → (∀ e, e ∈ es → resource rdf e = None) ∨ ty = TyStr → has_type w ty.
Proof.
  induction 1 as [|v e w es x Htk _ IH]; intros Hv Hor; [done|]. apply IH; [|destruct Hor as [Hor|?]; [left; intros e' He'; apply Hor; by right|by right]].
  inversion Htk; subst; try done.
  - match goal with Hc : converts _ _ _ _ |- _ => inversion Hc; subst end; by destruct ty.
  - by destruct Hor as [Hor| ->]; [rewrite (Hor e) in *; [|by left]|].
Qed.
(** After reading, an attribute given by texts has the declared type. *)
Theorem C114_read t pm M base rdf f pf err root evs d h d' h' id k a ty : typed t pm M →
  Wf h → dict_alive d h → foreign_root base evs →
  reads base rdf t pm (S f) pf err root evs d h = (None, d', h') →
  declared_class base rdf pm evs id = Some k → k ∉ unconstructible → (k, a) ≠ (phase_cls, n_phase) → declares t M k a ty →
  (∀ e r, e ∈ about base rdf pm evs d id a → resource rdf e = Some r → ty = TyStr ∧ has_prefix (u "#") r = false) →
  ∃ o v, assoc id d' = Some (VRef o) ∧ shows t h' o a v ∧ has_type v ty.
Proof.
  intros Hg Hwf Hd Hf Hr Hk Hu Hne (c & ts & Hc & Hts & Ha) Hno.
  pose proof (typed_in _ _ _ Hg) as Ht. destruct (C114_tables t pm M Hg) as [_ HM].
  destruct (HM _ _ Hts) as (c' & Hf' & Hat & Hty). destruct (Hty a ty Ha) as ((dv & Hdv & Hdt) & _ & Hstr). clear HM Hty.
  assert (c' = c) as -> by (rewrite (mro_finds _ _ _ Hc) in Hf'; congruence). clear Hf'.
  assert (∃ c0, find_cls t k = Some c0) as [c0 Hc0].
  { destruct (declared_tag _ _ _ _ _ _ Hk) as [tag Htag%assoc_in]. destruct (map_class t pm tag k Ht Htag) as (c0 & ? & _). eauto. }
  assert (a ∈ c_attrs c) as Hac. { rewrite <- Hat. apply elem_of_list_fmap. by exists (a, ty). }
  pose proof (RoundTables.round_ok t pm _ _ Ht Hc0 Hu) as Hrc.
  assert (plain_attr t k a ∧ ∀ v0, starts t k id a v0 → has_type v0 ty) as [Hpl Hst].
  { destruct (decide (a = u "UUID")) as [->|Hna].
    - split; [split; [done|]; split; [by apply (PropWritable.uuid_plain t pm)|eauto]|]. intros v0 Hv0. unfold starts in Hv0. rewrite decide_True in Hv0 by done. subst v0.
      rewrite Hstr by (by right). done.
    - destruct (RoundTables.round_attr_ok _ _ Hrc c a Hc Hac Hna) as [Hpl Hdef]. split; [done|]. intros v0 Hv0. unfold starts in Hv0. rewrite decide_False in Hv0 by done.
      destruct (assoc a (c_enums c)) as [dt|] eqn:Een.
      + destruct (enum_start t pm k c0 c a dt v0 Ht Hc0 Hu Hc Een Hv0) as [(s & -> & _)|[-> ->]]; [|done]. rewrite Hstr by (left; by eexists). done.
      + destruct Hdef as (v & E1 & E2 & _). rewrite Hdv in E1. rewrite Hv0 in E2. congruence. }
  destruct (C87_attribute t pm base rdf f pf err root evs d h d' h' id k a Ht Hwf Hd Hf Hr Hk Hpl) as (o & v0 & v & Ho & Hs0 & Hta & Hsh).
  { intros e r He Hre. by eapply Hno. }
  exists o, v. split; [done|]. split; [done|]. eapply takes_type; [exact Hta|by apply Hst|].
  assert (ty = TyStr ∨ ty ≠ TyStr) as [->|Hnt] by (destruct ty; by auto); [by right|left]. intros e He. destruct (resource rdf e) as [r|] eqn:Er; [|done]. by destruct (Hno e r He Er).
Qed.
Print Assumptions C114_read.
(** A resource makes it a string, whatever its type. *)
Theorem C114_resource t pm base rdf f pf err root evs d h d' h' id k a es e r : (t, pm) ∈ tables →
  Wf h → dict_alive d h → foreign_root base evs →
  reads base rdf t pm (S f) pf err root evs d h = (None, d', h') →
  declared_class base rdf pm evs id = Some k → plain_attr t k a →
  about base rdf pm evs d id a = es ++ [e] → resource rdf e = Some r →
  (∀ e r, e ∈ about base rdf pm evs d id a → resource rdf e = Some r → has_prefix (u "#") r = false) →
  ∃ o p s, r = p ++ u "." ++ s ∧ 46%N ∉ s ∧ assoc id d' = Some (VRef o) ∧ shows t h' o a (VStr s) ∧ has_type (VStr s) TyStr.
Proof.
  intros Ht Hwf Hd Hf Hr Hk Hpl Hab Hre Hno.
  destruct (C87_attribute t pm base rdf f pf err root evs d h d' h' id k a Ht Hwf Hd Hf Hr Hk Hpl Hno) as (o & v0 & v & Ho & _ & Hta & Hsh).
  rewrite Hab in Hta. clear Hab Hno. revert v0 Hta. induction es as [|e' es IH]; intros v0 Hta.
  - inversion Hta as [|? ? w ? ? Htk Hnil]; subst. inversion Hnil; subst. inversion Htk; subst; try congruence.
    exists o, p, s. split_and!; [congruence|done..].
  - inversion Hta; subst. eauto.
Qed.
Print Assumptions C114_resource.
(** In the document of C87 terminal t1 is connected, which is declared to be a
    bool. *)
Lemma topo_typed : typed topo topo_map cim14_cpsm_topology_types.
Proof.
  Local Transparent tables all_types typed. unfold typed. do 7 right. left.
Qed.
Local Opaque tables all_types typed.
Example C114_example : typed topo topo_map cim14_cpsm_topology_types ∧ foreign_root Bt tied_doc ∧ Wf heap_empty ∧
  fst (fst (reads Bt R topo topo_map 20 pf_demo false root tied_doc [] heap_empty)) = None ∧
  declared_class Bt R topo_map tied_doc (u "t1") = Some n_CIM14_CPSM_Topology_Core_Terminal_Terminal ∧
  n_CIM14_CPSM_Topology_Core_Terminal_Terminal ∉ unconstructible ∧
  declares topo cim14_cpsm_topology_types n_CIM14_CPSM_Topology_Core_Terminal_Terminal n_connected TyBool ∧
  map e_text (about Bt R topo_map tied_doc [] (u "t1") n_connected) = [Some (u "tRUE")] ∧
  map (resource R) (about Bt R topo_map tied_doc [] (u "t1") n_connected) = [None].
Proof.
  split; [exact topo_typed|]. split; [apply tied_foreign|]. split; [exact (proj1 (so_consistent _ _ (Sound_empty topo)))|]. split; [compute_now|]. split; [compute_now|].
  split; [intros H%BlankFacts.existsb_str; revert H; vm_compute; discriminate|]. split; [|split; compute_now].
  destruct (mro topo n_CIM14_CPSM_Topology_Core_Terminal_Terminal) as [|c cs] eqn:E; [revert E; vm_compute; discriminate|].
  exists c, [(n_connected, TyBool)]. split; [rewrite E; by left|]. assert (c_key c = n_CIM14_CPSM_Topology_Core_Terminal_Terminal) as ->.
  { assert (option_map c_key (head (mro topo n_CIM14_CPSM_Topology_Core_Terminal_Terminal)) = Some n_CIM14_CPSM_Topology_Core_Terminal_Terminal) as H by compute_now.
    rewrite E in H. cbn [head option_map] in H. congruence. }
  split; [|by left]. unfold cim14_cpsm_topology_types. repeat first [by left | right].
Qed.
(** The phase of a line segment has the declared type str, but is None in the
    document of C113. *)
Theorem C114_declared_refuted : ∃ M evs d h o, typed cim15 cim15_map M ∧ declares cim15 M phase_cls n_phase TyStr ∧
  declared_class B15 R cim15_map evs (u "p1") = Some phase_cls ∧
  reads B15 R cim15 cim15_map 20 pf_demo false root evs [] heap_empty = (None, d, h) ∧ assoc (u "p1") d = Some (VRef o) ∧ shows cim15 h o n_phase VNone ∧
  ¬ has_type VNone TyStr.
Proof.
  exists cim15_types, phase_evs, (snd (fst phase_r)), (snd phase_r), 0.
  split. { Local Transparent tables all_types typed. unfold typed. right. left. }
  split.
  { destruct (mro cim15 phase_cls) as [|c cs] eqn:E; [revert E; vm_compute; discriminate|].
    exists c, [(n_phase, TyStr)]. split; [rewrite E; by left|]. assert (c_key c = phase_cls) as ->.
    { assert (option_map c_key (head (mro cim15 phase_cls)) = Some phase_cls) as H by compute_now.
      rewrite E in H. cbn [head option_map] in H. congruence. }
    split; [|by left]. apply assoc_in. compute_now. }
  split; [compute_now|]. split; [apply PropRound.triple_eq; [compute_now|reflexivity]|]. split; [compute_now|].
  split; [|intros []]. exists phase_cls. split; [compute_now|]. assert (lookup_prop cim15 phase_cls n_phase = None) as -> by compute_now. compute_now.
Qed.
Print Assumptions C114_declared_refuted.
