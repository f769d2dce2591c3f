(** The classes and the ecore models. *)
From Coq Require Import String ZArith.
From stdpp Require Import prelude gmap.
From Verif Require Import PyStr PyHeap Schema Assoc AssocSpec TableSpec History HistorySpec HeapFacts AssocFacts LinksFacts Reader ReaderSpec ReaderFacts
  Names TabCIM14 TabCIM15 TabProfiles Tables TableFacts BlankFacts ArgSpec DocSpec DocFacts VocabSpec VocabFacts GraphCheck HistoryFacts AdmCheck Demo PropAssoc ReadDemo DocDemo PropDoc
  Ecore TabEcore EcoreSpec EcoreFacts.
Local Opaque tables ecores cim14 cim15.

(** *** C108: the classes are those of the models *)
Theorem C108_classes t pm M E : group t pm M → E ∈ M →
  ∃ c, c ∈ t ∧ c_key c = ec_key E ∧ Implements M E c ∧ (ec_key E ∉ shadowed → assoc (ec_name E) pm = Some (ec_key E)).
Proof.
  intros Z I. destruct (impl_ok t pm M Z E I) as (c & Ec & IM & _). exists c. destruct (find_cls_in _ _ _ Ec) as [Ic Kc].
  split; [done|]. split; [done|]. split; [done|]. apply (rest_ok t pm M Z E I).
Qed.
Print Assumptions C108_classes.
Theorem C108_only t pm M c : group t pm M → c ∈ t → c_key c ∈ extra_classes ∨ ∃ E, E ∈ M ∧ ec_key E = c_key c.
Proof. intros Z. apply (group_parts t pm M Z). Qed.
Print Assumptions C108_only.
Theorem C108_extra t pm M E : group t pm M → E ∈ M → ec_key E ∉ extra_classes ∧
  (∀ a ty, (a, ty) ∈ ec_attrs E → (ec_key E, a) ∉ extra_features) ∧ (∀ r, r ∈ ec_refs E → (ec_key E, f_name r) ∉ extra_features).
Proof. intros Z. apply (not_extra t pm M Z). Qed.
Print Assumptions C108_extra.
(** The models themselves: supertypes exist and opposites are mutual. *)
Theorem C108_models t pm M E : group t pm M → E ∈ M →
  (∀ b, ec_super E = Some b → ∃ F, F ∈ M ∧ ec_key F = b) ∧
  (∀ r q, r ∈ ec_refs E → f_opposite r = Some q → ∃ F g, opposite M r F g) ∧
  (∀ r F g, r ∈ ec_refs E → opposite M r F g → opposite M g E r).
Proof. intros Z I. destruct (impl_ok t pm M Z E I) as (c & _ & _ & H). exact H. Qed.
Print Assumptions C108_models.
(** A new object. *)
Theorem C108_new t pm M E f h s : group t pm M → E ∈ M → ec_key E ∉ unconstructible → Wf h →
  ∃ o h', construct t (S f) (ec_key E) [] [(u "UUID", VStr s)] h = (inl (VRef o), h') ∧ Wf h' ∧ cls_of h' o = Some (ec_key E) ∧
    ∀ F, inherits M E F →
      (∀ a ty, (a, ty) ∈ ec_attrs F → a ≠ u "UUID" → fst (getattr t (VRef o) a h') = inl (zero ty)) ∧
      (∀ r, r ∈ ec_refs F → f_many r = false → fst (getattr t (VRef o) (f_name r) h') = inl VNone) ∧
      (∀ r, r ∈ ec_refs F → f_many r = true → (ec_key F, f_name r) ∉ unbound → fresh_empty t h' o (f_name r)).
Proof.
  intros Z I U W. destruct (impl_ok t pm M Z E I) as (c & Ec & _).
  destruct (new_blank t pm (ec_key E) c f h s (group_table t pm M Z) Ec U W) as (o & h' & X & W' & B).
  exists o, h'. split; [done|]. split; [done|]. split; [apply B|]. intros F H. destruct (inherits_in M E F H) as [_ IF].
  destruct (inherits_mro t pm M Z E F H) as (c1 & I1 & E1 & IM). split; [|split].
  - intros a ty A N. destruct (bl_attrs _ _ _ _ _ _ B c1 a I1 (attr_own M F c1 a ty IM A) N) as (d & D & G).
    rewrite (default_zero t pm M Z E F a ty H U A) in D. injection D as <-. exact G.
  - intros r J S. apply (bl_single _ _ _ _ _ _ B c1 (f_name r) I1 (ref_own M F c1 r IM J)). rewrite (im_many _ _ _ IM r J). by rewrite S.
  - intros r J S V. apply (bl_many _ _ _ _ _ _ B c1 (f_name r) I1); [by apply (im_many _ _ _ IM r J)|].
    apply (rest_ok t pm M Z F IF); done.
Qed.
Print Assumptions C108_new.

Lemma slot_view h o p v : Wf h → slot h o (Priv p) = Some v → is_Some (view h o (Priv p)).
Proof. intros W S. destruct (view h o (Priv p)) eqn:X; [by eexists|]. apply (view_None_slot _ _ _ W) in X. congruence. Qed.
(** *** C109: references connect what the models say they connect *)
Theorem C109_connect t pm M E F r g f h x y : group t pm M → Consistent t h →
  E ∈ M → r ∈ ec_refs E → opposite M r F g → (ec_key E, f_name r) ∉ views → (ec_key F, f_name g) ∉ views →
  instance_of M h x E → instance_of M h y F →
  (∀ k, cls_of h x = Some k → (k, f_name r) ∉ repeated) → (∀ k, cls_of h y = Some k → (k, f_name g) ∉ repeated) →
  has_slot h x (f_name r) → has_slot h y (f_name g) →
  ∃ h', (if f_many r then add t (S (S f)) (VRef x) (f_name r) [VRef y] h else setattr t (S (S f)) (VRef x) (f_name r) (VRef y) h) = (inl tt, h') ∧
    Consistent t h' ∧ same_classes h h' ∧ leads h' x (f_name r) y ∧ leads h' y (f_name g) x.
Proof.
  intros Z HC I J O V1 V2 (E1 & H1 & C1) (F1 & H2 & C2) R1 R2 [v1 S1] [v2 S2].
  destruct (impl_ok t pm M Z E I) as (_ & _ & _ & _ & _ & SY). pose proof (SY r F g J O) as O'. clear SY.
  destruct O as (IF & KF & JG & OP). assert (O : opposite M r F g) by done.
  destruct (ref_kind t pm M Z E1 E r H1 (R1 _ C1) J) as [_ K1]. specialize (K1 F g O V1).
  destruct (ref_kind t pm M Z F1 F g H2 (R2 _ C2) JG) as [_ K2]. specialize (K2 E r O' V2).
  assert (P1 : pkind t h x (f_name r) = Some (end_kind r g)) by (unfold pkind; rewrite C1; exact K1).
  assert (P2 : pkind t h y (f_name g) = Some (end_kind g r)) by (unfold pkind; rewrite C2; exact K2).
  clear K1 K2. unfold end_kind in P1, P2.
  destruct (f_many r) eqn:Mr, (f_many g) eqn:Mg.
  - assert (D : f_name r ≠ f_name g).
    { intros X. rewrite <- X in P1. unfold pkind in P1. rewrite C1 in P1. by apply (tables_distinct t pm (group_table t pm M Z) (ec_key E1) (f_name r)). }
    destruct (slot_view h x (f_name r) v1 (proj1 HC) S1) as [w1 W1]. destruct (slot_view h y (f_name g) v2 (proj1 HC) S2) as [w2 W2].
    destruct (lk_many_many _ _ (proj2 HC) _ _ _ _ P1 W1) as (ps & -> & _). destruct (lk_many_many _ _ (proj2 HC) _ _ _ _ P2 W2) as (qs & -> & _).
    destruct (add_many_many_exec t (S (S f)) h x (f_name r) (f_name g) y ps qs (proj1 HC) D P1 W1 W2) as (h' & X & HF & HA).
    exists h'. split; [done|]. split; [|split; [apply HF|split]].
    + split; [by eapply Frame_wf|].
      eapply (Links_ext (pkind t h) (pkind t h') (view h')); [intros; symmetry; by apply Frame_pkind|done|].
      eapply (Links_AddMany (pkind t h) (view h) (view h') x (f_name r) y (f_name g) ps qs); [apply HC|done|done|done|done|done].
    + right. exists (ps ++ [VRef y]). split; [by apply HA|]. apply elem_of_app. right. left.
    + right. eexists. split; [by apply HA|]. destruct (decide (VRef x ∈ qs)) as [Q|Q]; [done|]. apply elem_of_app. right. left.
  - destruct (slot_view h x (f_name r) v1 (proj1 HC) S1) as [w1 W1].
    destruct (lk_coll _ _ (proj2 HC) _ _ _ _ P1 W1) as (ys & -> & _).
    destruct (C03_add t f h x (f_name r) (f_name g) (f_name g) [y] ys HC P1 W1) as (h' & X & SC & AA & HC').
    { intros z ->%elem_of_list_singleton. assert (RS : resolves (pkind t h) y (f_name g) (f_name g)) by (left; split; [done|intros ? ?; congruence]).
      split; [|split; [done|by exists v2]]. split; [done|]. by exists (f_name g). }
    exists h'. split; [done|]. split; [done|]. split; [done|]. split.
    + right. eexists. split; [by apply AA|]. apply elem_of_app. right. apply elem_of_remove_dups. left.
    + left. apply AA. left.
  - destruct (slot_view h y (f_name g) v2 (proj1 HC) S2) as [w2 W2].
    destruct (lk_coll _ _ (proj2 HC) _ _ _ _ P2 W2) as (ys & -> & _).
    destruct (C01_set_single t (S f) h x (f_name r) (f_name g) (VRef y) HC P1) as (h' & X & SC & SS & HC').
    { by exists v1. }
    { right. exists y, ys. split; [done|]. split; [|done]. split; [done|]. exists (f_name r). split; [done|]. left. split; [done|].
      intros ? ?. congruence. }
    exists h'. split; [done|]. split; [done|]. split; [done|]. split.
    + left. apply SS.
    + right. eexists. split; [by apply (ss_new _ _ _ _ _ _ SS y ys)|]. apply elem_of_app. right. left.
  - assert (D : f_name r ≠ f_name g).
    { intros X. rewrite <- X in P1. unfold pkind in P1. rewrite C1 in P1. by apply (proj1 (tables_distinct t pm (group_table t pm M Z) (ec_key E1) (f_name r))). }
    destruct (C02_set_pair t f h x (f_name r) (f_name g) (VRef y) HC D P1) as (h' & X & SC & SP & HC').
    { by exists v1. }
    { right. exists y. split; [done|]. split; [done|by exists v2]. }
    exists h'. split; [done|]. split; [done|]. split; [done|]. split; [left; apply SP|left; by apply SP].
Qed.
Print Assumptions C109_connect.

(** *** C110: documents are read by the types of the models *)
Lemma of_type_zero ty : of_type ty (zero ty).
Proof. destruct ty as [| | | | | |n [|l ls]]; by eexists. Qed.
Lemma of_type_takes rdf pf ty v e w : of_type ty v → resource rdf e = None → takes rdf pf v e w → of_type ty w.
Proof.
  intros T R K. destruct K as [v e t w _ _ C|e _|s e _ _|v e _ _ _|v e uri p s X]; [| |destruct ty, T as [? ?]; try done; by eexists|done|congruence].
  - destruct ty, T as [? ->]; inversion C; by eexists.
  - destruct ty; by destruct T.
Qed.
Lemma of_type_all rdf pf ty es : ∀ v w, of_type ty v → (∀ e, e ∈ es → resource rdf e = None) → takes_all rdf pf v es w → of_type ty w.
Proof.
  induction es as [|e es IH]; intros v w T N K; inversion K as [|? ? x ? ? K1 K2]; subst; [done|]. apply (IH x); [|intros e' I; apply N; by right|done].
  apply (of_type_takes rdf pf ty v e); [done|apply N; left|done].
Qed.
Lemma means_takes rdf pf ty v e text w : of_type ty v → resource rdf e = None → e_text e = Some text → takes rdf pf v e w → means pf ty text w.
Proof.
  intros T R X K. destruct K as [v e t w _ Y C|e _|s e _ Y|v e _ Y _|v e uri p s Y]; [| |congruence|congruence|congruence].
  - rewrite X in Y. injection Y as <-. destruct ty, T as [? ->]; inversion C; subst; cbn; try done; eauto.
    + exists true. done.
    + exists false. done.
  - destruct ty; by destruct T.
Qed.
Section typed.
Context (t : schema) (pm : list (name * name)) (M : list eclass) (base rdf : pystr) (f : nat) (pf : pystr → option pystr) (err : bool) (root : elem)
  (evs : list event) (d : dict) (h : heap) (d' : dict) (h' : heap) (id : pystr) (E F : eclass) (a : name).
Theorem C110_typed ty : group t pm M → Wf h → dict_alive d h → foreign_root base evs →
  reads base rdf t pm (S f) pf err root evs d h = (None, d', h') →
  declared_class base rdf pm evs id = Some (ec_key E) → ec_key E ∉ unconstructible → inherits M E F → (a, ty) ∈ ec_attrs F → a ≠ u "UUID" →
  (∀ e, e ∈ about base rdf pm evs d id a → resource rdf e = None) →
  ∃ o v, assoc id d' = Some (VRef o) ∧ shows t h' o a v ∧ of_type ty v ∧ (about base rdf pm evs d id a = [] → v = zero ty) ∧
    ∀ es e text, about base rdf pm evs d id a = es ++ [e] → e_text e = Some text → means pf ty text v.
Proof.
  intros Z W A R X D U H T N S. pose proof (attr_plain t pm M Z E F a ty H T) as P.
  destruct (C87_attribute t pm base rdf f pf err root evs d h d' h' id (ec_key E) a (group_table t pm M Z) W A R X D P) as (o & v0 & v & O & S0 & K & V).
  { intros e r I J. rewrite (S e I) in J. done. }
  unfold starts in S0. rewrite decide_False in S0 by done. rewrite (default_zero t pm M Z E F a ty H U T) in S0. injection S0 as <-.
  exists o, v. split; [done|]. split; [done|]. split; [|split].
  - apply (of_type_all rdf pf ty _ (zero ty) v (of_type_zero ty) S K).
  - intros Q. rewrite Q in K. by inversion K.
  - intros es e text Q Y. rewrite Q in K, S. apply takes_all_snoc in K as (w & K1 & K2). apply (means_takes rdf pf ty w e text v).
    + apply (of_type_all rdf pf ty es (zero ty) w (of_type_zero ty)); [|done]. intros e' I. apply S. apply elem_of_app. by left.
    + apply S. apply elem_of_app. right. left.
    + done.
    + done.
Qed.
(** A literal of an enumeration, by its name after the last dot of the resource. *)
Theorem C110_literal n ls l es e p : group t pm M → Wf h → dict_alive d h → foreign_root base evs →
  reads base rdf t pm (S f) pf err root evs d h = (None, d', h') →
  declared_class base rdf pm evs id = Some (ec_key E) → inherits M E F → (a, TEnum n ls) ∈ ec_attrs F → l ∈ ls →
  (∀ e r, e ∈ about base rdf pm evs d id a → resource rdf e = Some r → has_prefix (u "#") r = false) →
  about base rdf pm evs d id a = es ++ [e] → resource rdf e = Some (p ++ u "." ++ l) →
  ∃ o, assoc id d' = Some (VRef o) ∧ shows t h' o a (VStr l).
Proof.
  intros Z W A R X D H T L S Q Y. pose proof (attr_plain t pm M Z E F a _ H T) as P.
  destruct (C87_attribute t pm base rdf f pf err root evs d h d' h' id (ec_key E) a (group_table t pm M Z) W A R X D P S) as (o & v0 & v & O & S0 & K & V).
  exists o. split; [done|]. rewrite Q in K. apply takes_all_snoc in K as (w & K1 & K2). destruct (inherits_in M E F H) as [_ IF].
  assert (K3 : takes rdf pf w e (VStr l)).
  { apply (tk_enum rdf pf w e (p ++ u "." ++ l) p l); [done| |done|].
    - apply (S e); [|done]. rewrite Q. apply elem_of_app. right. left.
    - destruct (rest_ok t pm M Z F IF) as (_ & _ & LL). exact (LL a n ls l T L). }
  by rewrite (takes_fun _ _ _ _ _ _ K2 K3) in V.
Qed.
End typed.
Print Assumptions C110_typed.
Print Assumptions C110_literal.

(** *** Examples *)
Definition at_key (M : list eclass) (k : name) (P : eclass → bool) : bool :=
  match List.find (λ E, str_eqb k (ec_key E)) M with Some E => P E | None => false end.
Lemma at_key_ok M k P : at_key M k P = true → ∃ E, E ∈ M ∧ ec_key E = k ∧ P E = true.
Proof.
  unfold at_key. destruct (List.find _ M) as [E|] eqn:X; [|done]. intros Y. apply List.find_some in X as [I K]. apply str_eqb_eq in K.
  exists E. split; [by apply elem_of_list_In|done].
Qed.
Lemma group14 : group cim14 cim14_map ecore_cim14.
Proof. apply (elem_of_list_lookup_2 _ 0). reflexivity. Qed.
Lemma group15 : group cim15 cim15_map ecore_cim15.
Proof. apply (elem_of_list_lookup_2 _ 1). reflexivity. Qed.
Definition etype_b (a b : etype) : bool :=
  match a, b with
  | TText, TText | TDate, TDate | TFloat, TFloat | TInt, TInt | TBig, TBig | TBool, TBool => true
  | TEnum n _, TEnum m _ => str_eqb n m
  | _, _ => false
  end.
Definition has_attr (a : name) (ty : etype) (E : eclass) : bool := existsb (λ x, str_eqb x.1 a && etype_b x.2 ty) (ec_attrs E).
Lemma has_attr_ok a ty E : has_attr a ty E = true → ∃ ty', (a, ty') ∈ ec_attrs E ∧ etype_b ty' ty = true.
Proof.
  intros X. apply existsb_exists in X as ([b ty'] & I & X). apply andb_prop in X as [X Y]. apply str_eqb_eq in X. cbn in X, Y. subst b.
  exists ty'. split; [by apply elem_of_list_In|done].
Qed.
Global Instance eref_eq_dec : EqDecision eref.
Proof. solve_decision. Defined.
Definition has_ref (r : eref) (E : eclass) : bool := existsb (λ x, bool_decide (x = r)) (ec_refs E).
Lemma has_ref_ok r E : has_ref r E = true → r ∈ ec_refs E.
Proof. intros X. apply existsb_exists in X as (x & I & X). apply bool_decide_eq_true in X as ->. by apply elem_of_list_In. Qed.
Lemma has_slot_ok h o p : (match slot h o (Priv p) with Some _ => true | None => false end) = true → has_slot h o p.
Proof. unfold has_slot. destruct (slot h o (Priv p)) as [v|]; [by eexists|done]. Qed.
(** The terminals of CIM14. *)
Definition to_node : eref := ERef n_ConnectivityNode n_CIM14_IEC61970_Core_ConnectivityNode_ConnectivityNode false (Some n_Terminals).
Definition to_terminals : eref := ERef n_Terminals n_CIM14_IEC61970_Core_Terminal_Terminal true (Some n_ConnectivityNode).
Example C108_example : group cim14 cim14_map ecore_cim14 ∧ Wf g14 ∧ ∃ E, E ∈ ecore_cim14 ∧ ec_key E = n_CIM14_IEC61970_Core_Terminal_Terminal ∧
  ec_key E ∉ unconstructible ∧ ec_key E ∉ shadowed ∧ to_node ∈ ec_refs E ∧ (n_sequenceNumber, TInt) ∈ ec_attrs E.
Proof.
  split; [exact group14|]. split; [apply g14_Consistent|].
  destruct (at_key_ok ecore_cim14 n_CIM14_IEC61970_Core_Terminal_Terminal (λ E, has_ref to_node E && has_attr n_sequenceNumber TInt E)) as (E & I & K & P).
  { vm_compute. reflexivity. }
  apply andb_prop in P as [P1 P2]. exists E. split; [done|]. split; [done|]. rewrite K. split; [|split; [|split]].
  - apply (bool_decide_eq_true (_ ∉ _)). vm_compute. reflexivity.
  - apply (bool_decide_eq_true (_ ∉ _)). vm_compute. reflexivity.
  - by apply has_ref_ok.
  - apply has_attr_ok in P2 as (ty & J & Y). by destruct ty.
Qed.
(** Terminal 0 of the example graph moves to node 3. *)
Example C109_example : group cim14 cim14_map ecore_cim14 ∧ Consistent cim14 g14 ∧ ∃ E F, E ∈ ecore_cim14 ∧ to_node ∈ ec_refs E ∧
  opposite ecore_cim14 to_node F to_terminals ∧ (ec_key E, f_name to_node) ∉ views ∧ (ec_key F, f_name to_terminals) ∉ views ∧
  instance_of ecore_cim14 g14 0 E ∧ instance_of ecore_cim14 g14 3 F ∧
  (∀ k, cls_of g14 0 = Some k → (k, f_name to_node) ∉ repeated) ∧ (∀ k, cls_of g14 3 = Some k → (k, f_name to_terminals) ∉ repeated) ∧
  has_slot g14 0 (f_name to_node) ∧ has_slot g14 3 (f_name to_terminals).
Proof.
  split; [exact group14|]. split; [apply g14_Consistent|].
  destruct (at_key_ok ecore_cim14 n_CIM14_IEC61970_Core_Terminal_Terminal (has_ref to_node)) as (E & I & K & P); [vm_compute; reflexivity|].
  destruct (at_key_ok ecore_cim14 n_CIM14_IEC61970_Core_ConnectivityNode_ConnectivityNode (has_ref to_terminals)) as (F & IF & KF & PF); [vm_compute; reflexivity|].
  apply has_ref_ok in P, PF. exists E, F. split; [done|]. split; [done|]. split; [done|].
  rewrite K, KF. split; [apply (bool_decide_eq_true (_ ∉ _)); vm_compute; reflexivity|].
  split; [apply (bool_decide_eq_true (_ ∉ _)); vm_compute; reflexivity|].
  split. { exists E. split; [by constructor|]. rewrite K. vm_compute. reflexivity. }
  split. { exists F. split; [by constructor|]. rewrite KF. vm_compute. reflexivity. }
  assert (X : cls_of g14 0 = Some n_CIM14_IEC61970_Core_Terminal_Terminal) by (vm_compute; reflexivity).
  assert (Y : cls_of g14 3 = Some n_CIM14_IEC61970_Core_ConnectivityNode_ConnectivityNode) by (vm_compute; reflexivity).
  rewrite X, Y. split; [intros k [= <-]; apply (bool_decide_eq_true (_ ∉ _)); vm_compute; reflexivity|].
  split; [intros k [= <-]; apply (bool_decide_eq_true (_ ∉ _)); vm_compute; reflexivity|].
  split; apply has_slot_ok; vm_compute; reflexivity.
Qed.
(** A breaker is conducting equipment, but what is added to its protection
    equipment is not linked to it by [ConductingEquipments]. *)
Definition protecting : eref :=
  ERef n_ProtectionEquipments n_CIM15_IEC61970_Protection_ProtectionEquipment_ProtectionEquipment true (Some n_ConductingEquipments).
Definition protected : eref :=
  ERef n_ConductingEquipments n_CIM15_IEC61970_Core_ConductingEquipment_ConductingEquipment true (Some n_ProtectionEquipments).
Definition relay_prog : list op := [ONew n_CIM15_IEC61970_Wires_Breaker_Breaker []; ONew n_CIM15_IEC61970_Protection_ProtectionEquipment_ProtectionEquipment []].
Definition relay_d := Eval vm_compute in dump (snd (run_ops cim15 20 relay_prog heap_empty)).
Definition relay : heap := undump relay_d.
Fixpoint inherits_b (M : list eclass) (n : nat) (E : eclass) (k : name) : bool :=
  str_eqb (ec_key E) k ||
  match n, ec_super E with
  | S n, Some b => match List.find (λ F, str_eqb b (ec_key F)) M with Some F => inherits_b M n F k | None => false end
  | _, _ => false
  end.
Lemma inherits_b_ok M n k F : NoDup (map ec_key M) → F ∈ M → ec_key F = k → ∀ E, E ∈ M → inherits_b M n E k = true → inherits M E F.
Proof.
  intros N I K. induction n as [|n IH]; intros E J X; cbn [inherits_b] in X; apply orb_prop in X as [X|X]; try done.
  - apply str_eqb_eq in X. rewrite (key_unique M E F N J I) by congruence. by constructor.
  - apply str_eqb_eq in X. rewrite (key_unique M E F N J I) by congruence. by constructor.
  - destruct (ec_super E) as [b|] eqn:S; [|done]. destruct (List.find _ M) as [G|] eqn:Y; [|done]. apply List.find_some in Y as [IG Y].
    apply elem_of_list_In in IG. apply str_eqb_eq in Y as ->. apply (inh_super M E G F J S). by apply IH.
Qed.
Theorem C109_inherited_refuted : ∃ E F, E ∈ ecore_cim15 ∧ protecting ∈ ec_refs E ∧ opposite ecore_cim15 protecting F protected ∧
  (ec_key E, f_name protecting) ∉ views ∧ (ec_key F, f_name protected) ∉ views ∧ Consistent cim15 relay ∧
  instance_of ecore_cim15 relay 0 E ∧ instance_of ecore_cim15 relay 1 F ∧ has_slot relay 0 (f_name protecting) ∧ has_slot relay 1 (f_name protected) ∧
  ∃ h', add cim15 20 (VRef 0) (f_name protecting) [VRef 1] relay = (inl tt, h') ∧ leads h' 0 (f_name protecting) 1 ∧
    ¬ leads h' 1 (f_name protected) 0 ∧ leads h' 1 n_ProtectedSwitches 0.
Proof.
  destruct (group_parts _ _ _ group15) as (N & _).
  destruct (at_key_ok ecore_cim15 n_CIM15_IEC61970_Core_ConductingEquipment_ConductingEquipment (has_ref protecting)) as (E & I & K & P); [vm_compute; reflexivity|].
  destruct (at_key_ok ecore_cim15 n_CIM15_IEC61970_Protection_ProtectionEquipment_ProtectionEquipment (has_ref protected)) as (F & IF & KF & PF); [vm_compute; reflexivity|].
  destruct (at_key_ok ecore_cim15 n_CIM15_IEC61970_Wires_Breaker_Breaker (λ B, inherits_b ecore_cim15 5 B n_CIM15_IEC61970_Core_ConductingEquipment_ConductingEquipment))
    as (B & IB & KB & PB); [vm_compute; reflexivity|].
  apply has_ref_ok in P, PF. exists E, F. split; [done|]. split; [done|]. split; [done|].
  rewrite K, KF. split; [apply (bool_decide_eq_true (_ ∉ _)); vm_compute; reflexivity|].
  split; [apply (bool_decide_eq_true (_ ∉ _)); vm_compute; reflexivity|].
  split. { apply (inv_b_ok cim15 relay). vm_compute. reflexivity. }
  split. { exists B. split; [by apply (inherits_b_ok _ 5 _ E N I K)|]. rewrite KB. vm_compute. reflexivity. }
  split. { exists F. split; [by constructor|]. rewrite KF. vm_compute. reflexivity. }
  split; [apply has_slot_ok; vm_compute; reflexivity|]. split; [apply has_slot_ok; vm_compute; reflexivity|].
  assert (X : let r := add cim15 20 (VRef 0) (f_name protecting) [VRef 1] relay in
    (match r.1 with inl _ => true | inr _ => false end) && bool_decide (view r.2 0 (Priv n_ProtectionEquipments) = Some (OL [VRef 1])) &&
    bool_decide (view r.2 1 (Priv n_ConductingEquipments) = Some (OL [])) && bool_decide (view r.2 1 (Priv n_ProtectedSwitches) = Some (OL [VRef 0])) = true)
    by (vm_compute; reflexivity).
  cbv zeta in X. destruct (add cim15 20 (VRef 0) (f_name protecting) [VRef 1] relay) as [[[]|x] h']; [|discriminate X].
  cbn beta iota delta [fst snd] in X. apply andb_prop in X as [X X4]. apply andb_prop in X as [X X3]. apply andb_prop in X as [_ X2].
  apply bool_decide_eq_true in X2, X3, X4. exists h'. split; [reflexivity|]. split; [right; exists [VRef 1]; split; [exact X2|left]|]. split.
  - intros [Y|(ys & Y & Q)]; change (f_name protected) with n_ConductingEquipments in Y; rewrite X3 in Y; [discriminate Y|].
    injection Y as <-. by apply elem_of_nil in Q.
  - right. exists [VRef 0]. split; [exact X4|left].
Qed.
Print Assumptions C109_inherited_refuted.
(** A generating unit: a big integer, a number and a literal are stated. *)
Definition B15 : pystr := u "{" ++ cim15_uri ++ u "#}".
Definition unit_doc : list event :=
  flat B15 [obj "GeneratingUnit" "g1" [att "GeneratingUnit.modelDetail" "5"; att "GeneratingUnit.maxOperatingP" "10";
    ref "GeneratingUnit.genControlSource" "http://iec.ch/TC57/2010/CIM-schema-cim15#GeneratorControlSource.offAGC"]] ++ [EEnd root].
Definition unit_read := reads B15 R cim15 cim15_map 20 pf_demo false root unit_doc [] heap_empty.
Definition the_unit : name := n_CIM15_IEC61970_Generation_Production_GeneratingUnit_GeneratingUnit.
Example C110_example : group cim15 cim15_map ecore_cim15 ∧ foreign_root B15 unit_doc ∧ fst (fst unit_read) = None ∧
  declared_class B15 R cim15_map unit_doc (u "g1") = Some the_unit ∧ the_unit ∉ unconstructible ∧
  (∃ E, E ∈ ecore_cim15 ∧ ec_key E = the_unit ∧ (n_maxOperatingP, TFloat) ∈ ec_attrs E ∧
    ∃ n ls, (n_genControlSource, TEnum n ls) ∈ ec_attrs E ∧ u "offAGC" ∈ ls) ∧
  map e_text (about B15 R cim15_map unit_doc [] (u "g1") n_maxOperatingP) = [Some (u "10")] ∧
  map (resource R) (about B15 R cim15_map unit_doc [] (u "g1") n_genControlSource) =
    [Some (u "http://iec.ch/TC57/2010/CIM-schema-cim15#GeneratorControlSource" ++ u "." ++ u "offAGC")].
Proof.
  split; [exact group15|]. split; [apply foreign_b_ok; vm_compute; reflexivity|]. split; [vm_compute; reflexivity|].
  split; [vm_compute; reflexivity|]. split; [apply (bool_decide_eq_true (_ ∉ _)); vm_compute; reflexivity|].
  split; [|split; vm_compute; reflexivity].
  destruct (at_key_ok ecore_cim15 the_unit (λ E, has_attr n_maxOperatingP TFloat E &&
    existsb (λ x, str_eqb x.1 n_genControlSource && match x.2 with TEnum _ ls => existsb (str_eqb (u "offAGC")) ls | _ => false end) (ec_attrs E))) as (E & I & K & P);
    [vm_compute; reflexivity|].
  apply andb_prop in P as [P1 P2]. exists E. split; [done|]. split; [done|]. apply has_attr_ok in P1 as (ty & J & Y). split; [by destruct ty|].
  apply existsb_exists in P2 as ([a x] & J2 & Q). apply andb_prop in Q as [Q1 Q2]. apply str_eqb_eq in Q1. cbn beta iota delta [fst snd] in Q1, Q2. subst a.
  destruct x as [| | | | | |n ls]; try discriminate Q2. exists n, ls. split; [by apply elem_of_list_In|]. apply existsb_exists in Q2 as (l & J3 & Q2).
  apply str_eqb_eq in Q2 as ->. by apply elem_of_list_In.
Qed.
(** The big integer is kept as text. *)
Theorem C110_integer_refuted : ∃ E d' h' o, E ∈ ecore_cim15 ∧ ec_key E = the_unit ∧ (n_modelDetail, TBig) ∈ ec_attrs E ∧
  unit_read = (None, d', h') ∧ assoc (u "g1") d' = Some (VRef o) ∧ shows cim15 h' o n_modelDetail (VStr (u "5")).
Proof.
  destruct (at_key_ok ecore_cim15 the_unit (has_attr n_modelDetail TBig)) as (E & I & K & P); [vm_compute; reflexivity|].
  apply has_attr_ok in P as (ty & J & Y).
  assert (X : (match unit_read.1.1 with None => true | Some _ => false end) && bool_decide (assoc (u "g1") unit_read.1.2 = Some (VRef 0)) &&
    bool_decide (cls_of unit_read.2 0 = Some the_unit) && bool_decide (view unit_read.2 0 (Pub n_modelDetail) = Some (OV (VStr (u "5")))) = true) by (vm_compute; reflexivity).
  destruct unit_read as [[[x|] d'] h']; [discriminate X|]. cbn beta iota delta [fst snd] in X.
  apply andb_prop in X as [X X4]. apply andb_prop in X as [X X3]. apply andb_prop in X as [_ X2]. apply bool_decide_eq_true in X2, X3, X4.
  exists E, d', h', 0. split; [done|]. split; [done|]. split; [by destruct ty|]. split; [reflexivity|]. split; [exact X2|]. exists the_unit. split; [exact X3|].
  assert (L : lookup_prop cim15 the_unit n_modelDetail = None) by (vm_compute; reflexivity). rewrite L. exact X4.
Qed.
Print Assumptions C110_integer_refuted.
