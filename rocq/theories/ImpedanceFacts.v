(** The impedance references of the CIM15 ACLineSegment. *)
From Coq Require Import String.
From stdpp Require Import prelude gmap.
From Verif Require Import PyStr PyHeap Schema Assoc AssocSpec HeapFacts LinksFacts AssocFacts HistorySpec Names TabCIM15.

Notation acls := n_CIM15_IEC61970_Wires_ACLineSegment_ACLineSegment.
Notation plsi := n_CIM15_IEC61970_Wires_PerLengthSequenceImpedance_PerLengthSequenceImpedance.
Notation plpi := n_CIM15_IEC61970_Wires_PerLengthPhaseImpedance_PerLengthPhaseImpedance.

Lemma acls_kinds :
  lookup_prop cim15 acls n_PerLengthImpedance = Some (POneMany n_LineSegments) ∧
  lookup_prop cim15 acls n_SequenceImpedance = Some (PAlias n_PerLengthImpedance plsi) ∧
  lookup_prop cim15 acls n_PhaseImpedance = Some (PAlias n_PerLengthImpedance plpi).
Proof. vm_compute. done. Qed.

Lemma acls_pkind h s p : cls_of h s = Some acls → pkind cim15 h s p = lookup_prop cim15 acls p.
Proof. intros Hc. unfold pkind. by rewrite Hc. Qed.

Lemma plsi_plpi : plsi ≠ plpi.
Proof. by vm_compute. Qed.

Lemma impedance_views h s w :
  cls_of h s = Some acls → slot h s (Priv n_PerLengthImpedance) = Some w →
  let seq := fst (getattr cim15 (VRef s) n_SequenceImpedance h) in
  let pha := fst (getattr cim15 (VRef s) n_PhaseImpedance h) in
  fst (getattr cim15 (VRef s) n_PerLengthImpedance h) = inl w ∧
  (seq = inl (if decide (val_cls h w = Some plsi) then w else VNone)) ∧
  (pha = inl (if decide (val_cls h w = Some plpi) then w else VNone)) ∧
  (seq = inl VNone ∨ pha = inl VNone).
Proof.
  intros Hc Hs. destruct acls_kinds as (K1 & K2 & K3). cbv zeta.
  assert (fst (getattr cim15 (VRef s) n_SequenceImpedance h) =
    inl (if decide (val_cls h w = Some plsi) then w else VNone)) as E1.
  { unfold getattr. rewrite obj_prop_pkind, acls_pkind, K2 by done. erewrite bind_inl by (by apply read_key_ok).
    cbv beta. destruct (decide (val_cls h w = _)); reflexivity. }
  assert (fst (getattr cim15 (VRef s) n_PhaseImpedance h) =
    inl (if decide (val_cls h w = Some plpi) then w else VNone)) as E2.
  { unfold getattr. rewrite obj_prop_pkind, acls_pkind, K3 by done. erewrite bind_inl by (by apply read_key_ok).
    cbv beta. destruct (decide (val_cls h w = Some plpi)); reflexivity. }
  split_and!; [|done|done|].
  - unfold getattr. rewrite obj_prop_pkind, acls_pkind, K1 by done. unfold read_key. by rewrite Hs.
  - rewrite E1, E2. destruct (decide (val_cls h w = Some plsi)) as [Ha|]; [|by left].
    right. rewrite decide_False; [done|]. rewrite Ha. intros [=].
Qed.

Lemma impedance_assign f h s p w :
  Consistent cim15 h → cls_of h s = Some acls →
  p ∈ [n_SequenceImpedance; n_PhaseImpedance; n_PerLengthImpedance] →
  has_slot h s n_PerLengthImpedance →
  fits_one_many cim15 h s n_PerLengthImpedance n_LineSegments w →
  ∃ h', setattr cim15 (S (S f)) (VRef s) p w h = (inl tt, h') ∧ same_classes h h' ∧
    SetSingle (view h) (view h') s n_PerLengthImpedance n_LineSegments w ∧ Consistent cim15 h'.
Proof.
  intros HC Hc Hp [v Hv] Hw. destruct acls_kinds as (K1 & K2 & K3).
  rewrite <- (acls_pkind h s) in K1, K2, K3 by done.
  assert (∃ f', setattr cim15 (S (S f)) (VRef s) p w h = setattr cim15 (S f') (VRef s) n_PerLengthImpedance w h) as [f' ->].
  { apply setattr_resolves with (q := n_LineSegments); [|done].
    rewrite !elem_of_cons in Hp. destruct Hp as [->|[->|[->|Hp]]].
    - right. eauto.
    - right. eauto.
    - left. split; [done|]. congruence.
    - by apply elem_of_nil in Hp. }
  destruct (set_one_many_effect cim15 f' h s _ _ v w HC K1 Hv Hw) as (h' & E & HF & HS).
  exists h'. split_and!; [done|apply HF|done|]. by eapply Consistent_SetSingle.
Qed.

(** Constructor calls without positional arguments. *)
Lemma assoc_bound_nil (kw : list (name * val)) :
  existsb (λ '(k, _), match assoc k ([] : list (name * val)) with Some _ => true | None => false end) kw = false.
Proof. induction kw as [|[k v] kw IH]; [done|]. exact IH. Qed.
Lemma bind_args_nil ps kw :
  bind_args ps [] kw =
    Some (map (λ '(p, d), (p, default d (assoc p kw))) ps, [],
          filter (λ '(k, _), assoc k ps = None) kw).
Proof. unfold bind_args. destruct ps as [|[p d] ps]; simpl; by rewrite assoc_bound_nil. Qed.
Lemma assoc_env ps (kw : list (name * val)) p :
  assoc p (map (λ '(p, d), (p, default d (assoc p kw))) ps) = (λ d, default d (assoc p kw)) <$> assoc p ps.
Proof.
  induction ps as [|[p' d] ps IH]; [done|]. simpl. destruct (str_eqb p p') eqn:E; [|done].
  by apply str_eqb_eq in E as ->.
Qed.

(** [h'] is [h] except for the dictionary of [o]. *)
Definition only (o : nat) (h h' : heap) : Prop :=
  same_classes h h' ∧ h_lists h' = h_lists h ∧ ∀ o' k, o' ≠ o → slot h' o' k = slot h o' k.
Lemma only_refl o h : only o h h.
Proof. by split. Qed.
Lemma only_trans o h1 h2 h3 : only o h1 h2 → only o h2 h3 → only o h1 h3.
Proof.
  intros (A1 & B1 & C1) (A2 & B2 & C2). split_and!; [by eapply same_classes_trans|congruence|].
  intros o' k Hne. by rewrite C2, C1.
Qed.
Lemma only_hset o h k v : is_Some (cls_of h o) → only o h (hset o k v h).
Proof.
  intros Hc. split_and!; [apply same_classes_hset|done|]. intros o' k' Hne. rewrite slot_hset_ne; [done|congruence].
Qed.
Lemma only_view o h h' : only o h h' → ∀ o' k, o' ≠ o → view h' o' k = view h o' k.
Proof. intros (_ & HL & Hs) o' k Hne. unfold view. by rewrite HL, Hs. Qed.

Lemma run_sattrs S f o ck env attrs : ∀ h rest,
  cls_of h o = Some ck → Forall (λ a, lookup_prop S ck a = None) attrs →
  ∃ h', for_each (map SAttr attrs ++ rest) (run_step S (Datatypes.S f) (VRef o) env) h =
    for_each rest (run_step S (Datatypes.S f) (VRef o) env) h' ∧ only o h h'.
Proof.
  induction attrs as [|a attrs IH]; intros h rest Hc Hf; [exists h; split; [done|apply only_refl]|].
  apply Forall_cons in Hf as [Ha Hf].
  assert (is_Some (cls_of h o)) as Hc' by eauto.
  set (h1 := hset o (key_of a) (env_get env a) h).
  assert (only o h h1) as H1 by (by apply only_hset).
  destruct (IH h1 rest) as (h2 & E & H2); [by rewrite (proj1 H1)|done|].
  exists h2. split; [|by eapply only_trans]. cbn [map app for_each]. rewrite <- E. cbn [run_step].
  erewrite bind_inl; [reflexivity|]. apply set_plain; [|done]. unfold pkind. by rewrite Hc.
Qed.

Global Instance step_eq_dec : EqDecision step.
Proof. solve_decision. Defined.
Definition steps_eqb (a b : list step) : bool := bool_decide (a = b).
Lemma steps_eqb_ok a b : steps_eqb a b = true → a = b.
Proof. by intros ?%bool_decide_eq_true. Qed.
Definition imp_names : list name := [u "SequenceImpedance"; u "PhaseImpedance"; u "PerLengthImpedance"].

Lemma impedance_ctor_gen S ck c0 c r attrs rest f h kw p p' v v' :
  find_cls S ck = Some c0 → mro S ck = c :: r → c_steps c = map SAttr attrs ++ SImpedance :: rest →
  Forall (λ a, lookup_prop S ck a = None) attrs → (∀ n, n ∈ imp_names → assoc n (c_params c) = Some VNone) →
  c_kw c = true →
  p ∈ imp_names → p' ∈ imp_names → p ≠ p' →
  assoc p kw = Some v → assoc p' kw = Some v' → v ≠ VNone → v' ≠ VNone →
  ∃ h', construct S (Datatypes.S f) ck [] kw h = (inr ValueError, h') ∧
    ∀ o k, is_Some (cls_of h o) → cls_of h' o = cls_of h o ∧ view h' o k = view h o k.
Proof.
  intros Ef Em Hst Hat Hpa Hkw Hp Hp' Hne Hv Hv' Hn Hn'.
  unfold construct. rewrite Ef, Em.
  set (o := fresh_obj h). set (h1 := Heap (<[o := Obj ck ∅]> (h_objs h)) (h_lists h)).
  assert (cls_of h o = None) as Hfr by (unfold cls_of, o; by rewrite fresh_obj_None).
  assert (cls_of h1 o = Some ck) as Hc1 by (unfold cls_of, h1; simpl; by rewrite lookup_insert).
  assert (∀ o' k, o' ≠ o → cls_of h1 o' = cls_of h o' ∧ slot h1 o' k = slot h o' k) as Hold.
  { intros o' k Hoo. unfold cls_of, slot, h1; simpl. by rewrite lookup_insert_ne. }
  cbn [init_chain]. rewrite bind_args_nil, Hkw. cbn [negb andb].
  set (env := map _ (c_params c)).
  assert (∀ n w, n ∈ imp_names → assoc n kw = Some w → env_get env n = w) as Henv.
  { intros n w Hin Hw. unfold env_get, env. rewrite assoc_env, (Hpa _ Hin). simpl. by rewrite Hw. }
  rewrite Hst.
  destruct (run_sattrs S f o ck env attrs h1 (SImpedance :: rest)) as (h2 & E2 & Ho2); [done..|].
  assert (∃ h3, run_step S (Datatypes.S f) (VRef o) env SImpedance h2 = (inr ValueError, h3) ∧ only o h2 h3) as (h3 & E3 & Ho3).
  { assert (env_get env p ≠ VNone) as Hq by (by rewrite (Henv p v)).
    assert (env_get env p' ≠ VNone) as Hq' by (by rewrite (Henv p' v')).
    clear Hpa Hst Henv E2.
    cbn [run_step]. unfold imp_names in Hp, Hp'.
    set (n1 := u "SequenceImpedance") in *. set (n2 := u "PhaseImpedance") in *. set (n3 := u "PerLengthImpedance") in *.
    clearbody n1 n2 n3.
    assert (is_Some (cls_of h2 o)) as Hc2 by (rewrite (proj1 Ho2), Hc1; eauto).
    set (a := hset o (Priv n1) VNone h2).
    set (b := hset o (Priv n2) VNone a).
    set (d := hset o (Priv n3) VNone b).
    assert (only o h2 a) as Oa by (by apply only_hset).
    assert (only o a b) as Ob by (apply only_hset; by rewrite (proj1 Oa)).
    assert (only o b d) as Od by (apply only_hset; by rewrite (proj1 Ob), (proj1 Oa)).
    exists d. split; [|eapply only_trans; [exact Oa|by eapply only_trans]].
    erewrite bind_inl by (by apply write_key_ok). fold a.
    erewrite bind_inl by (apply write_key_ok; by rewrite (proj1 Oa)). fold b.
    erewrite bind_inl by (apply write_key_ok; by rewrite (proj1 Ob), (proj1 Oa)). fold d.
    rewrite !elem_of_cons, elem_of_nil in Hp, Hp'.
    clear -Hp Hp' Hq Hq' Hne.
    destruct Hp as [->|[->|[->|[]]]]; destruct Hp' as [->|[->|[->|[]]]]; try done;
      repeat (destruct (decide _); try done); naive_solver. }
  exists h3. split.
  - apply bind_inr. apply bind_inr. rewrite E2. cbn [for_each]. by apply bind_inr.
  - intros o' k [c' Hc']. assert (o' ≠ o) as Hoo by congruence.
    assert (only o h1 h3) as Ho by (by eapply only_trans).
    destruct (Hold o' k Hoo) as [H1 H2]. split; [by rewrite (proj1 Ho)|].
    rewrite (only_view _ _ _ Ho) by done. unfold view. by rewrite H2.
Qed.

Definition acls_attrs : list name := [n_g0ch; n_r; n_x; n_gch; n_r0; n_bch; n_b0ch; n_x0].
Definition acls_row_b : bool :=
  match find_cls cim15 acls, mro cim15 acls with
  | Some _, c :: _ =>
      steps_eqb (take 9 (c_steps c)) (map SAttr acls_attrs ++ [SImpedance]) &&
      forallb (λ a, bool_decide (lookup_prop cim15 acls a = None)) acls_attrs &&
      forallb (λ p, bool_decide (assoc p (c_params c) = Some VNone)) imp_names &&
      c_kw c
  | _, _ => false
  end.
Lemma acls_row_ok : acls_row_b = true.
Proof. vm_compute. reflexivity. Qed.
Lemma acls_row : ∃ c0 c r rest, find_cls cim15 acls = Some c0 ∧ mro cim15 acls = c :: r ∧
  c_steps c = map SAttr acls_attrs ++ SImpedance :: rest ∧
  Forall (λ a, lookup_prop cim15 acls a = None) acls_attrs ∧
  (∀ n, n ∈ imp_names → assoc n (c_params c) = Some VNone) ∧ c_kw c = true.
Proof.
  pose proof acls_row_ok as Hb. unfold acls_row_b in Hb.
  remember (find_cls cim15 acls) as fc eqn:Ef. remember (mro cim15 acls) as m eqn:Em.
  destruct fc as [c0|]; [|discriminate]. destruct m as [|c r]; [discriminate|].
  apply andb_prop in Hb as [[[Hst%steps_eqb_ok Hat]%andb_prop Hpa]%andb_prop Hkw].
  exists c0, c, r, (drop 9 (c_steps c)). split; [reflexivity|]. split; [reflexivity|]. split.
  { rewrite <- (take_drop 9 (c_steps c)) at 1. rewrite Hst. rewrite <- app_assoc. reflexivity. }
  split; [|split].
  - apply Forall_forall. intros a Ha%elem_of_list_In. rewrite forallb_forall in Hat. apply Hat in Ha.
    apply bool_decide_eq_true in Ha. exact Ha.
  - intros n Hin%elem_of_list_In. rewrite forallb_forall in Hpa. apply Hpa in Hin.
    apply bool_decide_eq_true in Hin. exact Hin.
  - exact Hkw.
Qed.

Lemma impedance_ctor f h kw p p' v v' :
  p ∈ imp_names → p' ∈ imp_names → p ≠ p' →
  assoc p kw = Some v → assoc p' kw = Some v' → v ≠ VNone → v' ≠ VNone →
  ∃ h', construct cim15 (S f) acls [] kw h = (inr ValueError, h') ∧
    ∀ o k, is_Some (cls_of h o) → cls_of h' o = cls_of h o ∧ view h' o k = view h o k.
Proof.
  intros Hp Hp' Hne Hv Hv' Hn Hn'. destruct acls_row as (c0 & c & r & rest & H1 & H2 & H3 & H4 & H5 & H6).
  eapply impedance_ctor_gen; [exact H1|exact H2|exact H3|exact H4|exact H5|exact H6|exact Hp|exact Hp'|
    exact Hne|exact Hv|exact Hv'|exact Hn|exact Hn'].
Qed.
