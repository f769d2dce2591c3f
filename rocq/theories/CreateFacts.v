(** The first pass of the reader: which objects exist afterwards. *)
From Coq Require Import String.
From stdpp Require Import prelude gmap.
From Verif Require Import PyStr PyHeap Schema Assoc AssocSpec HeapFacts LinksFacts AssocFacts CtorFacts HistorySpec Names
  TabCIM14 TabCIM15 TabProfiles Tables TableSpec TableFacts BlankFacts Reader ReaderSpec ReaderFacts.

(** What a caller sees of a new [ck(UUID=id)]. *)
Definition bview (S : schema) (ck : name) (id : pystr) (k : key) : option ov :=
  match blank_new S ck [] (uuid_kw id) with Some ws => last_write k ws None | None => None end.
(** Every class of a package map is made by its constructor as a blank object,
    or not at all. *)
Definition makes (S : schema) (pm : list (name * name)) : Prop := ∀ tag k, assoc tag pm = Some k →
  (∃ ws, ∀ id, blank_new S k [] (uuid_kw id) = Some (ws ++ [(Pub (u "UUID"), BV (VStr id))])) ∨
  (∀ f h id, Wf h → ∃ h', construct S (Datatypes.S f) k [] (uuid_kw id) h = (inr TypeError, h') ∧
     ∀ o k', is_Some (cls_of h o) → cls_of h' o = cls_of h o ∧ view h' o k' = view h o k').

Lemma assoc_in {B} k (xs : list (name * B)) v : assoc k xs = Some v → (k, v) ∈ xs.
Proof.
  induction xs as [|[k' b] r IH]; cbn [assoc]; [done|]. destruct (str_eqb k k') eqn:E.
  - apply str_eqb_eq in E as ->. intros [= <-]. left.
  - intros. right. auto.
Qed.
Lemma tables_makes t pm : (t, pm) ∈ tables → makes t pm.
Proof.
  intros Ht tag k Ha. apply assoc_in in Ha. destruct (map_class t pm tag k Ht Ha) as (c & Hc & _).
  pose proof (blank_one_ok t pm k c Ht Hc) as Hb. case_decide.
  - right. intros f h id Hwf. by eapply construct_raises.
  - left. destruct Hb as (ws & Hb & _). exists ws. intros id. unfold blank_new. rewrite Hc. by apply blank_uuid_chain.
Qed.

Record Created (S : schema) (decl : list (pystr * name)) (d : dict) (h : heap) (d' : dict) (h' : heap) : Prop := {
  cr_wf : Wf h';
  cr_consistent : Consistent S h → Consistent S h';
  cr_keys : map fst d' = add_keys (map fst d) (map fst decl);
  cr_new : ∀ id k, assoc id (reverse decl) = Some k → ∃ o,
    assoc id d' = Some (VRef o) ∧ cls_of h o = None ∧ cls_of h' o = Some k ∧ ∀ ky, view h' o ky = bview S k id ky;
  cr_old : ∀ id, assoc id (reverse decl) = None → assoc id d' = assoc id d;
  cr_frame : ∀ o k, is_Some (cls_of h o) → cls_of h' o = cls_of h o ∧ view h' o k = view h o k;
  cr_blank : ∀ o k, cls_of h o = None → cls_of h' o = Some k → ∃ id, (id, k) ∈ decl ∧ ∀ ky, view h' o ky = bview S k id ky;
  cr_made : ∀ id k, (id, k) ∈ decl → is_Some (blank_new S k [] (uuid_kw id))
}.

Lemma assoc_app {B} p (a b : list (pystr * B)) :
  assoc p (a ++ b) = match assoc p a with Some v => Some v | None => assoc p b end.
Proof. induction a as [|[k v] a IH]; [done|]. cbn [app assoc]. destruct (str_eqb p k); [done|apply IH]. Qed.

Section create.
Context (S : schema) (pm : list (name * name)) (base rdf : pystr).

Lemma Created_nil d h : Wf h → Created S [] d h d h.
Proof. intros Hwf. split; try done; [intros o k; congruence|]. by intros id k ?%elem_of_nil. Qed.
Lemma Created_cons id k decl d h o h1 d' h' :
  is_Some (blank_new S k [] (uuid_kw id)) → cls_of h o = None → Wf h1 → (Consistent S h → Consistent S h1) →
  (∀ o', cls_of h1 o' = if decide (o' = o) then Some k else cls_of h o') →
  (∀ o' ky, o' ≠ o → view h1 o' ky = view h o' ky) → (∀ ky, view h1 o ky = bview S k id ky) →
  Created S decl (dset id (VRef o) d) h1 d' h' → Created S ((id, k) :: decl) d h d' h'.
Proof.
  intros Hmd Hf Hwf Hcons Hc Hv Hb [C1 C2 C3 C4 C5 C6 C7 C8].
  assert (∀ o', is_Some (cls_of h o') → o' ≠ o) as Hne by (intros o' [? ?] ->; congruence).
  assert (cls_of h' o = Some k ∧ ∀ ky, view h' o ky = bview S k id ky) as [Ho1 Ho2].
  { destruct (C6 o (Pub [])) as [E _]; [rewrite Hc, decide_True by done; by eexists|].
    rewrite Hc, decide_True in E by done. split; [done|]. intros ky. rewrite <- Hb. apply C6.
    rewrite Hc, decide_True by done. by eexists. }
  split.
  - done.
  - auto.
  - rewrite C3, keys_dset. done.
  - intros id' k' E. rewrite reverse_cons, assoc_app in E.
    destruct (assoc id' (reverse decl)) as [k2|] eqn:E2.
    + simplify_eq. destruct (C4 _ _ E2) as (o' & ? & Hn & ? & ?). exists o'. split_and!; try done.
      rewrite Hc in Hn. by case_decide.
    + cbn [assoc] in E. destruct (str_eqb id' id) eqn:E3; [|done]. apply str_eqb_eq in E3 as ->. simplify_eq.
      exists o. split_and!; try done. rewrite (C5 _ E2), assoc_dset. by rewrite str_eqb_refl.
  - intros id' E. rewrite reverse_cons, assoc_app in E. destruct (assoc id' (reverse decl)) eqn:E2; [done|].
    cbn [assoc] in E. rewrite (C5 _ E2), assoc_dset. by destruct (str_eqb id' id).
  - intros o' ky Ho'. pose proof (Hne o' Ho') as Hd. destruct (C6 o' ky) as [E1 E2].
    + by rewrite Hc, decide_False.
    + rewrite E1, E2, Hc, decide_False by done. split; [done|]. by apply Hv.
  - intros o' k' Hn Hk'. destruct (decide (o' = o)) as [->|Hd].
    + exists id. assert (k' = k) as -> by congruence. split; [left|done].
    + destruct (C7 o' k') as (id2 & Hin & ?); [by rewrite Hc, decide_False|done|]. exists id2. split; [by right|done].
  - intros id' k' [[= -> ->]|Hin]%elem_of_cons; [done|by apply C8].
Qed.

Lemma pass1_created f err evs : makes S pm → foreign_root base evs → ∀ c d h d' h', Wf h →
  pass1 S pm (Datatypes.S f) base rdf err evs c d h = (None, d', h') →
  Created S (declared base rdf pm evs) d h d' h'.
Proof.
  intros Hm. induction evs as [|ev evs IH]; intros Hf c d h d' h' Hwf E.
  { cbn [pass1] in E. destruct err; [done|]. simplify_eq. by apply Created_nil. }
  assert (foreign_root base evs) as Hf' by (intros e He; apply Hf; destruct He; [left|right]; by right).
  assert (∀ c, pass1_step S pm (Datatypes.S f) base rdf c ev d h = (inl d, h) →
     declared base rdf pm (ev :: evs) = declared base rdf pm evs → Created S (declared base rdf pm (ev :: evs)) d h d' h') as Hskip.
  { intros c' Es ->. destruct ev as [e|e|p v]; cbn [pass1] in E; [exact (IH Hf' _ _ _ _ _ Hwf E)| |exact (IH Hf' _ _ _ _ _ Hwf E)].
    assert (pass1_step S pm (Datatypes.S f) base rdf c (EEnd e) d h = (inl d, h)) as E2.
    { rewrite <- Es. clear Es E. unfold pass1_step. destruct (in_base base e) eqn:Eb; [|done].
      destruct (e_root e) eqn:Er; [|done]. rewrite (Hf e) in Eb; [discriminate Eb|right; left|exact Er]. }
    rewrite E2 in E. by eapply IH. }
  destruct ev as [e|e|p v]; [by apply (Hskip true)| |by apply (Hskip true)].
  destruct (in_base base e) eqn:Eb.
  2: { apply (Hskip true); [unfold pass1_step; by rewrite Eb|]. unfold declared. cbn [omap list_omap]. by rewrite Eb. }
  assert (e_root e = false) as Er.
  { destruct (e_root e) eqn:Er; [|done]. rewrite (Hf e) in Eb; [done|right; left|done]. }
  destruct (uuid_of rdf (e_attrs e)) as [id|] eqn:Eu.
  2: { apply (Hskip true); [unfold pass1_step; by rewrite Eb, Er; simpl; rewrite Eu|].
       unfold declared. cbn [omap list_omap]. by rewrite Eb, Eu. }
  destruct (assoc (local base e) pm) as [k|] eqn:Ek.
  2: { apply (Hskip true); [unfold pass1_step; by rewrite Eb, Er; simpl; rewrite Eu, Ek|].
       unfold declared. cbn [omap list_omap]. rewrite Eb, Eu. cbn [mbind option_bind]. by rewrite Ek. }
  assert (declared base rdf pm (EEnd e :: evs) = (id, k) :: declared base rdf pm evs) as ->.
  { unfold declared. cbn [omap list_omap]. rewrite Eb, Eu. cbn [mbind option_bind]. by rewrite Ek. }
  cbn [pass1] in E. unfold pass1_step in E. rewrite Eb, Er in E. cbn [andb] in E. rewrite Eu, Ek in E. unfold bind in E.
  destruct (Hm _ _ Ek) as [[ws Hws]|Hr].
  - destruct (construct_blank S f h k [] _ _ Hwf (Hws id)) as (h1 & E1 & Hwf1 & _ & Hc & HV).
    fold (uuid_kw id) in E. rewrite E1 in E. unfold ret in E.
    apply (Created_cons id k _ d h (fresh_obj h) h1); try done.
    + by rewrite Hws.
    + apply fresh_obj_cls.
    + intros HC. destruct (construct_blank_Consistent S f h k [] _ _ HC (Hws id)) as (h2 & E2 & HC2 & _). rewrite E1 in E2. by injection E2 as ->.
    + intros o' ky Hne. rewrite HV. by apply apply_writes_ne.
    + intros ky. rewrite HV, apply_writes_self. unfold bview. rewrite Hws. f_equal.
      destruct (view h (fresh_obj h) ky) eqn:Ev; [|done]. apply view_Some_cls in Ev. rewrite fresh_obj_cls in Ev. by destruct Ev.
    + by eapply IH.
  - destruct (Hr f h id Hwf) as (h1 & E1 & _). fold (uuid_kw id) in E. by rewrite E1 in E.
Qed.
End create.

(** The UUID of a blank object. *)
Lemma bview_uuid S pm tag k id : makes S pm → assoc tag pm = Some k →
  (∃ w, bview S k id (Pub (u "UUID")) = Some w) → bview S k id (Pub (u "UUID")) = Some (OV (VStr id)).
Proof.
  intros Hm Ha [w Hw]. destruct (Hm _ _ Ha) as [[ws Hws]|Hr]; unfold bview in *.
  - rewrite Hws, last_write_app. cbn [last_write]. by rewrite decide_True.
  - destruct (blank_new S k [] (uuid_kw id)) as [ws|] eqn:E; [|done].
    assert (Wf heap_empty) as H0 by (split; intros *; unfold slot; simpl; by rewrite ?lookup_empty).
    destruct (construct_blank S 0 heap_empty k [] (uuid_kw id) ws H0 E) as (h' & E' & _).
    destruct (Hr 0%nat heap_empty id H0) as (h2 & E2 & _). congruence.
Qed.

Lemma declared_map base rdf pm evs id k : (id, k) ∈ declared base rdf pm evs → ∃ tag, assoc tag pm = Some k.
Proof.
  unfold declared. intros (ev & _ & E)%elem_of_list_omap. destruct ev as [e|e|]; try done.
  destruct (in_base base e); [|done]. destruct (uuid_of rdf (e_attrs e)); [|done]. cbn [mbind option_bind] in E.
  destruct (assoc (local base e) pm) eqn:Ea; [|done]. cbn [mbind option_bind] in E. simplify_eq. eauto.
Qed.
Lemma blank_new_unraised t pm tag k id : (t, pm) ∈ tables → assoc tag pm = Some k →
  is_Some (blank_new t k [] (uuid_kw id)) → k ∉ unconstructible.
Proof.
  intros Ht Ha [ws Hb] Hu. apply assoc_in in Ha. destruct (map_class t pm tag k Ht Ha) as (c & Hc & _).
  assert (Wf heap_empty) as H0 by (split; intros *; unfold slot; simpl; by rewrite ?lookup_empty).
  destruct (new_raises t pm k c 0 heap_empty id Ht Hc Hu H0) as (h1 & E1 & _).
  destruct (construct_blank t 0 heap_empty k [] (uuid_kw id) ws H0 Hb) as (h2 & E2 & _). congruence.
Qed.
Lemma assoc_reverse_in {B} id (l : list (pystr * B)) k : assoc id (reverse l) = Some k → (id, k) ∈ l.
Proof. intros ?%assoc_in. by apply elem_of_reverse. Qed.
