(** References after a whole document. *)
From Coq Require Import String.
From stdpp Require Import prelude gmap.
From Verif Require Import PyStr PyHeap Schema Assoc AssocSpec HeapFacts LinksFacts AssocFacts AddRemoveFacts CtorFacts HistorySpec
  HistoryFacts Names TabCIM14 TabCIM15 TabProfiles Tables TableSpec TableFacts BlankFacts Reader ReaderSpec ReaderFacts
  FrameFacts StatementFacts CreateFacts ReaderTabs CompatFacts ReadSound ReadStepFacts DocSpec DocFacts.

(** *** One reference *)
Section reference.
Context (S : schema) (Hde : distinct_ends S) (f : nat).
Notation K := (pkind S).
Notation F := (Datatypes.S (Datatypes.S f)).

Definition ref_case (h h' : heap) (o : nat) (ck a : name) (y : nat) (tk : name) : Prop :=
  let V := view h in let V' := view h' in
  match lookup_prop S ck a with
  | Some (POneMany q) => h' = h ∧ (∃ y', V o (Priv a) = Some (OV (VRef y'))) ∨
      V o (Priv a) = Some (OV VNone) ∧ SetSingle V V' o a q (VRef y)
  | Some (PAlias p c) => h' = h ∧ (∃ y', V o (Priv p) = Some (OV (VRef y')) ∧ cls_of h y' = Some c) ∨
      (V o (Priv p) = Some (OV VNone) ∨ ∃ y', V o (Priv p) = Some (OV (VRef y')) ∧ cls_of h y' ≠ Some c) ∧
      ∃ q, class_ends S ck p tk q ∧ SetSingle V V' o p q (VRef y)
  | Some (POneOne q) => h' = h ∧ (∃ y', V o (Priv a) = Some (OV (VRef y'))) ∨
      V o (Priv a) = Some (OV VNone) ∧ SetPair V V' o a q (VRef y)
  | Some (PManyOne p') => ∃ p, class_ends S tk p ck a ∧ (p' = p ∨ ∃ c, lookup_prop S tk p' = Some (PAlias p c)) ∧
      AssignAll V V' [y] p a (VRef o)
  | Some (PManyMany q) => AddMany V V' o a y q
  | Some PPrivate => ∀ o' k, (o', k) ≠ (o, Priv a) → V' o' k = V o' k
  | Some (PManyOneDbl _) => False
  | None => ∀ o' p, V' o' (Priv p) = V o' (Priv p)
  end.

Lemma set_ref_cases h d o ck a id y tk h' : Sound S h → cls_of h o = Some ck → assoc id d = Some (VRef y) → cls_of h y = Some tk →
  links_to S ck a tk → set_ref S F d o a id h = (inl tt, h') →
  same_classes h h' ∧ Sound S h' ∧ ref_case h h' o ck a y tk.
Proof using Hde.
  intros Hs Hc Hid Hy Hl. unfold set_ref. rewrite Hid. unfold links_to in Hl. unfold ref_case.
  assert (∀ w, find_attr S o a h = Found w → fst (getattr S (VRef o) a h) = inl w) as Hfa.
  { intros w. unfold find_attr. destruct (fst (getattr S (VRef o) a h)); [by intros [= <-]|].
    destruct (special_name a); [done|]. destruct (cls_of h o); [|done]. by destruct (accessor_name S _ a). }
  assert (∀ p, K h o p = lookup_prop S ck p) as HK by (intros p; unfold pkind; by rewrite Hc).
  assert (∀ p, is_Some (slot h o (Priv p)) → lookup_prop S ck a ≠ None →
    match lookup_prop S ck a with Some (PAlias p' _) => p' = p | _ => p = a end → find_attr S o a h ≠ Missing ∧
    find_attr S o a h ≠ Accessor ∧ find_attr S o a h ≠ Special) as Hfound.
  { intros p [w Hw] Hn Hp. unfold find_attr, getattr. rewrite obj_prop_pkind, HK.
    destruct (lookup_prop S ck a) as [[]|]; subst; unfold bind, read_key; try done; rewrite Hw; cbn [fst]; try done.
    case_decide; done. }
  assert (∀ k, view h o k = Some (OV VNone) → slot h o k = Some VNone) as Hnone.
  { intros k. unfold view. destruct (slot h o k) as [v|]; [|done]. simpl. destruct v; try (by intros [= ->] || done).
    by destruct (h_lists h !! l). }
  destruct (lookup_prop S ck a) as [[q|q|q|q| |q|p c]|] eqn:Ek.
  - (* one-many *)
    destruct (Sound_view S h o a (POneMany q) Hs) as [z Hz]; [by rewrite HK|done|]. pose proof Hz as [v Hv]%view_slot.
    destruct (Hfound a) as (N1 & N2 & N3); [by eexists|done|done|]. clear Hfound.
    destruct (find_attr S o a h) as [w| | |] eqn:Ef; try done. specialize (Hfa w eq_refl).
    rewrite (getattr_priv S h o a (POneMany q)) in Hfa; [|by rewrite HK|done]. unfold read_key in Hfa. rewrite Hv in Hfa.
    cbn in Hfa. injection Hfa as ->.
    destruct (lk_single _ _ (proj2 (so_consistent _ _ Hs)) o a q z) as [->|(y' & ys & -> & _)]; [by rewrite HK|done| |].
    + pose proof Hz as Hz'. apply Hnone in Hz'. rewrite Hz' in Hv. injection Hv as <-.
      destruct (set_single_sound S h o ck a y tk q Hs Hc Hy Hl (Datatypes.S f)) as (h2 & E & HF & HS & HE).
      rewrite E. intros [= <-]. split_and!; [apply HF|done|by right].
    + apply view_val in Hz. rewrite Hz in Hv. injection Hv as <-. intros [= <-]. split_and!; [done..|]. left.
      split; [done|]. exists y'. unfold view. by rewrite Hz.
  - (* many-one *)
    destruct (Sound_view S h o a (PManyOne q) Hs) as [z Hz]; [by rewrite HK|done|].
    destruct (lk_coll _ _ (proj2 (so_consistent _ _ Hs)) o a q z) as (ys & -> & _); [by rewrite HK|done|].
    destruct (view_slot h o (Priv a) _ Hz) as [v Hv].
    assert (find_attr S o a h = Found v) as ->.
    { apply (find_attr_found S). rewrite (getattr_priv S h o a (PManyOne q)); [|by rewrite HK|done]. unfold read_key. by rewrite Hv. }
    unfold view in Hz. rewrite Hv in Hz. destruct v; simpl in Hz; try done.
    destruct (match a with [] => false | _ => _ end); [done|]. destruct Hl as (p & He & Hr).
    destruct (add_one_sound S f h o ck a y tk q p Hs Hc Hy Ek He Hr) as (h2 & E & HF & HS & HE).
    rewrite E. intros [= <-]. split_and!; [apply HF|done|]. by exists p.
  - (* one-one *)
    destruct (Sound_view S h o a (POneOne q) Hs) as [z Hz]; [by rewrite HK|done|]. pose proof Hz as [v Hv]%view_slot.
    destruct (Hfound a) as (N1 & N2 & N3); [by eexists|done|done|]. clear Hfound.
    destruct (find_attr S o a h) as [w| | |] eqn:Ef; try done. specialize (Hfa w eq_refl).
    rewrite (getattr_priv S h o a (POneOne q)) in Hfa; [|by rewrite HK|done]. unfold read_key in Hfa. rewrite Hv in Hfa.
    cbn in Hfa. injection Hfa as ->.
    destruct (lk_one_one _ _ (proj2 (so_consistent _ _ Hs)) o a q z) as [->|(y' & -> & _)]; [by rewrite HK|done| |].
    + pose proof Hz as Hz'. apply Hnone in Hz'. rewrite Hz' in Hv. injection Hv as <-.
      destruct (set_pair_sound S Hde f h o ck a y tk q Hs Hc Hy Ek Hl) as (h2 & E & HF & HS & HE).
      rewrite E. intros [= <-]. split_and!; [apply HF|done|by right].
    + apply view_val in Hz. rewrite Hz in Hv. injection Hv as <-. intros [= <-]. split_and!; [done..|]. left.
      split; [done|]. exists y'. unfold view. by rewrite Hz.
  - (* many-many *)
    destruct (Sound_view S h o a (PManyMany q) Hs) as [z Hz]; [by rewrite HK|done|].
    destruct (lk_many_many _ _ (proj2 (so_consistent _ _ Hs)) o a q z) as (ys & -> & _); [by rewrite HK|done|].
    destruct (view_slot h o (Priv a) _ Hz) as [v Hv].
    assert (find_attr S o a h = Found v) as ->.
    { apply (find_attr_found S). rewrite (getattr_priv S h o a (PManyMany q)); [|by rewrite HK|done]. unfold read_key. by rewrite Hv. }
    unfold view in Hz. rewrite Hv in Hz. destruct v; simpl in Hz; try done.
    destruct (match a with [] => false | _ => _ end); [done|].
    destruct (add_many_sound S Hde f h o ck a y tk q Hs Hc Hy Ek Hl) as (h2 & E & HF & HS & HE).
    rewrite E. intros [= <-]. split_and!; [apply HF|done|done].
  - (* private *)
    destruct (find_attr S o a h) as [w| | |] eqn:Ef; try (by intros [= <-]); try done.
    destruct w; try (by intros [= <-]); try done.
    + destruct (Sound_private S h o a (VRef y) Hs) as [HF HS]; [by rewrite HK|done|].
      cbn [setattr]. rewrite obj_prop_pkind, HK, Ek. rewrite write_key_ok by (by rewrite Hc). intros [= <-].
      split_and!; [apply HF|done|]. intros o' k' Hne. rewrite view_hset, upd_ne by (done || by rewrite Hc). done.
    + destruct (match a with [] => false | _ => _ end); [done|]. unfold add. rewrite obj_prop_pkind, HK, Ek. done.
  - done.
  - (* alias *)
    destruct Hl as [q He]. pose proof He as [Hp _].
    destruct (Sound_view S h o p (POneMany q) Hs) as [z Hz]; [by rewrite HK|done|]. pose proof Hz as [v Hv]%view_slot.
    destruct (Hfound p) as (N1 & N2 & N3); [by eexists|done|done|]. clear Hfound.
    destruct (find_attr S o a h) as [w| | |] eqn:Ef; try done. specialize (Hfa w eq_refl).
    unfold getattr in Hfa. rewrite obj_prop_pkind, HK, Ek in Hfa. unfold bind, read_key in Hfa. rewrite Hv in Hfa. cbn [fst] in Hfa.
    assert (w = VNone ∧ val_cls h v ≠ Some c ∨ w = v ∧ val_cls h v = Some c) as Hw by (destruct (decide (val_cls h v = Some c)); cbn in Hfa; injection Hfa as <-; auto).
    destruct (lk_single _ _ (proj2 (so_consistent _ _ Hs)) o p q z) as [->|(y' & ys & -> & _)]; [by rewrite HK|done| |].
    + pose proof Hz as Hz'. apply view_val in Hz'. rewrite Hz' in Hv. injection Hv as <-. assert (w = VNone) as -> by (by destruct Hw as [[? _]|[? _]]).
      destruct (set_single_sound S h o ck p y tk q Hs Hc Hy He f) as (h2 & E & HF & HS & HE).
      assert (setattr S F (VRef o) a (VRef y) h = (inl tt, h2)) as ->.
      { rewrite <- E. cbn [setattr]. by rewrite obj_prop_pkind, HK, Ek. }
      intros [= <-]. split_and!; [apply HF|done|]. right. split; [by left|]. by exists q.
    + pose proof Hz as Hz'. apply view_val in Hz'. rewrite Hz' in Hv. injection Hv as <-. cbn [val_cls] in Hw. destruct Hw as [[-> Hw] | [-> Hw]].
      * destruct (set_single_sound S h o ck p y tk q Hs Hc Hy He f) as (h2 & E & HF & HS & HE).
        assert (setattr S F (VRef o) a (VRef y) h = (inl tt, h2)) as ->.
        { rewrite <- E. cbn [setattr]. by rewrite obj_prop_pkind, HK, Ek. }
        intros [= <-]. split_and!; [apply HF|done|]. right. split; [right; by exists y'|]. by exists q.
      * intros [= <-]. split_and!; [done..|]. left. split; [done|]. by exists y'.
  - (* no property *)
    destruct Hl as [Hpub Hna].
    destruct (find_attr S o a h) as [w| | |] eqn:Ef; try (by intros [= <-]); try done.
    destruct w; try (by intros [= <-]); try done.
    + destruct (Sound_plain S h o ck a (VRef y) Hs Hc) as [HF HS]; [done|intros _ (_ & _ & c & ? & ?); by eapply Hna|].
      rewrite set_plain by (by rewrite ?HK, ?Hc). rewrite Hpub. intros [= <-].
      split_and!; [apply HF|done|]. intros o' p'. rewrite view_hset, upd_ne by (done || by rewrite Hc). done.
    + destruct (match a with [] => false | _ => _ end); [done|]. unfold add. rewrite obj_prop_pkind, HK, Ek. done.
Qed.
End reference.

(** *** All references *)
Definition single_kind (k : prop) : bool := match k with POneMany _ | POneOne _ => true | _ => false end.

Section says.
Context (base rdf : pystr) (S : schema) (cl : pystr → option name).
Notation refers := (refers base rdf cl).
Notation says := (says base rdf S cl).
Notation says_many := (says_many base rdf S cl).
Lemma refers_app a b x n y : refers (a ++ b) x n y ↔ refers a x n y ∨ refers b x n y.
Proof. unfold DocSpec.refers. set_solver. Qed.
Lemma says_app a b x p y : says (a ++ b) x p y ↔ says a x p y ∨ says b x p y.
Proof.
  split.
  - intros [x' p' y' ck q Hr|x' a' p' y' ck c Hr|x' p' p'' y' q ck tk Hr|x' p' y' ck q Hr|x' p' y' tk q Hr];
      apply refers_app in Hr as [Hr|Hr]; [left|right|left|right|left|right|left|right|left|right];
      solve [by eapply says_single|by eapply says_alias|by eapply says_member|by eapply says_pair|by eapply says_partner].
  - intros [[x' p' y' ck q Hr|x' a' p' y' ck c Hr|x' p' p'' y' q ck tk Hr|x' p' y' ck q Hr|x' p' y' tk q Hr]|
            [x' p' y' ck q Hr|x' a' p' y' ck c Hr|x' p' p'' y' q ck tk Hr|x' p' y' ck q Hr|x' p' y' tk q Hr]].
    all: first [pose proof (proj2 (refers_app a b _ _ _) (or_introl Hr)) as Hr'|pose proof (proj2 (refers_app a b _ _ _) (or_intror Hr)) as Hr'].
    all: solve [by eapply says_single|by eapply says_alias|by eapply says_member|by eapply says_pair|by eapply says_partner].
Qed.
Lemma says_many_app a b x p y : says_many (a ++ b) x p y ↔ says_many a x p y ∨ says_many b x p y.
Proof.
  split.
  - intros [x' p' y' ck q Hr|x' p' y' tk q Hr]; apply refers_app in Hr as [Hr|Hr]; [left|right|left|right];
      solve [by eapply says_many_here|by eapply says_many_there].
  - intros [[x' p' y' ck q Hr|x' p' y' tk q Hr]|[x' p' y' ck q Hr|x' p' y' tk q Hr]].
    all: first [pose proof (proj2 (refers_app a b _ _ _) (or_introl Hr)) as Hr'|pose proof (proj2 (refers_app a b _ _ _) (or_intror Hr)) as Hr'].
    all: solve [by eapply says_many_here|by eapply says_many_there].
Qed.
Lemma refers_one i e a id x n y : reference_elem base rdf e a id → refers [(i, e)] x n y → x = i ∧ n = a ∧ y = id.
Proof.
  intros [(_ & _ & _ & Ha) Hr] (e' & [= -> ->]%elem_of_list_singleton & [(_ & _ & _ & Ha') Hr'] & _). rewrite Hr in Hr'.
  apply (inj Some) in Hr'. change (u "#" ++ id) with (35%N :: id) in Hr'. change (u "#" ++ y) with (35%N :: y) in Hr'.
  by simplify_eq.
Qed.
Lemma refers_none i e x n y : (∀ a id, reference_elem base rdf e a id → cl id = None) → ¬ refers [(i, e)] x n y.
Proof. intros He (e' & [= -> ->]%elem_of_list_singleton & Hr & [k Hk]). by rewrite (He _ _ Hr) in Hk. Qed.
Lemma silent sts x p y : (∀ x n y, ¬ refers sts x n y) → ¬ says sts x p y.
Proof. intros Hn [x' p' y' ck q Hr|x' a' p' y' ck c Hr|x' p' p'' y' q ck tk Hr|x' p' y' ck q Hr|x' p' y' tk q Hr]; by apply Hn in Hr. Qed.
Lemma silent_many sts x p y : (∀ x n y, ¬ refers sts x n y) → ¬ says_many sts x p y.
Proof. intros Hn [x' p' y' ck q Hr|x' p' y' tk q Hr]; by apply Hn in Hr. Qed.
End says.

Section document.
Context (S : schema) (Hde : distinct_ends S) (base rdf : pystr).
Context (d : dict) (h1 : heap) (cl : pystr → option name) (all : list (pystr * elem)).
Notation refers := (refers base rdf cl).
Notation says := (says base rdf S cl).
Notation says_many := (says_many base rdf S cl).
Context (Hs1 : Sound S h1) (Hd : dict_alive d h1) (Hcl : ∀ id, cl id = (v ← assoc id d; val_cls h1 v)).
Context (Hcomp : ∀ id e, (id, e) ∈ all → ∃ ck, cl id = Some ck ∧ compatible base rdf S cl ck e ∧ ∃ a, is_property base rdf e a).
Context (Hagree : agreeing base rdf S cl all).
Context (Huniq : ∀ x p y o, says all x p y → assoc x d = Some (VRef o) → ∀ x', assoc x' d = Some (VRef o) → x' = x).
Context (Hblank : ∀ x p y o, says all x p y → assoc x d = Some (VRef o) → view h1 o (Priv p) = Some (OV VNone)).

Record Inv (sts : list (pystr * elem)) (hk : heap) : Prop := {
  in_classes : same_classes h1 hk;
  in_sound : Sound S hk;
  in_single : ∀ o p k, pkind S h1 o p = Some k → single_kind k = true →
    (∃ x y oy, says sts x p y ∧ assoc x d = Some (VRef o) ∧ assoc y d = Some (VRef oy) ∧ view hk o (Priv p) = Some (OV (VRef oy))) ∨
    (∀ x y, assoc x d = Some (VRef o) → ¬ says sts x p y) ∧ view hk o (Priv p) = view h1 o (Priv p);
  in_many : ∀ o p q, pkind S h1 o p = Some (PManyMany q) → ∃ ys ys1, view hk o (Priv p) = Some (OL ys) ∧
    view h1 o (Priv p) = Some (OL ys1) ∧
    ∀ v, v ∈ ys ↔ v ∈ ys1 ∨ ∃ x y, says_many sts x p y ∧ assoc x d = Some (VRef o) ∧ assoc y d = Some v
}.

Lemma Inv_start : Inv [] h1.
Proof using Hs1.
  split; [done|done| |].
  - intros o p k _ _. right. split; [|done]. intros x y _. apply silent. by intros x' n y' (e & ?%elem_of_nil & _).
  - intros o p q Hk. destruct (Sound_view S h1 o p (PManyMany q) Hs1) as [z Hz]; [done|done|].
    destruct (lk_many_many _ _ (proj2 (so_consistent _ _ Hs1)) o p q z Hk Hz) as (ys & -> & _).
    exists ys, ys. split_and!; [done|done|]. intros v. split; [by left|]. intros [?|(x & y & Hm & _)]; [done|].
    exfalso. revert Hm. apply silent_many. by intros x' n y' (e & ?%elem_of_nil & _).
Qed.
Lemma step_intro sts st hk hk' : Inv sts hk → same_classes hk hk' → Sound S hk' →
  (∀ o p k, pkind S h1 o p = Some k → single_kind k = true →
    (∃ x y oy, says [st] x p y ∧ assoc x d = Some (VRef o) ∧ assoc y d = Some (VRef oy) ∧ view hk' o (Priv p) = Some (OV (VRef oy))) ∨
    (∀ x y, assoc x d = Some (VRef o) → ¬ says [st] x p y) ∧ view hk' o (Priv p) = view hk o (Priv p)) →
  (∀ o p q ys, pkind S h1 o p = Some (PManyMany q) → view hk o (Priv p) = Some (OL ys) → ∃ ys', view hk' o (Priv p) = Some (OL ys') ∧
    ∀ v, v ∈ ys' ↔ v ∈ ys ∨ ∃ x y, says_many [st] x p y ∧ assoc x d = Some (VRef o) ∧ assoc y d = Some v) →
  Inv (sts ++ [st]) hk'.
Proof.
  intros [I1 I2 I3 I4] Hsc Hs Hone Hmany. split; [|done| |].
  - intros o. by rewrite Hsc.
  - intros o p k Hk Hsk. destruct (Hone o p k Hk Hsk) as [(x & y & oy & Hsay & ? & ? & ?)|[Hno Hv]].
    + left. exists x, y, oy. split_and!; [|done..]. apply says_app. by right.
    + destruct (I3 o p k Hk Hsk) as [(x & y & oy & Hsay & ? & ? & ?)|[Hno' Hv']].
      * left. exists x, y, oy. split_and!; [|done..|by rewrite Hv]. apply says_app. by left.
      * right. split; [|by rewrite Hv]. intros x y Hx [Hsay|Hsay]%says_app; [by eapply Hno'|by eapply Hno].
  - intros o p q Hk. destruct (I4 o p q Hk) as (ys & ys1 & Hv & Hv1 & Hiff). destruct (Hmany o p q ys Hk Hv) as (ys' & Hv' & Hiff').
    exists ys', ys1. split_and!; [done|done|]. intros v. rewrite Hiff', Hiff. setoid_rewrite says_many_app. naive_solver.
Qed.
(** Statements that say nothing of links. *)
Lemma step_silent sts i e hk hk' : Inv sts hk → same_classes hk hk' → Sound S hk' → (∀ x n y, ¬ refers [(i, e)] x n y) →
  (∀ o p k, pkind S h1 o p = Some k → link_kind k = true → view hk' o (Priv p) = view hk o (Priv p)) → Inv (sts ++ [(i, e)]) hk'.
Proof.
  intros HI Hsc Hs Hn Hv. eapply step_intro; [done..| |].
  - intros o p k Hk Hsk. right. split; [|apply (Hv o p k Hk); by destruct k]. intros x y _. by apply silent.
  - intros o p q ys Hk Hys. exists ys. split; [by rewrite (Hv o p (PManyMany q) Hk)|]. intros v. split; [by left|].
    intros [?|(x & y & Hm & _)]; [done|]. by apply silent_many in Hm.
Qed.

(** A single end that is set already has the value the document states. *)
Lemma already sts hk x p k y ox oy y' : Inv sts hk → (∀ st, st ∈ sts → st ∈ all) → says all x p y →
  assoc x d = Some (VRef ox) → assoc y d = Some (VRef oy) → pkind S h1 ox p = Some k → single_kind k = true →
  view hk ox (Priv p) = Some (OV (VRef y')) → y' = oy.
Proof using Hagree Huniq Hblank.
  intros HI Hsub Hsay Hx Hy Hk Hsk Hv. destruct (in_single _ _ HI ox p k Hk Hsk) as [(x2 & y2 & oy2 & Hsay2 & Hx2 & Hy2 & Hv2)|[_ Hv2]].
  - assert (x2 = x) as -> by (by eapply Huniq).
    assert (says all x p y2) as Hs2.
    { destruct Hsay2 as [? ? ? ? ? Hr|? ? ? ? ? ? Hr|? ? ? ? ? ? ? Hr|? ? ? ? ? Hr|? ? ? ? ? Hr];
        destruct Hr as (e & He & Hr); assert (refers all _ _ _) as Hr' by (exists e; split; [apply Hsub, He|exact Hr]);
        solve [by eapply says_single|by eapply says_alias|by eapply says_member|by eapply says_pair|by eapply says_partner]. }
    assert (y2 = y) as -> by (by eapply Hagree). congruence.
  - rewrite (Hblank x p y ox Hsay Hx) in Hv2. congruence.
Qed.
(** A statement about one single end. *)
Lemma step_link sts st hk hk' x p y ox oy : Inv sts hk → same_classes hk hk' → Sound S hk' →
  says [st] x p y → (∀ x' p' y', says [st] x' p' y' → x' = x ∧ p' = p ∧ y' = y) → (∀ x' p' y', ¬ says_many [st] x' p' y') →
  assoc x d = Some (VRef ox) → assoc y d = Some (VRef oy) → view hk' ox (Priv p) = Some (OV (VRef oy)) →
  (∀ o p' k, pkind S h1 o p' = Some k → match k with POneMany _ | POneOne _ | PManyMany _ => true | _ => false end = true →
     (o, p') ≠ (ox, p) → view hk' o (Priv p') = view hk o (Priv p')) →
  (∀ q, pkind S h1 ox p ≠ Some (PManyMany q)) →
  Inv (sts ++ [st]) hk'.
Proof.
  intros HI Hsc Hs Hsay Honly Hnom Hx Hy Hv Hfr Hnmm. eapply step_intro; [done..| |].
  - intros o p' k Hk Hsk. destruct (decide ((o, p') = (ox, p))) as [[= -> ->]|Hne].
    + left. exists x, y, oy. by split_and!.
    + right. split; [|apply (Hfr o p' k Hk); [by destruct k|done]]. intros x' y' Hx' Hsay'. destruct (Honly _ _ _ Hsay') as (-> & -> & ->).
      apply Hne. congruence.
  - intros o p' q ys Hk Hys. exists ys. split.
    + rewrite (Hfr o p' (PManyMany q) Hk); [done|done|]. intros [= -> ->]. by apply (Hnmm q).
    + intros v. split; [by left|]. intros [?|(x' & y' & Hm & _)]; [done|]. by apply Hnom in Hm.
Qed.
Lemma says_one_inv i e a id ck x p y : reference_elem base rdf e a id → cl i = Some ck → says [(i, e)] x p y →
  match lookup_prop S ck a with
  | Some (POneMany _) => x = i ∧ p = a ∧ y = id
  | Some (PAlias p' _) => x = i ∧ p = p' ∧ y = id
  | Some (PManyOne p') => x = id ∧ y = i ∧ ∃ tk, cl id = Some tk ∧ member_end S tk p' p a
  | Some (POneOne q) => x = i ∧ p = a ∧ y = id ∨ x = id ∧ p = q ∧ y = i
  | _ => False
  end.
Proof.
  intros He Hi Hsay.
  destruct Hsay as [x p y ck' q Hr Hc Hk|x a' p y ck' c Hr Hc Hk|x p p' y q ck' tk Hr Hc Hc' Hk Hm|x p y ck' q Hr Hc Hk|x p y tk q Hr Hc Hk];
    destruct (refers_one _ _ _ _ _ _ _ _ _ _ He Hr) as (-> & -> & ->).
  - assert (ck' = ck) as -> by congruence. by rewrite Hk.
  - assert (ck' = ck) as -> by congruence. by rewrite Hk.
  - assert (tk = ck) as -> by congruence. rewrite Hk. split_and!; [done..|]. eauto.
  - assert (ck' = ck) as -> by congruence. rewrite Hk. by left.
  - assert (tk = ck) as -> by congruence. rewrite Hk. by right.
Qed.
Lemma says_many_one_inv i e a id ck x p y : reference_elem base rdf e a id → cl i = Some ck → says_many [(i, e)] x p y →
  match lookup_prop S ck a with
  | Some (PManyMany q) => x = i ∧ p = a ∧ y = id ∨ x = id ∧ p = q ∧ y = i
  | _ => False
  end.
Proof.
  intros He Hi Hsay. destruct Hsay as [x p y ck' q Hr Hc Hk|x p y tk q Hr Hc Hk];
    destruct (refers_one _ _ _ _ _ _ _ _ _ _ He Hr) as (-> & -> & ->).
  - assert (ck' = ck) as -> by congruence. rewrite Hk. by left.
  - assert (tk = ck) as -> by congruence. rewrite Hk. by right.
Qed.
Lemma says_in x p y i e : (i, e) ∈ all → says [(i, e)] x p y → says all x p y.
Proof.
  intros Hin Hsay. assert (∀ x n y, refers [(i, e)] x n y → refers all x n y) as Hm.
  { intros x' n y' (e' & [= -> ->]%elem_of_list_singleton & Hr). by exists e. }
  destruct Hsay as [? ? ? ? ? Hr%Hm|? ? ? ? ? ? Hr%Hm|? ? ? ? ? ? ? Hr%Hm|? ? ? ? ? Hr%Hm|? ? ? ? ? Hr%Hm];
    solve [by eapply says_single|by eapply says_alias|by eapply says_member|by eapply says_pair|by eapply says_partner].
Qed.

Lemma step_ref sts i e hk hk' a id oi oy ck tk : Inv sts hk → (∀ st, st ∈ sts → st ∈ all) → (i, e) ∈ all →
  reference_elem base rdf e a id → assoc i d = Some (VRef oi) → cls_of h1 oi = Some ck → assoc id d = Some (VRef oy) →
  cls_of h1 oy = Some tk → links_to S ck a tk →
  same_classes hk hk' → Sound S hk' → ref_case S hk hk' oi ck a oy tk → Inv (sts ++ [(i, e)]) hk'.
Proof using Hde Hcl Hagree Huniq Hblank.
  intros HI Hsub Hin He Hi Hck Hid Htk Hl Hsc Hs Hcase.
  pose proof (in_classes _ _ HI) as Hsk. pose proof (in_sound _ _ HI) as Hsnd.
  assert (cl i = Some ck) as Hcli by (rewrite Hcl, Hi; by cbn).
  assert (cl id = Some tk) as Hclid by (rewrite Hcl, Hid; by cbn).
  assert (refers [(i, e)] i a id) as HR. { exists e. split_and!; [by left|done|]. by rewrite Hclid. }
  pose proof (λ x p y, says_one_inv i e a id ck x p y He Hcli) as Hinv.
  pose proof (λ x p y, says_many_one_inv i e a id ck x p y He Hcli) as Hminv.
  assert (∀ o p, pkind S hk o p = pkind S h1 o p) as HK by (intros o p; unfold pkind; by rewrite Hsk).
  assert (∀ p, pkind S h1 oi p = lookup_prop S ck p) as Hki by (intros p; unfold pkind; by rewrite Hck).
  assert (∀ p, pkind S h1 oy p = lookup_prop S tk p) as Hky by (intros p; unfold pkind; by rewrite Htk).
  unfold ref_case in Hcase. unfold links_to in Hl.
  (* a single end of [oi] set to [oy] *)
  assert (∀ p q, class_ends S ck p tk q → says [(i, e)] i p id →
    (∀ x' p' y', says [(i, e)] x' p' y' → x' = i ∧ p' = p ∧ y' = id) → (∀ x' p' y', ¬ says_many [(i, e)] x' p' y') →
    (hk' = hk ∧ (∃ y', view hk oi (Priv p) = Some (OV (VRef y'))) ∨ SetSingle (view hk) (view hk') oi p q (VRef oy)) →
    Inv (sts ++ [(i, e)]) hk') as Hsingle.
  { intros p q [Hp (p' & Hq & _)] Hsay Honly Hnom Hset. destruct Hset as [[-> [y' Hy']]|HE].
    - eapply (step_link sts (i, e) hk hk i p id oi oy); try done.
      + rewrite Hy'. repeat f_equal. eapply (already sts hk i p (POneMany q) id oi oy y'); try done; [by eapply says_in|by rewrite Hki].
      + intros q' E. rewrite Hki in E. congruence.
    - eapply (step_link sts (i, e) hk hk' i p id oi oy); try done.
      + apply (ss_self _ _ _ _ _ _ HE).
      + intros o p2 k Hk Hsk2 Hne. apply (ss_frame _ _ _ _ _ _ HE).
        * by intros [= -> ->].
        * intros [= ->]. split.
          { intros [= ->]. rewrite Hky, Hq in Hk. by simplify_eq. }
          { intros Hv. destruct (lk_single _ _ (proj2 (so_consistent _ _ Hsnd)) oi p q (OV (VRef o))) as [|(t2 & ys & [= <-] & He2 & _)];
              [by rewrite HK, Hki|exact Hv|done|]. destruct (proj2 He2) as (p3 & Hk3 & _). rewrite HK, Hk in Hk3. by simplify_eq. }
      + intros q' E. rewrite Hki in E. congruence. }
  destruct (lookup_prop S ck a) as [[q|p'|q|q| |q|p c]|] eqn:Ek.
  - apply (Hsingle a q); [done| |done|exact Hminv|]; [by eapply says_single|]. destruct Hcase as [?|[_ ?]]; [by left|by right].
  - (* a member *)
    destruct Hcase as (p & He2 & Hr & HA). pose proof He2 as [Hp (p2 & Hq & _)].
    assert (member_end S tk p' p a) as Hme by (by split).
    assert (says [(i, e)] id p i) as Hsay.
    { apply (says_member base rdf S cl [(i, e)] id p p' i a tk ck); assumption. }
    eapply (step_link sts (i, e) hk hk' id p i oy oi); try done.
    + intros x3 p3 y3 (-> & -> & tk3 & Htk3 & [Hp3 Hr3])%Hinv. assert (tk3 = tk) as -> by congruence.
      split_and!; [done| |done]. destruct Hr as [->|[c Hr]], Hr3 as [->|[c3 Hr3]]; congruence.
    + apply (aa_member _ _ _ _ _ _ HA). by left.
    + intros o p3 k Hk Hk2 Hne. apply (aa_frame _ _ _ _ _ _ HA).
      * intros [= ->] ->%elem_of_list_singleton. done.
      * intros [= ->] _ [= ->]. rewrite Hki, Ek in Hk. by simplify_eq.
      * intros [= ->] x ->%elem_of_list_singleton Hv.
        destruct (lk_single _ _ (proj2 (so_consistent _ _ Hsnd)) oy p a (OV (VRef o))) as [|(t2 & ys & [= <-] & He3 & _)];
          [by rewrite HK, Hky|exact Hv|done|]. destruct (proj2 He3) as (p4 & Hk3 & _). rewrite HK, Hk in Hk3. by simplify_eq.
    + intros q' E. rewrite Hky in E. congruence.
  - (* a pair *)
    assert (a ≠ q) as Haq by (intros ->; by destruct (Hde ck q)).
    assert (says [(i, e)] i a id) as Hsay1 by (by eapply says_pair).
    assert (says [(i, e)] id q i) as Hsay2 by (by eapply says_partner).
    assert (∀ o p k, pkind S h1 o p = Some k → single_kind k = true → (o, p) ≠ (oi, a) → (o, p) ≠ (oy, q) →
      ∀ x y, assoc x d = Some (VRef o) → ¬ says [(i, e)] x p y) as Hother.
    { intros o p k _ _ N1 N2 x y Hx [(-> & -> & ->)|(-> & -> & ->)]%Hinv; [apply N1|apply N2]; congruence. }
    assert (pkind S h1 oi a = Some (POneOne q)) as Hka by (by rewrite Hki).
    assert (pkind S h1 oy q = Some (POneOne a)) as Hkq by (by rewrite Hky).
    destruct Hcase as [[-> [y' Hy']]|[Hv0 HE]].
    + assert (y' = oy) as ->.
      { eapply (already sts hk i a (POneOne q) id oi oy y'); try done. by eapply says_in. }
      eapply step_intro; [done..| |].
      * intros o p k Hk Hsk2. destruct (decide ((o, p) = (oi, a))) as [[= -> ->]|N1].
        { left. exists i, id, oy. by split_and!. }
        destruct (decide ((o, p) = (oy, q))) as [[= -> ->]|N2]; [|right; split; [by eapply Hother|done]].
        left. exists id, i, oi. split_and!; [done..|].
        destruct (lk_one_one _ _ (proj2 (so_consistent _ _ Hsnd)) oi a q (OV (VRef oy))) as [|(y2 & [= <-] & _ & Hy2)]; [by rewrite HK|exact Hy'|done|done].
      * intros o p q' ys Hk Hys. exists ys. split; [done|]. intros v. split; [by left|]. intros [?|(x & y & Hm & _)]; [done|].
        by apply Hminv in Hm.
    + assert (∀ o p k, pkind S h1 o p = Some k → match k with POneOne _ | POneMany _ | PManyMany _ => true | _ => false end = true →
        (o, p) ≠ (oi, a) → (o, p) ≠ (oy, q) → view hk' o (Priv p) = view hk o (Priv p)) as Hfr.
      { intros o p k Hk _ N1 N2. apply (sp_frame _ _ _ _ _ _ HE).
        - intros [= -> ->]. done.
        - intros [= ->]. split; [intros [= ->]; done|]. by rewrite Hv0.
        - intros [= ->] y [= <-] Hv. assert (o = oi) as ->; [|done].
          eapply (already sts hk id q (POneOne a) i oy oi o); try done. by eapply says_in. }
      eapply step_intro; [done..| |].
      * intros o p k Hk Hsk2. destruct (decide ((o, p) = (oi, a))) as [[= -> ->]|N1].
        { left. exists i, id, oy. split_and!; [done..|]. apply (sp_self _ _ _ _ _ _ HE). }
        destruct (decide ((o, p) = (oy, q))) as [[= -> ->]|N2].
        { left. exists id, i, oi. split_and!; [done..|]. by apply (sp_new _ _ _ _ _ _ HE). }
        right. split; [by eapply Hother|]. apply (Hfr o p k Hk); [by destruct k|done|done].
      * intros o p q' ys Hk Hys. exists ys. split.
        { rewrite (Hfr o p _ Hk); [done|done| |]; intros [= -> ->]; congruence. }
        intros v. split; [by left|]. intros [?|(x & y & Hm & _)]; [done|]. by apply Hminv in Hm.
  - (* many-to-many *)
    assert (a ≠ q) as Haq by (intros ->; by destruct (Hde ck q)).
    assert (pkind S h1 oi a = Some (PManyMany q)) as Hka by (by rewrite Hki).
    assert (pkind S h1 oy q = Some (PManyMany a)) as Hkq by (by rewrite Hky).
    assert (says_many [(i, e)] i a id) as Hsay1 by (by eapply says_many_here).
    assert (says_many [(i, e)] id q i) as Hsay2 by (by eapply says_many_there).
    eapply step_intro; [done..| |].
    + intros o p k Hk Hsk2. right. split; [by intros x y _ ?%Hinv|]. apply (am_frame _ _ _ _ _ _ Hcase); intros [= -> ->]; by simplify_eq.
    + intros o p q' ys Hk Hys. destruct (decide ((o, p) = (oi, a))) as [[= -> ->]|N1].
      { exists (ys ++ [VRef oy]). split; [by apply (am_self _ _ _ _ _ _ Hcase)|]. intros v. rewrite elem_of_app, elem_of_list_singleton.
        split; (intros [?|Hv]; [by left|]); right.
        - subst v. exists i, id. by split_and!.
        - destruct Hv as (x & y & [(-> & _ & ->)|(_ & -> & _)]%Hminv & _ & Hy); [|done]. congruence. }
      destruct (decide ((o, p) = (oy, q))) as [[= -> ->]|N2].
      { eexists. split; [by apply (am_other _ _ _ _ _ _ Hcase)|]. intros v.
        assert (v ∈ (if decide (VRef oi ∈ ys) then ys else ys ++ [VRef oi]) ↔ v ∈ ys ∨ v = VRef oi) as ->.
        { case_decide; [|by rewrite elem_of_app, elem_of_list_singleton]. naive_solver. }
        split; (intros [?|Hv]; [by left|]); right.
        - subst v. exists id, i. by split_and!.
        - destruct Hv as (x & y & [(_ & -> & _)|(-> & _ & ->)]%Hminv & _ & Hy); [done|]. congruence. }
      exists ys. split; [rewrite <- Hys; apply (am_frame _ _ _ _ _ _ Hcase); by intros [= -> ->]|]. intros v. split; [by left|].
      intros [?|(x & y & [(-> & -> & ->)|(-> & -> & ->)]%Hminv & Hx & _)]; [done| |]; exfalso; [apply N1|apply N2]; congruence.
  - (* private *)
    eapply step_intro; [done..| |].
    + intros o p k Hk Hsk2. right. split; [by intros x y _ ?%Hinv|]. apply Hcase. intros [= -> ->]. rewrite Hki, Ek in Hk. by simplify_eq.
    + intros o p q' ys Hk Hys. exists ys. split; [rewrite Hcase; [done|]; intros [= -> ->]; rewrite Hki, Ek in Hk; by simplify_eq|].
      intros v. split; [by left|]. by intros [?|(x & y & ?%Hminv & _)].
  - done.
  - (* alias *)
    destruct Hl as [q He2].
    apply (Hsingle p q); [done|by eapply says_alias|done|exact Hminv|].
    destruct Hcase as [(-> & y' & Hy' & _)|(_ & q2 & He3 & HS)]; [left; eauto|]. right. destruct He2 as [E2 _], He3 as [E3 _]. by simplify_eq.
  - eapply step_intro; [done..| |].
    + intros o p k Hk Hsk2. right. split; [by intros x y _ ?%Hinv|]. apply Hcase.
    + intros o p q' ys Hk Hys. exists ys. split; [by rewrite Hcase|]. intros v. split; [by left|]. by intros [?|(x & y & ?%Hminv & _)].
Qed.

Context (f : nat) (pf : pystr → option pystr).
Notation F := (Datatypes.S (Datatypes.S f)).
Lemma plain_priv hk o ck e a hk' : Sound S hk → cls_of hk o = Some ck → plain_attr S ck a → after_last_dot (local base e) = a →
  (∀ r, resource rdf e = Some r → has_prefix (u "#") r = false) →
  set_property S F pf base rdf d o e hk = (inl tt, hk') → ∀ o' p, view hk' o' (Priv p) = view hk o' (Priv p).
Proof using Type.
  intros Hs Hc Hpl Ha Hr. pose proof Hpl as (Hpub & Hk & _).
  assert (pkind S hk o a = None) as HK by (unfold pkind; by rewrite Hc).
  assert (∀ v, is_vlist v = false → setattr S F (VRef o) a v hk = (inl tt, hk') → ∀ o' p, view hk' o' (Priv p) = view hk o' (Priv p)) as Hset.
  { intros v Hv. rewrite set_plain by (done || by rewrite Hc). rewrite Hpub. intros [= <-] o' p.
    rewrite view_hset, upd_ne by (done || by rewrite Hc). done. }
  unfold set_property. rewrite Ha. unfold resource in Hr.
  destruct (rdf_attr rdf "resource" (e_attrs e)) as [[|c r]|] eqn:Er.
  - destruct (find_attr S o a hk); by intros [= <-].
  - destruct (N.eqb_spec c 35) as [->|Hne]; [specialize (Hr _ eq_refl); done|].
    unfold set_enum. destruct (find_attr S o a hk); try (by intros [= <-]); destruct (rsplit1_1 (c :: r)); try done. by apply Hset.
  - unfold set_text. destruct (find_attr S o a hk) as [w| | |] eqn:Ef; try (by intros [= <-]); try done.
    destruct (found_plain S hk o ck a w Hs Hc Hpl Ef) as [Hw1 Hw2].
    destruct (convert_plain S f pf w (e_text e) hk Hw1 Hw2) as (r & Er2 & Hr2). unfold swallow_type, bind. rewrite Er2.
    destruct r as [v|x]; [|destruct x; by intros [= <-]].
    destruct (Hr2 v eq_refl) as [Hv1 Hv2]. specialize (Hset v Hv2).
    destruct (setattr S F (VRef o) a v hk) as [[[]|x] hk2] eqn:E2; [intros [= ->]; by apply Hset|].
    exfalso. revert E2. rewrite set_plain by (done || by rewrite Hc). done.
Qed.
Lemma step_statement sts i e hk hk' : Inv sts hk → (∀ st, st ∈ sts → st ∈ all) → (i, e) ∈ all →
  exec1 base rdf S F pf d (i, e) hk = (inl tt, hk') → Inv (sts ++ [(i, e)]) hk'.
Proof using Hde Hs1 Hd Hcl Hcomp Hagree Huniq Hblank.
  intros HI Hsub Hin Ex. unfold exec1 in Ex. cbn [fst snd] in Ex.
  destruct (Hcomp i e Hin) as (ck & Hck & Hco & a & Ha).
  pose proof (in_classes _ _ HI) as Hsk. pose proof (in_sound _ _ HI) as Hsnd.
  destruct (assoc i d) as [v|] eqn:Ei; [|done]. destruct v as [| | | | |oi|]; try done.
  assert (cls_of h1 oi = Some ck) as Hoi by (rewrite Hcl, Ei in Hck; done).
  assert (cls_of hk oi = Some ck) as Hoik by (by rewrite Hsk).
  assert (∀ id, cl id = (v ← assoc id d; val_cls hk v)) as Hclk.
  { intros id. rewrite Hcl. destruct (assoc id d) as [v|] eqn:Ev; [|done]. destruct (Hd _ _ Ev) as (o & -> & _). cbn. by rewrite Hsk. }
  assert (dict_alive d hk) as Hdk.
  { intros id v Hv. destruct (Hd _ _ Hv) as (o & -> & ?). exists o. split; [done|]. by rewrite Hsk. }
  assert (keeps_sound S hk (set_property S F pf base rdf d oi e hk)) as [HF HS].
  { eapply set_property_sound; try done. intros a' Ha'. specialize (Hco a' Ha').
    destruct (resource rdf e) as [r|]; [|done]. destruct r as [|c r]; [done|].
    destruct c as [|c]; [done|]. do 6 (destruct c as [c|c|]; try done). intros tk Htk. apply Hco. by rewrite Hclk. }
  rewrite Ex in HF, HS. cbn [snd] in HF, HS. specialize (Hco a Ha). pose proof Ha as (_ & _ & _ & Hname).
  assert ((∀ r, resource rdf e = Some r → has_prefix (u "#") r = false) → plain_attr S ck a → Inv (sts ++ [(i, e)]) hk') as Hplain.
  { intros Hr Hpl. eapply step_silent; [done|apply HF|done| |].
    - intros x n y (e' & [= -> ->]%elem_of_list_singleton & [_ Hr'] & _). apply Hr in Hr'. done.
    - intros o p k _ _. by eapply plain_priv. }
  destruct (resource rdf e) as [[|c id]|] eqn:Er.
  - apply Hplain; [by intros r [= <-]|done].
  - destruct (N.eq_dec c 35) as [->|Hne].
    + assert (reference_elem base rdf e a id) as He by done.
      assert (set_ref S F d oi a id hk = (inl tt, hk')) as Ex2.
      { rewrite <- Ex. symmetry. apply (reference_set base rdf S F pf d oi e a id hk He). }
      destruct (assoc id d) as [v|] eqn:Eid.
      * destruct (Hd _ _ Eid) as (oy & -> & tk & Htk).
        assert (links_to S ck a tk) as Hl by (apply Hco; rewrite Hcl, Eid; done).
        destruct (set_ref_cases S Hde f hk d oi ck a id oy tk hk') as (Hsc & _ & Hcase); try done; [by rewrite Hsk|].
        eapply (step_ref sts i e hk hk' a id oi oy ck tk); done.
      * assert (hk' = hk) as ->.
        { unfold set_ref in Ex2. rewrite Eid in Ex2. destruct (find_attr S oi a hk); by simplify_eq. }
        eapply step_silent; [done..| |done]. intros ?? ?. eapply refers_none. intros a' id' [_ Hr']. rewrite Er in Hr'. apply (inj Some) in Hr'.
        change (u "#" ++ id') with (35%N :: id') in Hr'. injection Hr' as <-. by rewrite Hcl, Eid.
    + apply Hplain.
      * intros r [= <-]. destruct c as [|c]; [done|]. do 6 (destruct c as [c|c|]; try done).
      * destruct c as [|c]; [done|]. do 6 (destruct c as [c|c|]; try done).
  - by apply Hplain.
Qed.
Lemma exec_inv rest : ∀ sts hk hk', all = sts ++ rest → Inv sts hk → exec base rdf S F pf d rest hk = (inl tt, hk') → Inv all hk'.
Proof using Hde Hs1 Hd Hcl Hcomp Hagree Huniq Hblank.
  induction rest as [|[i e] rest IH]; intros sts hk hk' Hall HI Ex.
  - rewrite app_nil_r in Hall. injection Ex as <-. by rewrite Hall at 1.
  - unfold exec in Ex. cbn [for_each] in Ex. fold (exec base rdf S F pf d) in Ex. unfold bind in Ex.
    destruct (exec1 base rdf S F pf d (i, e) hk) as [[[]|x] h2] eqn:E1; [|done].
    eapply (IH (sts ++ [(i, e)])); [by rewrite <- app_assoc| |exact Ex].
    eapply step_statement; [done| |rewrite Hall; set_solver|done]. rewrite Hall. set_solver.
Qed.
Lemma exec_all hk' : exec base rdf S F pf d all h1 = (inl tt, hk') → Inv all hk'.
Proof using Hde Hs1 Hd Hcl Hcomp Hagree Huniq Hblank. intros Ex. eapply (exec_inv all []); [done|by apply Inv_start|done]. Qed.
End document.

(** A read that returns, of a compatible and coherent document. *)
Section reading.
Context (t : schema) (pm : list (name * name)) (Ht : (t, pm) ∈ tables) (base rdf : pystr) (f : nat) (pf : pystr → option pystr).
Context (err : bool) (root : elem) (evs : list event) (d : dict) (h : heap) (d' : dict) (h' : heap).
Context (Hs : Sound t h) (Hd : dict_alive d h) (Hf : foreign_root base evs) (Hcomp : compatible_doc base rdf t pm evs d h).
Context (Hco : coherent base rdf t pm evs d h).
Context (Hr : reads base rdf t pm (Datatypes.S (Datatypes.S f)) pf err root evs d h = (None, d', h')).
Notation says := (doc_says base rdf t pm evs d h).
Notation says_many := (doc_says_many base rdf t pm evs d h).
Notation K := (pkind t h').

Lemma reads_ready : ∃ h1, Created t (declared base rdf pm evs) d h d' h1 ∧ dict_alive d' h1 ∧
  (∀ id, class_in base rdf pm evs d h id = (v ← assoc id d'; val_cls h1 v)) ∧
  (∀ o ck p k, cls_of h o = None → cls_of h1 o = Some ck → lookup_prop t ck p = Some k → link_kind k = true →
    view h1 o (Priv p) = Some (if many_kind k then OL [] else OV VNone)) ∧
  (∀ x p y, says x p y → ∃ k kk, declared_class base rdf pm evs x = Some k ∧ lookup_prop t k p = Some kk ∧ single_kind kk = true) ∧
  Sound t h1 ∧
  (∀ id e, (id, e) ∈ doc_statements base rdf pm evs d →
    ∃ ck, class_in base rdf pm evs d h id = Some ck ∧ compatible base rdf t (class_in base rdf pm evs d h) ck e ∧ ∃ a, is_property base rdf e a) ∧
  (∀ x p y o, says x p y → assoc x d' = Some (VRef o) → ∀ x', assoc x' d' = Some (VRef o) → x' = x) ∧
  (∀ x p y o, says x p y → assoc x d' = Some (VRef o) → view h1 o (Priv p) = Some (OV VNone)) ∧
  exec base rdf t (Datatypes.S (Datatypes.S f)) pf d' (doc_statements base rdf pm evs d) h1 = (inl tt, h').
Proof using Ht Hs Hd Hf Hcomp Hco Hr.
  pose proof (proj1 (so_consistent _ _ Hs)) as Hwf.
  destruct (reads_returns t pm Ht base rdf (Datatypes.S f) pf err root evs d h d' h' Hwf Hf Hr) as (h1 & _ & HC & Hex).
  destruct (pass1_classes t pm base rdf evs d h d' h1 Hd HC) as [Hd1 Hcl].
  pose proof (Created_Sound t pm Ht base rdf _ _ _ _ _ Hs HC) as Hs1.
  assert (∀ o ck p k, cls_of h o = None → cls_of h1 o = Some ck → lookup_prop t ck p = Some k → link_kind k = true →
    view h1 o (Priv p) = Some (if many_kind k then OL [] else OV VNone)) as Hbl.
  { intros o ck p k Hn Hc Hk Hl. destruct (cr_blank _ _ _ _ _ _ HC o ck Hn Hc) as (id & Hin & Hv). rewrite Hv.
    destruct (declared_map _ _ _ _ _ _ Hin) as [tag Htag].
    destruct (tables_blank t pm tag ck Ht Htag) as [Hb _]; [|by apply Hb].
    eapply blank_new_unraised; [done|done|]. by apply (cr_made _ _ _ _ _ _ HC id ck). }
  assert (∀ id e, (id, e) ∈ doc_statements base rdf pm evs d →
    ∃ ck, class_in base rdf pm evs d h id = Some ck ∧ compatible base rdf t (class_in base rdf pm evs d h) ck e ∧ ∃ a, is_property base rdf e a) as Hst.
  { intros id e Hin. destruct (statements_prop _ _ _ _ _ _ _ Hin) as [a Ha].
    assert (doc_statements base rdf pm evs d =
      statements base rdf (λ id, match class_in base rdf pm evs d h id with Some _ => true | None => false end) None evs) as Est.
    { apply statements_ext. intros i. unfold known_id, class_in. destruct (declared_class base rdf pm evs i); [done|].
      destruct (assoc i d) as [v|] eqn:Ev; [|done]. destruct (Hd _ _ Ev) as (o & -> & [k Hk]). cbn. by rewrite Hk. }
    rewrite Est in Hin. destruct (Hcomp id e Hin) as (ck & ? & ?). eauto 10. }
  assert (∀ x a y ck tk, refers base rdf (class_in base rdf pm evs d h) (doc_statements base rdf pm evs d) x a y →
    class_in base rdf pm evs d h x = Some ck → class_in base rdf pm evs d h y = Some tk → links_to t ck a tk) as Hlink.
  { intros x a y ck tk (e & Hin & [Hp He] & _) Hx Hy. destruct (Hst x e Hin) as (ck' & Hck' & Hc & _).
    assert (ck' = ck) as -> by congruence. specialize (Hc a Hp). rewrite He in Hc. change (u "#" ++ y) with (35%N :: y) in Hc. by apply Hc. }
  assert (∀ x p y, says x p y → ∃ k kk, declared_class base rdf pm evs x = Some k ∧ lookup_prop t k p = Some kk ∧ single_kind kk = true) as Hkind.
  { intros x p y Hsay. destruct (co_subjects _ _ _ _ _ _ _ Hco _ _ _ Hsay) as [k Hk].
    assert (class_in base rdf pm evs d h x = Some k) as Hxk by (unfold class_in; by rewrite Hk).
    assert (∃ kk, lookup_prop t k p = Some kk ∧ single_kind kk = true) as (kk & Hkk & Hsk).
    { destruct Hsay as [x p y ck q ? Hck ?|x a p y ck c Hrf Hck Hal|x p p' y q ck tk ? Hck ? ? [? _]|x p y ck q ? Hck ?|x p y tk q Href Htk Hq];
        try (assert (ck = k) as -> by congruence); eauto.
      - pose proof Hrf as (_ & _ & _ & [tk Htk]). pose proof (Hlink _ _ _ _ _ Hrf Hxk Htk) as Hl.
        unfold links_to in Hl. rewrite Hal in Hl. destruct Hl as (q & [? _]). eauto.
      - pose proof (Hlink _ _ _ _ _ Href Htk Hxk) as Hl. unfold links_to in Hl. rewrite Hq in Hl. eauto. }
    eauto 10. }
  exists h1. split; [done|]. split; [done|]. split; [exact Hcl|]. split; [exact Hbl|]. split; [exact Hkind|]. split; [done|]. split; [exact Hst|]. split; [|split; [|exact Hex]].
  - intros x p y o Hsay Hx. destruct (co_subjects _ _ _ _ _ _ _ Hco _ _ _ Hsay) as [k Hk].
    by eapply (created_unique t pm Ht base rdf evs d h d' h1 x k o).
  - intros x p y o Hsay Hx. destruct (co_subjects _ _ _ _ _ _ _ Hco _ _ _ Hsay) as [k Hk].
    destruct (cr_new _ _ _ _ _ _ HC x k Hk) as (o1 & Ho1 & Hn & Hc & _). assert (o1 = o) as -> by congruence.
    destruct (Hkind x p y Hsay) as (k2 & kk & Hk2 & Hkk & Hsk). assert (k2 = k) as -> by congruence.
    rewrite (Hbl o k p kk Hn Hc Hkk) by (by destruct kk). by destruct kk.
Qed.

Lemma reads_inv : ∃ h1, Created t (declared base rdf pm evs) d h d' h1 ∧ dict_alive d' h1 ∧
  (∀ id, class_in base rdf pm evs d h id = (v ← assoc id d'; val_cls h1 v)) ∧
  (∀ o ck p k, cls_of h o = None → cls_of h1 o = Some ck → lookup_prop t ck p = Some k → link_kind k = true →
    view h1 o (Priv p) = Some (if many_kind k then OL [] else OV VNone)) ∧
  (∀ x p y, says x p y → ∃ k kk, declared_class base rdf pm evs x = Some k ∧ lookup_prop t k p = Some kk ∧ single_kind kk = true) ∧
  Inv t base rdf d' h1 (class_in base rdf pm evs d h) (doc_statements base rdf pm evs d) h'.
Proof using Ht Hs Hd Hf Hcomp Hco Hr.
  destruct reads_ready as (h1 & HC & Hd1 & Hcl & Hbl & Hkind & Hs1 & Hst & Hu & Hb & Hex).
  exists h1. split; [done|]. split; [done|]. split; [exact Hcl|]. split; [exact Hbl|]. split; [exact Hkind|].
  eapply (exec_all t (tables_distinct t pm Ht) base rdf d' h1); [done|done|exact Hcl|exact Hst|apply Hco|exact Hu|exact Hb|exact Hex].
Qed.

Lemma reads_single o p k : K o p = Some k → single_kind k = true →
  (∃ x y oy, says x p y ∧ assoc x d' = Some (VRef o) ∧ assoc y d' = Some (VRef oy) ∧ view h' o (Priv p) = Some (OV (VRef oy))) ∨
  (∀ x y, assoc x d' = Some (VRef o) → ¬ says x p y) ∧
  view h' o (Priv p) = match cls_of h o with Some _ => view h o (Priv p) | None => Some (OV VNone) end.
Proof using Ht Hs Hd Hf Hcomp Hco Hr.
  intros Hk Hsk. destruct reads_inv as (h1 & HC & Hd1 & Hcl & Hbl & _ & HI). pose proof (in_classes _ _ _ _ _ _ _ _ HI) as Hsc.
  assert (pkind t h1 o p = Some k) as Hk1 by (unfold pkind in *; by rewrite Hsc in Hk).
  destruct (in_single _ _ _ _ _ _ _ _ HI o p k Hk1 Hsk) as [?|[Hno Hv]]; [by left|]. right. split; [done|]. rewrite Hv.
  destruct (cls_of h o) as [c|] eqn:Ec; [by apply (cr_frame _ _ _ _ _ _ HC); rewrite Ec|].
  unfold pkind in Hk1. destruct (cls_of h1 o) as [ck|] eqn:Ec1; [|done].
  rewrite (Hbl o ck p k Ec Ec1 Hk1) by (by destruct k). by destruct k.
Qed.
Lemma reads_said x p y : says x p y → ∃ o oy k, assoc x d' = Some (VRef o) ∧ assoc y d' = Some (VRef oy) ∧ K o p = Some k ∧ single_kind k = true ∧
  cls_of h o = None ∧ view h' o (Priv p) = Some (OV (VRef oy)).
Proof using Ht Hs Hd Hf Hcomp Hco Hr.
  intros Hsay. destruct reads_inv as (h1 & HC & Hd1 & Hcl & Hbl & Hkind & HI). pose proof (in_classes _ _ _ _ _ _ _ _ HI) as Hsc.
  destruct (Hkind x p y Hsay) as (k & kk & Hk & Hkk & Hsk). destruct (cr_new _ _ _ _ _ _ HC x k Hk) as (o & Ho & Hn & Hc & _).
  assert (K o p = Some kk) as HK by (unfold pkind; by rewrite Hsc, Hc).
  destruct (reads_single o p kk HK Hsk) as [(x2 & y2 & oy & Hsay2 & Hx2 & Hy2 & Hv)|[Hno _]]; [|exfalso; by eapply Hno].
  rewrite (created_unique t pm Ht base rdf evs d h d' h1 x k o Hd HC Hk Ho x2 Hx2) in Hsay2.
  rewrite (co_agree _ _ _ _ _ _ _ Hco _ _ _ _ Hsay2 Hsay) in Hy2. exists o, oy, kk. done.
Qed.
Lemma reads_old o : is_Some (cls_of h o) → cls_of h' o = cls_of h o ∧ ∀ p k, K o p = Some k → single_kind k = true → view h' o (Priv p) = view h o (Priv p).
Proof using Ht Hs Hd Hf Hcomp Hco Hr.
  intros [c Hc]. destruct reads_inv as (h1 & HC & Hd1 & Hcl & Hbl & Hkind & HI). pose proof (in_classes _ _ _ _ _ _ _ _ HI) as Hsc.
  split; [rewrite Hsc; apply (cr_frame _ _ _ _ _ _ HC o (Pub [])); by rewrite Hc|].
  intros p k Hk Hsk. destruct (reads_single o p k Hk Hsk) as [(x & y & oy & Hsay & Hx & _)|[_ Hv]]; [|by rewrite Hc in Hv].
  destruct (reads_said x p y Hsay) as (o2 & _ & _ & Hx2 & _ & _ & _ & Hn & _). assert (o2 = o) as -> by congruence. congruence.
Qed.
Lemma reads_sound' : Sound t h'.
Proof using Ht Hs Hd Hf Hcomp Hr. eapply (reads_sound t pm Ht base rdf f pf); done. Qed.
Lemma held_old o q v : held h o q v → is_Some (cls_of h o).
Proof using Type. intros (ys & Hv & _). unfold view in Hv. destruct (slot h o (Priv q)) as [w|] eqn:E; [by eapply HeapFacts.slot_cls|done]. Qed.
Lemma reads_collection oy q p' : K oy q = Some (PManyOne p') → ∃ ys, view h' oy (Priv q) = Some (OL ys) ∧ NoDup ys ∧
  ∀ v, v ∈ ys ↔ held h oy q v ∨ ∃ x p y o, says x p y ∧ assoc x d' = Some v ∧ assoc y d' = Some (VRef oy) ∧ v = VRef o ∧ K o p = Some (POneMany q).
Proof using Ht Hs Hd Hf Hcomp Hco Hr.
  intros Hq. pose proof reads_sound' as HS'. pose proof (so_consistent _ _ HS') as [_ HL'].
  pose proof (so_consistent _ _ Hs) as [_ HL].
  destruct (so_slots _ _ HS' oy q _ Hq) as [w Hw]. destruct (lk_coll _ _ HL' oy q p' w Hq Hw) as (ys & -> & Hnd & Hys).
  exists ys. split_and!; [done..|]. intros v. split.
  - intros Hv. destruct (Hys v Hv) as (o & p & -> & [Hp _] & Hvo).
    destruct (reads_single o p _ Hp eq_refl) as [(x & y & oy2 & Hsay & Hx & Hy & Hvo2)|[_ Hvo2]].
    + right. assert (oy2 = oy) as -> by congruence. exists x, p, y, o. done.
    + left. rewrite Hvo in Hvo2. destruct (cls_of h o) as [c|] eqn:Ec; [|done]. symmetry in Hvo2.
      destruct (reads_old o) as [Ecl _]; [by rewrite Ec|]. unfold pkind in Hp. rewrite Ecl in Hp. change (pkind t h o p = Some (POneMany q)) in Hp.
      destruct (lk_single _ _ HL o p q _ Hp Hvo2) as [?|(t0 & ys0 & Et & _ & Hl & Hin)]; [done|].
      injection Et as <-. by exists ys0.
  - intros [Hh|(x & p & y & o & Hsay & Hx & Hy & -> & Hp)].
    + destruct (held_old _ _ _ Hh) as [c Hc]. destruct Hh as (ys0 & Hv0 & Hin).
      destruct (reads_old oy) as [Ecl _]; [by rewrite Hc|]. unfold pkind in Hq. rewrite Ecl in Hq. change (pkind t h oy q = Some (PManyOne p')) in Hq.
      destruct (lk_coll _ _ HL oy q p' _ Hq Hv0) as (ys1 & E & _ & Hys1). simplify_eq.
      destruct (Hys1 v Hin) as (o & p & -> & [Hp _] & Hvo).
      assert (is_Some (cls_of h o)) as Ho by (unfold pkind in Hp; by destruct (cls_of h o)).
      destruct (reads_old o Ho) as [Eo Hold]. assert (K o p = Some (POneMany q)) as Hp' by (unfold pkind in *; by rewrite Eo).
      rewrite <- (Hold p _ Hp' eq_refl) in Hvo.
      destruct (lk_single _ _ HL' o p q _ Hp' Hvo) as [?|(t0 & ys2 & Et & _ & Hl & Hin2)]; [done|]. simplify_eq. done.
    + destruct (reads_said x p y Hsay) as (o2 & oy2 & k & Hx2 & Hy2 & HK & _ & _ & Hv). simplify_eq.
      destruct (lk_single _ _ HL' o p q _ Hp Hv) as [?|(t0 & ys2 & Et & _ & Hl & Hin2)]; [done|]. simplify_eq. done.
Qed.
Lemma reads_many o p q : K o p = Some (PManyMany q) → ∃ ys, view h' o (Priv p) = Some (OL ys) ∧
  ∀ v, v ∈ ys ↔ held h o p v ∨ ∃ x y, says_many x p y ∧ assoc x d' = Some (VRef o) ∧ assoc y d' = Some v.
Proof using Ht Hs Hd Hf Hcomp Hco Hr.
  intros Hk. destruct reads_inv as (h1 & HC & Hd1 & Hcl & Hbl & Hkind & HI). pose proof (in_classes _ _ _ _ _ _ _ _ HI) as Hsc.
  assert (pkind t h1 o p = Some (PManyMany q)) as Hk1 by (unfold pkind in *; by rewrite Hsc in Hk).
  destruct (in_many _ _ _ _ _ _ _ _ HI o p q Hk1) as (ys & ys1 & Hv & Hv1 & Hys). exists ys. split; [done|].
  intros v. rewrite Hys. apply or_iff_compat_r. unfold held. split.
  - intros Hin. destruct (cls_of h o) as [c|] eqn:Ec.
    + destruct (cr_frame _ _ _ _ _ _ HC o (Priv p)) as [_ E]; [by rewrite Ec|]. rewrite E in Hv1. eauto.
    + exfalso. unfold pkind in Hk1. destruct (cls_of h1 o) as [ck|] eqn:Ec1; [|done].
      rewrite (Hbl o ck p _ Ec Ec1 Hk1 eq_refl) in Hv1. cbn in Hv1. simplify_eq. by apply elem_of_nil in Hin.
  - intros Hh. destruct (held_old _ _ _ Hh) as [c Hc]. destruct Hh as (ys0 & Hv0 & Hin).
    destruct (cr_frame _ _ _ _ _ _ HC o (Priv p)) as [_ E]; [by rewrite Hc|]. rewrite E in Hv1. by simplify_eq.
Qed.
End reading.
