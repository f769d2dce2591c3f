(** Facts about the pretty printer. *)
From Coq Require Import String.
From stdpp Require Import prelude.
From Verif Require Import PyStr PyHeap Schema Assoc Reader ReaderSpec Pretty PrettySpec.
Local Open Scope N_scope.

Lemma py_space_white c : py_space c = true ↔ white c.
Proof.
  unfold white. split.
  - unfold py_space, is_space. cbn [existsb]. rewrite !orb_true_iff, !andb_true_iff, !N.eqb_eq, !N.leb_le.
    rewrite !elem_of_cons, elem_of_nil. intros H.
    assert (9 <= c <= 13 → c = 9 ∨ c = 10 ∨ c = 11 ∨ c = 12 ∨ c = 13) as H1 by (clear; lia).
    assert (28 <= c <= 31 → c = 28 ∨ c = 29 ∨ c = 30 ∨ c = 31) as H2 by (clear; lia).
    assert (8192 <= c <= 8202 → c = 8192 ∨ c = 8193 ∨ c = 8194 ∨ c = 8195 ∨ c = 8196 ∨ c = 8197 ∨ c = 8198 ∨ c = 8199 ∨ c = 8200 ∨ c = 8201 ∨ c = 8202) as H3 by (clear; lia).
    repeat destruct H as [H|H]; try discriminate H; try (subst c; clear; tauto); first [apply H1 in H|apply H2 in H|apply H3 in H]; clear -H; tauto.
  - rewrite !elem_of_cons, elem_of_nil. intros H. repeat destruct H as [->|H]; done.
Qed.
Lemma lstrip_nil s : py_lstrip s = [] ↔ Forall white s.
Proof.
  induction s as [|c s IH]; [done|]. cbn [py_lstrip]. rewrite Forall_cons, <- py_space_white, <- IH. destruct (py_space c); naive_solver.
Qed.
Lemma lstrip_head s c r : py_lstrip s = c :: r → py_space c = false.
Proof. induction s as [|x s IH]; [done|]. cbn [py_lstrip]. destruct (py_space x) eqn:E; [done|]. by intros [= -> ->]. Qed.
Lemma reverse_nil_iff (s : pystr) : reverse s = [] ↔ s = [].
Proof. split; [|by intros ->]. intros H. rewrite <- (reverse_involutive s), H. done. Qed.
Lemma strip_nil s : py_strip s = [] ↔ Forall white s.
Proof.
  unfold py_strip. rewrite reverse_nil_iff, lstrip_nil, Forall_reverse.
  rewrite <- (lstrip_nil s). destruct (py_lstrip s) as [|c r] eqn:E; [done|]. split; [|done].
  apply lstrip_head in E. intros H. inversion H as [|? ? Hw _]; subst. apply py_space_white in Hw. congruence.
Qed.
Lemma blank_white x : blank x = true ↔ white_text x.
Proof.
  unfold blank, white_text. destruct x as [s|]; [|done]. cbn [fmap option_fmap option_map]. split.
  - intros H s' [= <-]. apply strip_nil. destruct s as [|c s]; [done|]. cbn [falsy orb] in H. by destruct (py_strip (c :: s)).
  - intros H. rewrite (proj2 (strip_nil s)) by (by apply H). apply orb_true_r.
Qed.
Lemma blank_not x : blank x = false → ¬ white_text x.
Proof. intros H Hw%blank_white. congruence. Qed.

Lemma newline_eq n : newline n = newline_spaces n.
Proof.
  unfold newline, newline_spaces. cbn [app]. f_equal. induction n as [|n IH]; [done|].
  replace (2 * S n)%nat with (S (S (2 * n)))%nat by lia. cbn [replicate].
  change (mjoin (u "  " :: replicate n (u "  "))) with (u "  " ++ mjoin (replicate n (u "  "))). by rewrite IH.
Qed.
Lemma newline_next n : newline n ++ u "  " = newline (S n).
Proof.
  unfold newline. cbn [app]. f_equal. induction n as [|n IH]; [done|]. cbn [replicate]. 
  change (mjoin (u "  " :: replicate n (u "  "))) with (u "  " ++ mjoin (replicate n (u "  "))).
  rewrite <- app_assoc, IH. done.
Qed.
Lemma newline_white n : white_text (Some (newline n)).
Proof.
  intros s [= <-]. rewrite newline_eq. unfold newline_spaces. apply Forall_cons. split; [by apply py_space_white|].
  apply Forall_replicate. by apply py_space_white.
Qed.
Lemma newline_blank n : blank (Some (newline n)) = true.
Proof. apply blank_white, newline_white. Qed.
Lemma fill_blank n x : blank (fill x (newline n)) = blank x.
Proof. unfold fill. destruct (blank x) eqn:E; [apply newline_blank|done]. Qed.
Lemma fill_same n x : same_space x (fill x (newline n)).
Proof. unfold fill, same_space. destruct (blank x) eqn:E; [right|by left]. split; [by apply blank_white|apply newline_white]. Qed.
Lemma fill_fill n m x : fill (fill x (newline n)) (newline m) = fill x (newline m).
Proof. unfold fill at 1. rewrite fill_blank. unfold fill. by destruct (blank x). Qed.
Lemma fill_white n x : white_text x → fill x (newline n) = Some (newline n).
Proof. intros H%blank_white. unfold fill. by rewrite H. Qed.

(** Induction over trees. *)
Fixpoint et_size (t : et) : nat := match t with Et _ _ _ _ l => S (list_sum (map et_size l)) end.
Lemma et_ind' (P : et → Prop) : (∀ tag a x y l, Forall P l → P (Et tag a x y l)) → ∀ t, P t.
Proof.
  intros H. fix IH 1. intros [tag a x y l]. apply H. induction l as [|t l IHl]; constructor; [apply IH|exact IHl].
Qed.

Lemma indent_node n tag a x y k ks :
  indent n (Et tag a x y (k :: ks)) =
  Et tag a (fill x (newline (S n))) (fill y (newline n)) (fill_last (newline n) (map (indent (S n)) (k :: ks))).
Proof. cbn [indent]. by rewrite newline_next. Qed.
Lemma same_space_trans x y z : same_space x y → same_space y z → same_space x z.
Proof. unfold same_space. intros [->|[H1 H2]] [->|[H3 H4]]; eauto. Qed.
Lemma same_content_tail n t t' : same_content t t' → same_content t (fill_tail (newline n) t').
Proof.
  destruct 1 as [tag a x y y' H|tag a x y x' y' l l' Hne Hx Hy Hl]; cbn [fill_tail]; constructor; try done;
    (eapply same_space_trans; [done|apply fill_same]).
Qed.
Lemma same_content_last n l l' : Forall2 same_content l l' → Forall2 same_content l (fill_last (newline n) l').
Proof.
  induction 1 as [|t t' l l' Ht Hl IH]; [constructor|]. cbn [fill_last]. destruct l' as [|t2 l'].
  - inversion Hl; subst. repeat constructor. by apply same_content_tail.
  - constructor; done.
Qed.
Lemma indent_same t : ∀ n, same_content t (indent n t).
Proof.
  induction t as [tag a x y l IH] using et_ind'. intros n. destruct l as [|k ks].
  - cbn [indent]. constructor. destruct n; [by left|apply fill_same].
  - rewrite indent_node. constructor; [done|apply fill_same..|]. apply same_content_last.
    apply Forall2_fmap_r. induction IH; constructor; auto.
Qed.
Lemma fill_last_nil i l : fill_last i l = [] ↔ l = [].
Proof. destruct l as [|t [|]]; done. Qed.

(** Idempotence. *)
Lemma fill_last_map n (l : list et) : ∀ f : et → et,
  (∀ t, t ∈ l → f (fill_tail (newline n) (f t)) = fill_tail (newline (S n)) (f t) ∧ f (f t) = f t) →
  fill_last (newline n) (map f (fill_last (newline n) (map f l))) = fill_last (newline n) (map f l).
Proof.
  intros f. induction l as [|t l IH]; intros Hf; [done|].
  destruct l as [|t2 l].
  - cbn [map fill_last]. destruct (Hf t) as [-> _]; [left|]. destruct (f t) as [tag a x y ks]. cbn [fill_tail]. by rewrite fill_fill.
  - cbn [map]. change (fill_last (newline n) (f t :: f t2 :: map f l)) with (f t :: fill_last (newline n) (map f (t2 :: l))).
    cbn [map]. destruct (Hf t) as [_ ->]; [left|].
    change (f t2 :: map f l) with (map f (t2 :: l)).
    assert (fill_last (newline n) (f t :: map f (fill_last (newline n) (map f (t2 :: l)))) =
            f t :: fill_last (newline n) (map f (fill_last (newline n) (map f (t2 :: l))))) as ->.
    { destruct (map f (fill_last (newline n) (map f (t2 :: l)))) as [|z zs] eqn:E; [|done].
      apply map_eq_nil, (proj1 (fill_last_nil _ _)) in E. by apply map_eq_nil in E. }
    f_equal. apply IH. intros t' Ht'. apply Hf. by right.
Qed.
Lemma indent_tail n m t : indent (S n) (fill_tail (newline m) t) = fill_tail (newline (S n)) (indent (S n) t).
Proof.
  destruct t as [tag a x y [|k ks]]; cbn [fill_tail].
  - cbn [indent fill_tail]. by rewrite fill_fill, fill_fill.
  - rewrite !indent_node. cbn [fill_tail]. by rewrite fill_fill, fill_fill.
Qed.
Lemma indent_idem t : ∀ n, indent n (indent n t) = indent n t.
Proof.
  induction t as [tag a x y l IH] using et_ind'. intros n. destruct l as [|k ks].
  - cbn [indent]. destruct n; [done|]. by rewrite fill_fill.
  - rewrite indent_node. destruct (fill_last (newline n) (map (indent (S n)) (k :: ks))) as [|k' ks'] eqn:E.
    { by apply (proj1 (fill_last_nil _ _)) in E. }
    rewrite indent_node, <- E, !fill_fill. f_equal. apply fill_last_map. intros t Ht.
    rewrite Forall_forall in IH. split; [|by apply IH]. by rewrite indent_tail, IH.
Qed.

(** Layout. *)
Lemma laid_open n prev tag ts : laid_out n prev (TOpen tag :: ts) ↔ (n = 0%nat ∨ prev = Some (newline_spaces n)) ∧ laid_out (S n) None ts.
Proof. done. Qed.
Definition body (t : et) : list token :=
  match t with Et tag _ x _ l => TOpen tag :: text_token x ++ flat_map tokens l ++ [TClose tag match l with [] => true | _ => false end] end.
Lemma tokens_body t : tokens t = body t ++ text_token (et_tail t).
Proof. destruct t as [tag a x y l]. cbn. rewrite <- !app_assoc. done. Qed.
Lemma body_fill n t : body (fill_tail n t) = body t.
Proof. by destruct t. Qed.
Lemma laid_texts n prev x rest : laid_out n prev (text_token x ++ rest) ↔ laid_out n (match x with Some s => Some s | None => prev end) rest.
Proof. by destruct x. Qed.
Lemma indent_body t : data_only t → ∀ n prev rest, (n = 0%nat ∨ prev = Some (newline_spaces n)) → laid_out n None rest →
  laid_out n prev (body (indent n t) ++ rest).
Proof.
  induction t as [tag a x y l IH] using et_ind'. intros Hd n prev rest Hp Hr. destruct l as [|k ks].
  - cbn [indent body flat_map app]. apply laid_open. split; [done|]. rewrite <- app_assoc. apply laid_texts. cbn [app laid_out pred].
    split; [by left|done].
  - assert (Forall data_only (k :: ks) ∧ white_text x ∧ white_text y) as (Hk & Hx & Hy).
    { inversion Hd; subst; done. }
    rewrite indent_node. cbn [body]. assert (fill_last (newline n) (map (indent (S n)) (k :: ks)) ≠ []) as Hne.
    { intros E. by apply (proj1 (fill_last_nil _ _)) in E. }
    destruct (fill_last (newline n) (map (indent (S n)) (k :: ks))) as [|z zs] eqn:E; [done|]. rewrite <- E. clear Hne.
    cbn [app]. apply laid_open. split; [done|]. rewrite <- !app_assoc. apply laid_texts.
    rewrite (fill_white (S n)) by done. clear E z zs Hd Hx Hy x y Hp prev.
    assert (∃ prev, prev = Some (newline (S n))) as [prev Hprev] by eauto. rewrite <- Hprev.
    assert (prev = Some (newline_spaces (S n))) as Hprev' by (by rewrite <- newline_eq). clear Hprev.
    revert prev Hprev'. generalize dependent k. induction ks as [|k2 ks IHks]; intros k IH Hk prev Hprev.
    + cbn [map fill_last flat_map app]. inversion IH as [|? ? IHk _]; subst. inversion Hk as [|? ? Hkd _]; subst.
      rewrite app_nil_r, tokens_body, body_fill, <- app_assoc. apply IHk; [done|by right|].
      assert (et_tail (fill_tail (newline n) (indent (S n) k)) = Some (newline n)) as ->.
      { inversion Hkd; subst.
        - cbn [indent fill_tail et_tail]. rewrite fill_fill. by apply fill_white.
        - destruct l as [|j js].
          + cbn [indent fill_tail et_tail]. rewrite fill_fill. by apply fill_white.
          + rewrite indent_node. cbn [fill_tail et_tail]. rewrite fill_fill. by apply fill_white. }
      cbn [text_token app laid_out pred]. split; [right; by rewrite newline_eq|done].
    + change (fill_last (newline n) (map (indent (S n)) (k :: k2 :: ks))) with
        (indent (S n) k :: fill_last (newline n) (map (indent (S n)) (k2 :: ks))).
      cbn [flat_map]. inversion IH as [|? ? IHk IH']; subst. inversion Hk as [|? ? Hkd Hk']; subst.
      rewrite tokens_body, <- !app_assoc. apply IHk; [done|by right|].
      assert (et_tail (indent (S n) k) = Some (newline (S n))) as ->.
      { inversion Hkd; subst.
        - cbn [indent et_tail]. by apply fill_white.
        - destruct l as [|j js]; [cbn [indent et_tail]|rewrite indent_node; cbn [et_tail]]; by apply fill_white. }
      cbn [text_token app laid_out]. apply (IHks k2); [done|done|]. by rewrite newline_eq.
Qed.

(** Canonical form. *)
Lemma fill_same_space n x y : same_space x y → fill x (newline n) = fill y (newline n).
Proof. intros [->|[Hx Hy]]; [done|]. by rewrite !fill_white. Qed.
Lemma same_content_ind' (P : et → et → Prop) :
  (∀ tag a x y y', same_space y y' → P (Et tag a x y []) (Et tag a x y' [])) →
  (∀ tag a x y x' y' l l', l ≠ [] → same_space x x' → same_space y y' → Forall2 P l l' → P (Et tag a x y l) (Et tag a x' y' l')) →
  ∀ t t', same_content t t' → P t t'.
Proof.
  intros H1 H2. fix IH 3. intros t t' [tag a x y y' H|tag a x y x' y' l l' Hne Hx Hy Hl]; [by apply H1|].
  apply H2; [done..|]. clear Hne. induction Hl as [|s s' l l' Hs Hl IHl]; constructor; [by apply IH|exact IHl].
Qed.
Lemma indent_canonical t t' : same_content t t' → ∀ n, (n = 0%nat → et_tail t = et_tail t') → indent n t = indent n t'.
Proof.
  intros H. induction H as [tag a x y y' Hy|tag a x y x' y' l l' Hne Hx Hy Hl] using same_content_ind'; intros n Hn.
  - cbn [indent]. destruct n; [by rewrite (Hn eq_refl : y = y')|]. by rewrite (fill_same_space _ _ _ Hy).
  - destruct Hl as [|k k' l l' Hk Hl]; [done|]. rewrite !indent_node. 
    rewrite (fill_same_space _ _ _ Hx), (fill_same_space _ _ _ Hy). f_equal. f_equal. cbn [map]. f_equal; [by apply Hk|].
    induction Hl as [|s s' l l' Hs Hl IH]; [done|]. cbn [map]. f_equal; [by apply Hs|apply IH; done].
Qed.

(** Reading. *)
Section reading.
Context (S : schema) (pm : list (name * name)) (fuel : nat) (pf : pystr → option pystr) (base rdf : pystr).
Definition unread (e : elem) : Prop :=
  in_base base e = false ∨ is_Some (rdf_attr rdf "ID" (e_attrs e)) ∨ is_Some (rdf_attr rdf "about" (e_attrs e)) ∨
  is_Some (rdf_attr rdf "resource" (e_attrs e)).
Inductive same_elem : elem → elem → Prop :=
  | se_refl e : same_elem e e
  | se_text tag a x x' r : unread (Elem tag a x r) → same_elem (Elem tag a x r) (Elem tag a x' r).
Inductive same_event : event → event → Prop :=
  | sv_start e e' : e_tag e = e_tag e' → e_attrs e = e_attrs e' → e_root e = e_root e' → same_event (EStart e) (EStart e')
  | sv_end e e' : same_elem e e' → same_event (EEnd e) (EEnd e')
  | sv_ns p v : same_event (ENs p v) (ENs p v).
Lemma pass1_same cl ev ev' d : same_event ev ev' → pass1_step S pm fuel base rdf cl ev d = pass1_step S pm fuel base rdf cl ev' d.
Proof. intros [e e' ???|e e' []|]; done. Qed.
Lemma pass2_same d cur ev ev' h : same_event ev ev' → pass2_step S fuel pf base rdf d cur ev h = pass2_step S fuel pf base rdf d cur ev' h.
Proof.
  intros [e e' Ht Ha Hr|e e' [|tag a x x' r Hu]|]; [|done| |done].
  - destruct cur as [v|]; [done|]. cbn [pass2_step]. unfold in_base. rewrite Ht, Ha. done.
  - destruct cur as [v|]; [|done]. unfold pass2_step. unfold in_base at 1 2. cbn [e_tag e_attrs].
    change (has_prefix base tag) with (in_base base (Elem tag a x r)).
    destruct (in_base base (Elem tag a x r)) eqn:Eb; [|done].
    destruct (rdf_attr rdf "ID" a) eqn:E1; [done|]. destruct (rdf_attr rdf "about" a) eqn:E2; [done|].
    destruct v as [| | | | |o|]; try done. unfold set_property. cbn [e_attrs]. unfold local. cbn [e_tag e_text].
    destruct Hu as [Hu|[Hu|[Hu|Hu]]]; cbn [e_attrs] in Hu.
    + congruence.
    + rewrite E1 in Hu. by destruct Hu.
    + rewrite E2 in Hu. by destruct Hu.
    + unfold bind. destruct Hu as [z Hz]. rewrite Hz. done.
Qed.
Lemma read_same err evs evs' d h : Forall2 same_event evs evs' →
  read S pm fuel pf base rdf (Source evs err) d h = read S pm fuel pf base rdf (Source evs' err) d h.
Proof.
  intros H. unfold read. cbn [s_events s_error].
  assert (match skip_root evs, skip_root evs' with Some l, Some l' => Forall2 same_event l l' | None, None => True | _, _ => False end) as Hs.
  { induction H as [|ev ev' l l' He Hl IH]; [done|]. by destruct He. }
  destruct (skip_root evs) as [l|], (skip_root evs') as [l'|]; try done. clear H.
  assert (∀ cl d h, pass1 S pm fuel base rdf err l cl d h = pass1 S pm fuel base rdf err l' cl d h) as ->.
  { clear d h. induction Hs as [|ev ev' l l' He Hl IH]; intros cl d h; [done|]. cbn [pass1].
    pose proof (pass1_same cl _ _ d He) as E. destruct He; rewrite ?E; try done.
    - destruct (pass1_step S pm fuel base rdf cl (EStart e') d h) as [[d'|] h']; [apply IH|done].
    - destruct (pass1_step S pm fuel base rdf cl (EEnd e') d h) as [[d'|] h']; [apply IH|done]. }
  destruct (pass1 S pm fuel base rdf err l' false d h) as [[[x|] d'] h']; [done|].
  assert (∀ cur h, pass2 S fuel pf base rdf d' err l cur h = pass2 S fuel pf base rdf d' err l' cur h) as ->; [|done].
  clear d h h'. induction Hs as [|ev ev' l l' He Hl IH]; intros cur h; [done|]. cbn [pass2].
  rewrite (pass2_same d' cur _ _ h He). destruct (pass2_step S fuel pf base rdf d' cur ev' h) as [[cur'|] h']; [apply IH|done].
Qed.
Lemma has_prefix_false (p s : pystr) : ¬ p `prefix_of` s → has_prefix p s = false.
Proof.
  intros H. apply not_true_iff_false. intros E. apply H. clear H. revert s E. induction p as [|c p IH]; intros s E; [by exists s|].
  destruct s as [|c' s]; [done|]. cbn in E. apply andb_true_iff in E as [->%N.eqb_eq E]. destruct (IH _ E) as [r ->]. by exists r.
Qed.
Lemma same_events t t' root : same_content t t' → leaf_properties base rdf t →
  Forall2 same_event (tree_events root (without_tails t)) (tree_events root (without_tails t')).
Proof.
  intros H. revert root. induction H as [tag a x y y' Hy|tag a x y x' y' l l' Hne Hx Hy Hl] using same_content_ind'; intros root Hp.
  - cbn. repeat constructor.
  - cbn [without_tails tree_events].
    assert (unread (Elem tag a x root) ∧ Forall (leaf_properties base rdf) l) as [Hu Hc].
    { inversion Hp as [|? ? ? ? ? Hu Hc]; subst; [done|]. split; [|done].
      destruct Hu as [Hu|Hu]; [left; by apply has_prefix_false|by right]. }
    constructor; [by constructor|]. apply Forall2_app; [|constructor; [|constructor]; by apply sv_end, se_text].
    clear Hne Hu Hp. induction Hl as [|k k' l l' Hk Hl IH]; [by constructor|]. cbn [map flat_map].
    inversion Hc; subst. apply Forall2_app; [by apply Hk|by apply IH].
Qed.
End reading.
