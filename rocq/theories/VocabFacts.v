From Coq Require Import String.
From stdpp Require Import prelude gmap.
From Verif Require Import PyStr PyHeap Schema Assoc AssocSpec HeapFacts Tables TableFacts BlankFacts Reader ReaderSpec ReaderFacts
  StatementFacts ReadStepFacts ReadDocFacts ArgFacts VocabSpec.

Lemma assoc_first {A} k (v : A) l : assoc k l = Some v ↔ first_is k v l.
Proof.
  unfold first_is. induction l as [|[k' v'] l IH]; cbn [assoc].
  - split; [done|]. by intros ([|] & b & ? & _).
  - destruct (str_eqb k k') eqn:E.
    + apply str_eqb_eq in E as <-. split.
      * intros [= ->]. exists [], l. split; [done|]. apply not_elem_of_nil.
      * intros ([|[a0 w] a] & b & [= -> ->] & Hn); [done|]. destruct Hn. by left.
    + apply str_eqb_neq in E. rewrite IH. split.
      * intros (a & b & -> & Hn). exists ((k', v') :: a), b. split; [done|]. cbn. rewrite elem_of_cons. naive_solver.
      * intros ([|[a0 w] a] & b & [= -> ->] & Hn); [done|]. exists a, b. split; [done|]. intros Hin. apply Hn. by right.
Qed.
Lemma assoc_lacks {A} k (l : list (name * A)) : assoc k l = None ↔ k ∉ map fst l.
Proof. apply assoc_None. Qed.
Lemma rdf_attr_has rdf n e v : rdf_attr rdf n (e_attrs e) = Some v ↔ rdf_has rdf n e v.
Proof. apply assoc_first. Qed.
Lemma rdf_attr_lacks rdf n e : rdf_attr rdf n (e_attrs e) = None ↔ rdf_lacks rdf n e.
Proof. apply assoc_lacks. Qed.
Lemma in_base_iff base e : in_base base e = true ↔ ∃ l, e_tag e = base ++ l.
Proof.
  unfold in_base, has_prefix. rewrite str_eqb_eq. split.
  - intros E. exists (drop (length base) (e_tag e)). rewrite <- E at 1. by rewrite take_drop.
  - intros [l ->]. by rewrite take_app.
Qed.
Lemma local_app base e l : e_tag e = base ++ l → local base e = l.
Proof. unfold local. intros ->. by rewrite drop_app. Qed.
Lemma uuid_iff base rdf e l id : e_tag e = base ++ l → uuid_of rdf (e_attrs e) = Some id ↔ names_object base rdf e l id.
Proof.
  intros Ht. unfold uuid_of, names_object. rewrite <- (rdf_attr_has rdf "ID"), <- (rdf_attr_lacks rdf "ID").
  destruct (rdf_attr rdf "ID" (e_attrs e)) as [s|] eqn:E1; [naive_solver|].
  destruct (rdf_attr rdf "about" (e_attrs e)) as [s|] eqn:E2.
  - apply rdf_attr_has in E2. split.
    + intros [= <-]. split; [done|]. right. split; [done|]. exists s. split; [done|]. by destruct s.
    + intros (_ & [?|(_ & s' & H & ->)]); [done|]. apply rdf_attr_has in E2, H. rewrite E2 in H. injection H as ->. by destruct s'.
  - split; [done|]. intros (_ & [?|(_ & s' & H & ->)]); [done|]. apply rdf_attr_has in H. congruence.
Qed.
Lemma object_iff base rdf e id : is_object base rdf e id ↔ ∃ l, names_object base rdf e l id.
Proof.
  unfold is_object. rewrite in_base_iff. split.
  - intros [[l Hl] Hu]. exists l. by apply (uuid_iff base rdf e l).
  - intros [l Hl]. pose proof (proj1 Hl) as Ht. split; [by exists l|]. by apply (uuid_iff base rdf e l).
Qed.
Lemma last_part_iff l a : after_last_dot l = a ↔ last_part l a.
Proof.
  unfold last_part. split.
  - intros <-. induction l as [|c l IH]; [split; [apply not_elem_of_nil|by left]|]. cbn [after_last_dot].
    destruct (existsb (N.eqb 46) l) eqn:E.
    + destruct IH as [H1 H2]. split; [done|]. right. destruct H2 as [H2|[p H2]].
      * exfalso. rewrite <- H2 in H1. apply no_dot in H1. congruence.
      * exists (c :: p). by rewrite H2 at 1.
    + apply no_dot in E. destruct (N.eqb_spec c 46) as [->|Hc].
      * split; [done|]. right. by exists [].
      * split; [|by left]. rewrite elem_of_cons. naive_solver.
  - intros [Ha [->|[p ->]]]; [|by apply after_dot].
    induction a as [|c a IH]; [done|]. apply not_elem_of_cons in Ha as [H1 H2]. cbn [after_last_dot].
    rewrite (proj2 (no_dot a) H2). destruct (N.eqb_spec c 46); [congruence|done].
Qed.
Lemma property_iff base rdf e a : is_property base rdf e a ↔ names_property base rdf e a.
Proof.
  unfold is_property, names_property. rewrite in_base_iff, !rdf_attr_lacks. split.
  - intros ([l Hl] & H1 & H2 & <-). split; [done|]. split; [done|]. exists l. split; [done|].
    rewrite (local_app base e l Hl). by apply last_part_iff.
  - intros (H1 & H2 & l & Hl & Hp). split; [by exists l|]. split; [done|]. split; [done|].
    rewrite (local_app base e l Hl). by apply last_part_iff.
Qed.
Lemma declared_iff base rdf pm evs id k : (id, k) ∈ declared base rdf pm evs ↔
  ∃ e l, EEnd e ∈ evs ∧ names_object base rdf e l id ∧ first_is l k pm.
Proof.
  unfold declared. rewrite elem_of_list_omap. split.
  - intros ([e|e|p v] & Hin & Hx); try done. destruct (in_base base e) eqn:Eb; [|done].
    apply in_base_iff in Eb as [l Hl]. rewrite (local_app base e l Hl) in Hx.
    destruct (uuid_of rdf (e_attrs e)) as [i|] eqn:Ei; [|done]. destruct (assoc l pm) as [k'|] eqn:Ek; [|done].
    cbn in Hx. injection Hx as -> ->. exists e, l. split; [done|]. split; [by apply uuid_iff|by apply assoc_first].
  - intros (e & l & Hin & Hn & Hk). exists (EEnd e). split; [done|]. pose proof (proj1 Hn) as Hl.
    rewrite (proj2 (in_base_iff base e)) by (by exists l). rewrite (local_app base e l Hl).
    apply (uuid_iff base rdf e l id Hl) in Hn as ->. by apply assoc_first in Hk as ->.
Qed.
Lemma declared_app base rdf pm a b : declared base rdf pm (a ++ b) = declared base rdf pm a ++ declared base rdf pm b.
Proof. apply omap_app. Qed.
Lemma declared_last base rdf pm evs id k : declared_class base rdf pm evs id = Some k ↔
  ∃ a b, declared base rdf pm evs = a ++ (id, k) :: b ∧ id ∉ map fst b.
Proof.
  unfold declared_class. rewrite assoc_first. unfold first_is. split.
  - intros (a & b & E & Hn). exists (reverse b), (reverse a). split.
    + apply (f_equal reverse) in E. rewrite reverse_involutive, reverse_app, reverse_cons, <- app_assoc in E. done.
    + rewrite elem_of_list_In, in_map_iff. intros (x & Hx & Hin). apply Hn. rewrite elem_of_list_In, in_map_iff. exists x. split; [done|].
      apply elem_of_list_In in Hin. rewrite elem_of_reverse in Hin. by apply elem_of_list_In.
  - intros (a & b & -> & Hn). exists (reverse b), (reverse a). split.
    + by rewrite reverse_app, reverse_cons, <- app_assoc.
    + rewrite elem_of_list_In, in_map_iff. intros (x & Hx & Hin). apply Hn. rewrite elem_of_list_In, in_map_iff. exists x. split; [done|].
      apply elem_of_list_In in Hin. rewrite elem_of_reverse in Hin. by apply elem_of_list_In.
Qed.

(** *** The object whose properties are read *)
Section owner.
Context (base rdf : pystr).
Notation cursor := (cursor base rdf).
Lemma cursor_app k a b : ∀ cur, cursor k cur (a ++ b) = cursor k (cursor k cur a) b.
Proof.
  induction a as [|ev a IH]; intros cur; [done|]. cbn [app ReadStepFacts.cursor].
  destruct cur as [id|], ev as [e|e|p v]; try apply IH. destruct (in_base base e); [|apply IH]. destruct (has_id rdf e); apply IH.
Qed.
Lemma cursor_pels k cur ps : (∀ p, p ∈ ps → rdf_attr rdf "ID" (p_attrs p) = None ∧ rdf_attr rdf "about" (p_attrs p) = None) →
  cursor k cur (flat_map (pel_events base) ps) = cur.
Proof.
  induction ps as [|p ps IH]; intros Hp; [done|]. cbn [flat_map]. rewrite cursor_app.
  destruct (Hp p) as [H1 H2]; [left|].
  assert (cursor k cur (pel_events base p) = cur) as ->; [|apply IH; intros; apply Hp; by right].
  unfold pel_events. destruct cur as [id|]; cbn [ReadStepFacts.cursor].
  - rewrite pel_base. unfold has_id. change (e_attrs (pel_elem base p)) with (p_attrs p). by rewrite H1, H2.
  - unfold opens. rewrite pel_base. change (e_attrs (pel_elem base p)) with (p_attrs p). unfold uuid_of. by rewrite H1, H2.
Qed.
Lemma cursor_item k i : flat_ok base rdf i → cursor k None (item_events base i) = None.
Proof.
  intros [[id Hid] Hp]. unfold item_events. cbn [ReadStepFacts.cursor]. rewrite cursor_app, cursor_pels by done.
  unfold opens. rewrite item_base. change (e_attrs (item_elem base i)) with (i_attrs i). rewrite Hid.
  destruct (k id); cbn [ReadStepFacts.cursor]; [|done]. rewrite item_base.
  by rewrite (uuid_has_id rdf (item_elem base i) id).
Qed.
Lemma cursor_flat k items : Forall (flat_ok base rdf) items → cursor k None (flat base items) = None.
Proof.
  induction 1 as [|i items Hi _ IH]; [done|]. cbn [flat flat_map]. rewrite cursor_app, cursor_item by done. exact IH.
Qed.
Lemma cursor_owner k items i id ps : Forall (flat_ok base rdf) items → uuid_of rdf (i_attrs i) = Some id →
  (∀ p, p ∈ ps → rdf_attr rdf "ID" (p_attrs p) = None ∧ rdf_attr rdf "about" (p_attrs p) = None) →
  cursor k None (flat base items ++ EStart (item_elem base i) :: flat_map (pel_events base) ps) = if k id then Some id else None.
Proof.
  intros Hi Hid Hp. rewrite cursor_app, cursor_flat by done. cbn [ReadStepFacts.cursor]. unfold opens. rewrite item_base.
  change (e_attrs (item_elem base i)) with (i_attrs i). rewrite Hid. by rewrite cursor_pels.
Qed.
Context (S : schema) (pm : list (name * name)) (fuel : nat) (pf : pystr → option pystr).
Lemma reaches_owner err root items i id ps tail rest d h cur d' hk : Forall (flat_ok base rdf) items → flat_ok base rdf i →
  uuid_of rdf (i_attrs i) = Some id → (∀ p, p ∈ ps → p ∈ i_props i) → (tail = [] ∨ ∃ p, p ∈ i_props i ∧ tail = [EStart (pel_elem base p)]) →
  Reaches base rdf S pm fuel pf err root
    (flat base items ++ EStart (item_elem base i) :: flat_map (pel_events base) ps ++ tail) rest d h cur d' hk →
  cur = assoc id d'.
Proof.
  intros Hi [_ Hok] Hid Hps Htail HR. apply Reaches_exec in HR as (h1 & _ & _ & ->).
  assert (cursor (known d') None (flat base items ++ EStart (item_elem base i) :: flat_map (pel_events base) ps ++ tail) =
    if known d' id then Some id else None) as ->.
  { rewrite app_comm_cons, (assoc_L (++)), cursor_app, (cursor_owner _ _ _ id) by (eauto).
    destruct Htail as [->|(p & Hp & ->)]; [done|]. destruct (known d' id); [done|]. cbn [ReadStepFacts.cursor]. unfold opens.
    rewrite pel_base. unfold uuid_of. change (e_attrs (pel_elem base p)) with (p_attrs p). destruct (Hok p Hp) as [-> ->]. done. }
  unfold known, obj_of. destruct (assoc id d') eqn:E; [by cbn; rewrite E|done].
Qed.
End owner.

(** *** Base classes *)
Fixpoint chain_b (cs : list cls) : bool :=
  match cs with
  | [] => false
  | [c] => match c_base c with None => true | _ => false end
  | c :: (c' :: _) as r => match c_base c with Some b => str_eqb b (c_key c') && chain_b r | None => false end
  end.
Definition chains_in (t : schema) : bool :=
  let m := cmap t in let n := length t in
  Nat.eqb (size m) n && forallb (λ c, chain_b (mro_map n m (c_key c))) t.
Lemma mro_fuel_in t f : ∀ k c, c ∈ mro_fuel f t k → c ∈ t.
Proof.
  induction f as [|f IH]; intros k c; cbn [mro_fuel]; [by intros ?%elem_of_nil|].
  destruct (find_cls t k) as [c'|] eqn:E; [|by intros ?%elem_of_nil]. rewrite elem_of_cons. intros [->|Hin].
  - by apply (find_cls_in _ _ _ E).
  - destruct (c_base c'); [by eapply IH|by apply elem_of_nil in Hin].
Qed.
Lemma chain_derives t cs : chain_b cs = true → (∀ c, c ∈ cs → c ∈ t) → ∃ c r, cs = c :: r ∧ derives t (c_key c) cs.
Proof.
  induction cs as [|c r IH]; [done|]. intros Hb Hin. exists c, r. split; [done|]. destruct r as [|c' r].
  - cbn in Hb. destruct (c_base c) eqn:E; [done|]. apply der_root; [|done]. apply Hin. left.
  - cbn [chain_b] in Hb. destruct (c_base c) as [b|] eqn:E; [|done]. apply andb_true_iff in Hb as [Hk%str_eqb_eq Hb].
    destruct (IH Hb) as (c0 & r0 & [= <- <-] & Hd); [intros; apply Hin; by right|].
    eapply der_step; [apply Hin; left|exact E|]. by rewrite Hk.
Qed.
Lemma size_nodup (l : list (name * cls)) : size (list_to_map l : gmap name cls) = length l → NoDup (map fst l).
Proof.
  assert (∀ l : list (name * cls), size (list_to_map l : gmap name cls) ≤ length l) as Hle.
  { clear. induction l as [|[k v] l IH]; [change (size (∅ : gmap name cls) ≤ 0); by rewrite map_size_empty|].
    change (size (<[k:=v]> (list_to_map l : gmap name cls)) ≤ S (length l)). rewrite map_size_insert.
    case_match; [apply Nat.le_le_succ_r; exact IH|apply le_n_S; exact IH]. }
  induction l as [|[k v] l IH]; intros H; [constructor|]. cbn [map fst].
  change (size (<[k:=v]> (list_to_map l : gmap name cls)) = S (length l)) in H. rewrite map_size_insert in H.
  destruct (list_to_map l !! k) eqn:E.
  - pose proof (Hle l) as Hl. unfold id in H. rewrite H in Hl. lia.
  - injection H as H. constructor; [|by apply IH]. intros Hin. apply not_elem_of_list_to_map_2 in E. done.
Qed.
Lemma chains_ok t k c : chains_in t = true → find_cls t k = Some c → derives t k (mro t k) ∧ NoDup (map c_key t).
Proof.
  intros [Hs Hb]%andb_true_iff Hc. split.
  - destruct (find_cls_in _ _ _ Hc) as [Hin Hk]. apply (all_rows_ok _ _ _ Hb) in Hin. rewrite Hk, mro_map_mro in Hin.
    destruct (chain_derives t (mro t k) Hin) as (c' & r & E & Hd); [intros ? ?; by eapply mro_fuel_in|].
    assert (c_key c' = k) as <-; [|done]. unfold mro in E. destruct (length t) as [|f]; [done|]. cbn [mro_fuel] in E.
    rewrite Hc in E. by injection E as <- _.
  - apply Nat.eqb_eq in Hs. unfold cmap in Hs.
    assert (size (list_to_map ((λ c, (c_key c, c)) <$> t) : gmap name cls) = length ((λ c, (c_key c, c)) <$> t)) as Hn%size_nodup.
    { rewrite Hs. by rewrite fmap_length. }
    revert Hn. clear. intros Hn. assert (map fst ((λ c, (c_key c, c)) <$> t) = map c_key t) as <-; [|done].
    clear Hn. induction t as [|c t IH]; [done|]. cbn. by rewrite <- IH.
Qed.
Definition chains_all (t : schema) (pm : list (name * name)) : bool := chains_in t.
Lemma chains_true : all_tables chains_all = true.
Proof. vm_compute. reflexivity. Qed.
Lemma chains_one t pm k c : (t, pm) ∈ tables → find_cls t k = Some c → derives t k (mro t k) ∧ NoDup (map c_key t).
Proof. intros Ht. exact (chains_ok t k c (all_tables_ok _ _ _ chains_true Ht)). Qed.
Lemma nodup_key (t : schema) c c' : NoDup (map c_key t) → c ∈ t → c' ∈ t → c_key c = c_key c' → c = c'.
Proof.
  induction t as [|x t IH]; [by intros _ ?%elem_of_nil|]. cbn [map]. intros [Hx Hn]%NoDup_cons [->|H1]%elem_of_cons [->|H2]%elem_of_cons E.
  - done.
  - destruct Hx. rewrite E. apply elem_of_list_In, in_map. by apply elem_of_list_In.
  - destruct Hx. rewrite <- E. apply elem_of_list_In, in_map. by apply elem_of_list_In.
  - by apply IH.
Qed.
Lemma derives_unique t k cs : NoDup (map c_key t) → derives t k cs → ∀ cs', derives t k cs' → cs = cs'.
Proof.
  intros Hn. induction 1 as [c Hc Hb|c b cs Hc Hb Hd IH]; intros cs' Hd'; inversion Hd' as [c' Hc' Hb' Hk|c' b' r Hc' Hb' Hr Hk]; subst;
    pose proof (nodup_key t c' c Hn Hc' Hc Hk) as ->; [done|congruence|congruence|].
  f_equal. rewrite Hb in Hb'. injection Hb' as <-. by apply IH.
Qed.
Lemma lookup_in_iff cs p kd : lookup_in cs p = Some kd ↔
  ∃ pre c post, cs = pre ++ c :: post ∧ first_is p kd (c_props c) ∧ ∀ c', c' ∈ pre → p ∉ map fst (c_props c').
Proof.
  induction cs as [|c cs IH]; cbn [lookup_in].
  - split; [done|]. by intros ([|] & ? & ? & ? & _).
  - destruct (assoc p (c_props c)) as [x|] eqn:E.
    + split.
      * intros [= ->]. exists [], c, cs. split; [done|]. split; [by apply assoc_first|]. by intros ? ?%elem_of_nil.
      * intros ([|c0 pre] & c' & post & Heq & Hf & Hp); injection Heq as -> ->.
        -- apply assoc_first in Hf. congruence.
        -- destruct (Hp c0); [left|]. apply assoc_first in E as (a & b & -> & _). rewrite map_app. apply elem_of_app. right. left.
    + apply assoc_lacks in E. rewrite IH. split.
      * intros (pre & c' & post & -> & Hf & Hp). exists (c :: pre), c', post. split; [done|]. split; [done|].
        intros c0 [->|?]%elem_of_cons; [done|by apply Hp].
      * intros ([|c0 pre] & c' & post & Heq & Hf & Hp); injection Heq as -> ->.
        -- apply assoc_first in Hf. by apply assoc_lacks in E; rewrite E in Hf.
        -- exists pre, c', post. split; [done|]. split; [done|]. intros; apply Hp. by right.
Qed.

(** *** Getters *)
Lemma read_evaluates h o k : Wf h → evaluates h (read_key (VRef o) k h) (view h o k).
Proof.
  intros Hwf. unfold view, read_key. destruct (slot h o k) as [v|] eqn:E; [|done]. cbn [mbind option_bind].
  destruct v as [| | | | | |l]; try done. destruct (wf_lists h Hwf o k l E) as [xs Hxs]. rewrite Hxs. by exists l.
Qed.

Lemma getattr_evaluates t h o ck a : Wf h → cls_of h o = Some ck → (∀ p c, lookup_prop t ck a ≠ Some (PAlias p c)) →
  evaluates h (getattr t (VRef o) a h) (view h o (match lookup_prop t ck a with Some _ => Priv a | None => key_of a end)).
Proof.
  intros Hwf Hc Ha. unfold getattr, obj_prop. rewrite Hc. cbn [mbind option_bind].
  destruct (lookup_prop t ck a) as [[]|]; try (by apply read_evaluates). by destruct (Ha target c).
Qed.
Lemma getattr_alias t h o ck a p c : Wf h → cls_of h o = Some ck → lookup_prop t ck a = Some (PAlias p c) →
  (∀ v, view h o (Priv p) = Some (OV v) → of_class h v c → getattr t (VRef o) a h = (inl v, h)) ∧
  (∀ w, view h o (Priv p) = Some w → (∀ v, w = OV v → ¬ of_class h v c) → getattr t (VRef o) a h = (inl VNone, h)) ∧
  (view h o (Priv p) = None → getattr t (VRef o) a h = (inr AttributeError, h)).
Proof.
  intros Hwf Hc Hl. unfold getattr, obj_prop. rewrite Hc. cbn [mbind option_bind]. rewrite Hl. unfold bind, read_key.
  pose proof (λ l, wf_lists h Hwf o (Priv p) l) as Hw. unfold view. destruct (slot h o (Priv p)) as [w|]; cbn [mbind option_bind].
  2: { split_and!; [done..|]. done. }
  split_and!.
  - intros v Hv (x & -> & Hx). assert (w = VRef x) as ->.
    { destruct w as [| | | | | |l]; try congruence. by destruct (h_lists h !! l). }
    by rewrite decide_True.
  - intros w' Hv Hn. destruct (decide (val_cls h w = Some c)) as [Hd|Hd]; [|done]. exfalso.
    destruct w as [| | | | |x|]; try done. injection Hv as <-. apply (Hn (VRef x) eq_refl). by exists x.
  - intros Hv. destruct w as [| | | | | |l]; try done. destruct (Hw l eq_refl) as [xs Hx]. by rewrite Hx in Hv.
Qed.
