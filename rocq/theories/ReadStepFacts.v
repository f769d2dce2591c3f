(** The read at a position of the document. *)
From Coq Require Import String.
From stdpp Require Import prelude gmap.
From Verif Require Import PyStr PyHeap Schema Assoc AssocSpec HeapFacts AssocFacts CtorFacts History HistorySpec HistoryFacts
  Tables TableSpec TableFacts Reader ReaderSpec ReaderFacts FrameFacts CreateFacts ReaderTabs StatementFacts CompatFacts ReadSound.

Lemma accessor_method S ck a : accessor_name S ck a = true ↔ method_of S ck a.
Proof.
  unfold accessor_name, method_of. rewrite existsb_exists. split.
  - intros (c & Hc%elem_of_list_In & H). apply ReaderFacts.existsb_str in H. unfold methods in H. apply elem_of_app in H as [H|H];
      apply elem_of_list_In, in_flat_map in H as (x & Hx%elem_of_list_In & Ha%elem_of_list_In).
    + exists c, x.1. split; [done|]. left. split; [by apply elem_of_list_fmap_1|].
      destruct (existsb (str_eqb x.1) (c_many c)) eqn:E; [apply ReaderFacts.existsb_str in E|clear E]; repeat setoid_rewrite elem_of_cons in Ha; set_solver.
    + destruct x; try by apply elem_of_nil in Ha. exists c, p. split; [done|]. right. set_solver.
  - intros (c & p & Hc & H). exists c. split; [by apply elem_of_list_In|]. apply ReaderFacts.existsb_str. unfold methods. apply elem_of_app.
    rewrite !elem_of_list_In, !in_flat_map. destruct H as [[[x [-> Hx]]%elem_of_list_fmap H]|[Hx H]]; [left|right].
    + exists x. split; [by apply elem_of_list_In|]. apply elem_of_list_In.
      rewrite !elem_of_cons. destruct H as [?|[?|[Hm H]]]; [by left|by right; left|]. right. right.
      apply ReaderFacts.existsb_str in Hm. destruct (existsb _ _) eqn:E; [|done].
      rewrite !elem_of_cons. tauto.
    + exists (SPlainMany p). split; [by apply elem_of_list_In|]. apply elem_of_list_In. set_solver.
Qed.

Section cursor.
Context (base rdf : pystr) (S : schema) (pm : list (name * name)) (fuel : nat) (pf : pystr → option pystr).
Notation statements := (statements base rdf).
Notation run2 := (run2 base rdf S fuel pf).
Notation exec := (exec base rdf S fuel pf).
Notation Reaches := (Reaches base rdf S pm fuel pf).
Notation reads := (reads base rdf S pm fuel pf).

(** The identifier whose object is open at the end of the events. *)
Fixpoint cursor (known : pystr → bool) (cur : option pystr) (evs : list event) : option pystr :=
  match evs with
  | [] => cur
  | ev :: r =>
      match cur, ev with
      | None, EStart e => cursor known (opens base rdf known e) r
      | Some id, EEnd e => if in_base base e then if has_id rdf e then cursor known None r else cursor known cur r else cursor known cur r
      | _, _ => cursor known cur r
      end
  end.
Lemma statements_app k a b : ∀ cur, statements k cur (a ++ b) = statements k cur a ++ statements k (cursor k cur a) b.
Proof.
  induction a as [|ev a IH]; intros cur; [done|]. cbn [app ReaderSpec.statements cursor].
  destruct cur as [id|], ev as [e|e|p v]; try apply IH.
  destruct (in_base base e); [|apply IH]. destruct (has_id rdf e); [apply IH|]. by rewrite IH.
Qed.
Lemma cursor_known d evs : ∀ cur, (∀ id, cur = Some id → is_Some (assoc id d)) →
  ∀ id, cursor (known d) cur evs = Some id → is_Some (assoc id d).
Proof.
  induction evs as [|ev evs IH]; intros cur Hc; [done|]. cbn [cursor].
  destruct cur as [i|], ev as [e|e|p v]; try by apply IH.
  - destruct (in_base base e); [|by apply IH]. destruct (has_id rdf e); by apply IH.
  - apply IH. unfold opens, known. intros id. destruct (in_base base e); [|done].
    destruct (uuid_of rdf (e_attrs e)) as [i|]; [|done]. destruct (assoc i d) eqn:E; [|done]. intros [= <-]. by eexists.
Qed.
Lemma run2_cursor d evs : ∀ cur, (∀ id, cur = Some id → is_Some (assoc id d)) → ∀ h,
  run2 d evs (obj_of d cur) h =
  match exec d (statements (known d) cur evs) h with
  | (inl _, h') => (inl (obj_of d (cursor (known d) cur evs)), h')
  | (inr x, h') => (inr x, h')
  end.
Proof.
  induction evs as [|ev evs IH]; intros cur Hc h; [done|].
  cbn [ReaderSpec.statements ReaderSpec.run2 cursor].
  assert (∀ cur h, (∀ id, cur = Some id → is_Some (assoc id d)) → ∀ m, m = ret (obj_of d cur) →
    (let* c := m in run2 d evs c) h = match exec d (statements (known d) cur evs) h with
      | (inl _, h') => (inl (obj_of d (cursor (known d) cur evs)), h')
      | (inr x, h') => (inr x, h')
      end) as Hstep.
  { intros cur' h' Hc' m ->. rewrite <- IH by done. done. }
  destruct cur as [id|].
  - destruct (Hc id eq_refl) as [v Hv].
    assert (obj_of d (Some id) = Some v) as Ho by done.
    destruct ev as [e|e|p w]; [by apply Hstep; [done|by rewrite Ho]| |by apply Hstep; [done|by rewrite Ho]].
    destruct (in_base base e) eqn:Eb; [|apply Hstep; [done|]; unfold pass2_step; rewrite Ho; by rewrite Eb].
    destruct (has_id rdf e) eqn:Eh.
    { apply Hstep; [done|]. unfold pass2_step. rewrite Ho, Eb. unfold has_id in Eh.
      destruct (rdf_attr rdf "ID" (e_attrs e)), (rdf_attr rdf "about" (e_attrs e)); done. }
    unfold StatementFacts.exec. cbn [for_each]. fold (exec d). unfold exec1 at 1. cbn [fst snd]. rewrite Hv, Ho.
    unfold pass2_step. rewrite Eb. unfold has_id in Eh.
    destruct (rdf_attr rdf "ID" (e_attrs e)), (rdf_attr rdf "about" (e_attrs e)); try done.
    destruct v as [| | | | |o|]; try done. unfold bind at 1 2 3.
    destruct (set_property S fuel pf base rdf d o e h) as [[[]|x] h'] eqn:Es; [|done].
    cbn [ret]. rewrite <- Ho. specialize (IH (Some id) Hc h'). unfold StatementFacts.exec in IH. rewrite IH. done.
  - destruct ev as [e|e|p w]; [|by apply Hstep..]. apply Hstep.
    + unfold opens. intros id. destruct (in_base base e); [|done]. destruct (uuid_of rdf (e_attrs e)) as [i|]; [|done].
      unfold known. destruct (assoc i d) eqn:E; [|done]. intros [= <-]. by eexists.
    + unfold pass2_step, opens. cbn [obj_of mbind option_bind]. destruct (in_base base e); [|done].
      destruct (uuid_of rdf (e_attrs e)) as [i|]; [|done]. unfold known. destruct (assoc i d) eqn:E; cbn [obj_of mbind option_bind]; by rewrite ?E.
Qed.
Lemma Reaches_exec err root pre rest d h cur d' hk : Reaches err root pre rest d h cur d' hk →
  ∃ h1, pass1 S pm fuel base rdf err (pre ++ rest) false d h = (None, d', h1) ∧
    exec d' (statements (known d') None pre) h1 = (inl tt, hk) ∧ cur = obj_of d' (cursor (known d') None pre).
Proof.
  intros (h1 & E1 & E2). exists h1. split; [done|].
  change (@None val) with (obj_of d' None) in E2. rewrite (run2_cursor d' pre None) in E2 by done.
  destruct (exec d' _ h1) as [[[]|x] h2]; [|done]. by simplify_eq.
Qed.

(** A step that changes nothing can be left out. *)
Lemma is_property_uuid e a : is_property base rdf e a → uuid_of rdf (e_attrs e) = None.
Proof. intros (_ & H1 & H2 & _). unfold uuid_of. by rewrite H1, H2. Qed.
Lemma pass1_property e a err rest d h c : is_property base rdf e a → foreign_root base (EStart e :: EEnd e :: rest) →
  pass1 S pm fuel base rdf err (EStart e :: EEnd e :: rest) c d h = pass1 S pm fuel base rdf err rest c d h.
Proof using.
  intros Hp Hf. cbn [pass1]. unfold pass1_step at 1. cbn [ret]. unfold pass1_step. pose proof Hp as (Hb & _). rewrite Hb.
  assert (e_root e = false) as Hr. { destruct (e_root e) eqn:E; [|done]. rewrite (Hf e) in Hb; [done|left; left|done]. }
  rewrite Hr. cbn [andb]. rewrite (is_property_uuid _ _ Hp). cbn [ret].
  assert (foreign_root base rest) as Hf' by (intros e' He'; apply Hf; destruct He'; [left|right]; by do 2 right).
  symmetry. by apply (pass1_cleared base rdf S pm fuel).
Qed.
Lemma foreign_app_l a b : foreign_root base (a ++ b) → foreign_root base a.
Proof using. clear pf. intros H e He. apply H. rewrite !elem_of_app. tauto. Qed.
Lemma foreign_app_r a b : foreign_root base (a ++ b) → foreign_root base b.
Proof using. clear pf. intros H e He. apply H. rewrite !elem_of_app. tauto. Qed.
Lemma pass1_drop e a err pre rest d h c : is_property base rdf e a → foreign_root base (pre ++ [EStart e; EEnd e] ++ rest) →
  pass1 S pm fuel base rdf err (pre ++ [EStart e; EEnd e] ++ rest) c d h = pass1 S pm fuel base rdf err (pre ++ rest) c d h.
Proof using.
  intros Hp Hf. rewrite !(pass1_app base rdf S pm fuel err pre). destruct (pass1 _ _ _ _ _ _ pre c d h) as [[[x|] d'] h']; [done|].
  apply foreign_app_r in Hf. by apply (pass1_property e a).
Qed.
Lemma drop_at err root pre e a rest d h o d' hk : is_property base rdf e a →
  foreign_root base (pre ++ [EStart e; EEnd e] ++ rest) →
  Reaches err root pre ([EStart e; EEnd e] ++ rest) d h (Some (VRef o)) d' hk →
  set_property S fuel pf base rdf d' o e hk = (inl tt, hk) →
  reads err root (pre ++ [EStart e; EEnd e] ++ rest) d h = reads err root (pre ++ rest) d h.
Proof.
  intros Hp Hf HR Hs. rewrite (Reaches_read _ _ _ _ _ _ _ _ _ _ _ _ _ _ _ HR).
  destruct HR as (h1 & E1 & E2). rewrite (pass1_drop e a) in E1 by done.
  assert (Reaches err root pre rest d h (Some (VRef o)) d' hk) as HR' by (by exists h1).
  rewrite (Reaches_read _ _ _ _ _ _ _ _ _ _ _ _ _ _ _ HR'). cbn [app pass2].
  unfold pass2_step at 1. cbn [ret]. rewrite (property_step base rdf S fuel pf _ _ _ _ _ Hp). by rewrite Hs.
Qed.
End cursor.

(** *** Positions of a compatible read *)
Section position.
Context (t : schema) (pm : list (name * name)) (Ht : (t, pm) ∈ tables) (base rdf : pystr) (f : nat) (pf : pystr → option pystr).
Notation Reaches := (Reaches base rdf t pm (S (S f)) pf).
Lemma tables_distinct_ends : distinct_ends t.
Proof. by eapply tables_distinct. Qed.
(** What is known at the end tag of a property of the object being read. *)
Lemma Reaches_sound err root pre e rest d h o d' hk :
  Sound t h → dict_alive d h → foreign_root base (pre ++ EEnd e :: rest) →
  compatible_doc base rdf t pm (pre ++ EEnd e :: rest) d h →
  Reaches err root pre (EEnd e :: rest) d h (Some (VRef o)) d' hk →
  Sound t hk ∧ dict_alive d' hk ∧
  (∀ id, class_in base rdf pm (pre ++ EEnd e :: rest) d h id = (v ← assoc id d'; val_cls hk v)) ∧
  (∀ a, is_property base rdf e a → ∃ id ck, assoc id d' = Some (VRef o) ∧ cls_of hk o = Some ck ∧
     compatible base rdf t (class_in base rdf pm (pre ++ EEnd e :: rest) d h) ck e).
Proof.
  intros HS Hd Hf Hc HR. apply Reaches_exec in HR as (h1 & E1 & E2 & Hcur).
  set (evs := pre ++ EEnd e :: rest) in *.
  assert (Wf h) as Hwf by apply HS.
  pose proof (pass1_created t pm base rdf (S f) err evs (tables_makes t pm Ht) Hf false d h d' h1 Hwf E1) as HC.
  destruct (pass1_classes t pm base rdf evs d h d' h1 Hd HC) as [Hd1 Hcl].
  pose proof (Created_Sound t pm Ht base rdf evs d h d' h1 HS HC) as HS1.
  assert (∀ id, (match class_in base rdf pm evs d h id with Some _ => true | None => false end) = known d' id) as Hkn.
  { intros id. rewrite Hcl. unfold known. destruct (assoc id d') as [v|] eqn:Ev; [|done]. cbn.
    destruct (Hd1 _ _ Ev) as (o' & -> & [k Hk]). cbn. by rewrite Hk. }
  assert (∀ id e', (id, e') ∈ statements base rdf (known d') None evs →
    ∃ ck, class_in base rdf pm evs d h id = Some ck ∧ compatible base rdf t (class_in base rdf pm evs d h) ck e') as Hst.
  { intros id e' He. apply Hc. by rewrite (statements_ext base rdf _ (known d')). }
  assert (keeps_sound t h1 (exec base rdf t (S (S f)) pf d' (statements base rdf (known d') None pre) h1)) as [HF HS2].
  { apply (exec_sound t tables_distinct_ends f pf base rdf d' _ (class_in base rdf pm evs d h)); [done|done|done|].
    intros id e' He. destruct (Hst id e') as (ck & ? & ?).
    - unfold evs. rewrite statements_app. apply elem_of_app. by left.
    - exists ck. split_and!; [done|done|]. eapply statements_prop; eauto. }
  rewrite E2 in HF, HS2. cbn [snd] in HF, HS2.
  assert (∀ o, cls_of hk o = cls_of h1 o) as Hck by apply HF.
  split_and!; [done| | |].
  - intros id v Hv. destruct (Hd1 _ _ Hv) as (o' & -> & Ho'). exists o'. by rewrite Hck.
  - intros id. rewrite Hcl. destruct (assoc id d') as [v|] eqn:Ev; [|done]. cbn. destruct (Hd1 _ _ Ev) as (o' & -> & _). cbn. by rewrite Hck.
  - intros a Hp. destruct (cursor base rdf (known d') None pre) as [id|] eqn:Ecu; [|done]. cbn in Hcur.
    destruct (Hst id e) as (ck & Hid & Hco).
    { unfold evs. rewrite statements_app, Ecu. apply elem_of_app. right. cbn [statements]. pose proof Hp as (Hb & H1 & H2 & _).
      rewrite Hb. unfold has_id. rewrite H1, H2. by left. }
    exists id, ck. split_and!; [done| |done]. rewrite Hcl, <- Hcur in Hid. cbn in Hid. by rewrite Hck.
Qed.
End position.

(** *** The effect of references *)
Section effect.
Context (S : schema) (Hde : distinct_ends S) (f : nat).
Notation K := (pkind S).
Notation F := (Datatypes.S (Datatypes.S f)).

Lemma set_ref_effect h d o ck a id y tk : Sound S h → cls_of h o = Some ck → assoc id d = Some (VRef y) → cls_of h y = Some tk →
  links_to S ck a tk → key_of a = Pub a →
  match lookup_prop S ck a with
  | None => view h o (Pub a) = Some (OV VNone)
  | Some PPrivate => view h o (Priv a) = Some (OV VNone)
  | Some (PAlias p _) => view h o (Priv p) = Some (OV VNone)
  | _ => True
  end →
  ∃ h', set_ref S F d o a id h = (inl tt, h') ∧ same_classes h h' ∧ Sound S h' ∧ ref_effect S h h' o ck a y.
Proof using Hde.
  intros Hs Hc Hid Hy Hl Hpub Hset. unfold set_ref. rewrite Hid. unfold links_to in Hl. unfold ref_effect.
  assert (∀ p, K h o p = lookup_prop S ck p) as HK by (intros p; unfold pkind; by rewrite Hc).
  assert (match a with 95%N :: _ => true | _ => false end = false) as Hn95.
  { destruct a as [|c a]; [done|]. destruct (N.eq_dec c 95) as [->|Hn]; [done|].
    destruct c as [|c]; [done|]. do 7 (destruct c as [c|c|]; try done). }
  assert (∀ k, view h o k = Some (OV VNone) → slot h o k = Some VNone) as Hnone.
  { intros k. unfold view. destruct (slot h o k) as [v|]; [|done]. simpl. destruct v; try (by intros [= ->] || done).
    by destruct (h_lists h !! l). }
  destruct (lookup_prop S ck a) as [[q|q|q|q| |q|p c]|] eqn:Ek.
  - (* one-many *)
    destruct (Sound_view S h o a (POneMany q) Hs) as [z Hz]; [by rewrite HK|done|].
    assert (∀ w, slot h o (Priv a) = Some w → find_attr S o a h = Found w) as Hfind.
    { intros w Hw. apply (find_attr_found S). rewrite (getattr_priv S h o a (POneMany q)); [|by rewrite HK|done]. unfold read_key. by rewrite Hw. }
    destruct (lk_single _ _ (proj2 (so_consistent _ _ Hs)) o a q z) as [->|(t & ys & -> & _)]; [by rewrite HK|done| |].
    + rewrite (Hfind VNone) by auto.
      destruct (set_single_sound S h o ck a y tk q Hs Hc Hy Hl (Datatypes.S f)) as (h' & E & HF & HS & HE).
      exists h'. rewrite E. split_and!; [done|apply HF|done|]. by rewrite decide_True.
    + destruct (view_slot h o (Priv a) _ Hz) as [v Hv].
      rewrite (Hfind v Hv). pose proof Hz as Hz'. unfold view in Hz'. rewrite Hv in Hz'. simpl in Hz'.
      destruct v; try (by simplify_eq); [|by destruct (h_lists h !! l)].
      exists h. split_and!; [done..|]. rewrite decide_False by congruence. done.
  - (* many-one *)
    destruct (Sound_view S h o a (PManyOne q) Hs) as [z Hz]; [by rewrite HK|done|].
    destruct (lk_coll _ _ (proj2 (so_consistent _ _ Hs)) o a q z) as (ys & -> & _); [by rewrite HK|done|].
    destruct (view_slot h o (Priv a) _ Hz) as [v Hv].
    assert (find_attr S o a h = Found v) as ->.
    { apply (find_attr_found S). rewrite (getattr_priv S h o a (PManyOne q)); [|by rewrite HK|done]. unfold read_key. by rewrite Hv. }
    unfold view in Hz. rewrite Hv in Hz. destruct v; simpl in Hz; try done. rewrite Hn95.
    destruct Hl as (p & He & Hr).
    destruct (add_one_sound S f h o ck a y tk q p Hs Hc Hy Ek He Hr) as (h' & E & HF & HS & HE).
    exists h'. rewrite E. split_and!; [done|apply HF|done|]. exists p. split; [|done]. destruct Hr as [?|[c Hr]]; [by left|].
    right. eauto.
  - (* one-one *)
    destruct (Sound_view S h o a (POneOne q) Hs) as [z Hz]; [by rewrite HK|done|].
    assert (∀ w, slot h o (Priv a) = Some w → find_attr S o a h = Found w) as Hfind.
    { intros w Hw. apply (find_attr_found S). rewrite (getattr_priv S h o a (POneOne q)); [|by rewrite HK|done]. unfold read_key. by rewrite Hw. }
    destruct (lk_one_one _ _ (proj2 (so_consistent _ _ Hs)) o a q z) as [->|(t & -> & _)]; [by rewrite HK|done| |].
    + rewrite (Hfind VNone) by auto.
      destruct (set_pair_sound S Hde f h o ck a y tk q Hs Hc Hy Ek Hl) as (h' & E & HF & HS & HE).
      exists h'. rewrite E. split_and!; [done|apply HF|done|]. by rewrite decide_True.
    + destruct (view_slot h o (Priv a) _ Hz) as [v Hv].
      rewrite (Hfind v Hv). pose proof Hz as Hz'. unfold view in Hz'. rewrite Hv in Hz'. simpl in Hz'.
      destruct v; try (by simplify_eq); [|by destruct (h_lists h !! l)].
      exists h. split_and!; [done..|]. rewrite decide_False by congruence. done.
  - (* many-many *)
    destruct (Sound_view S h o a (PManyMany q) Hs) as [z Hz]; [by rewrite HK|done|].
    destruct (lk_many_many _ _ (proj2 (so_consistent _ _ Hs)) o a q z) as (ys & -> & _); [by rewrite HK|done|].
    destruct (view_slot h o (Priv a) _ Hz) as [v Hv].
    assert (find_attr S o a h = Found v) as ->.
    { apply (find_attr_found S). rewrite (getattr_priv S h o a (PManyMany q)); [|by rewrite HK|done]. unfold read_key. by rewrite Hv. }
    unfold view in Hz. rewrite Hv in Hz. destruct v; simpl in Hz; try done. rewrite Hn95.
    destruct (add_many_sound S Hde f h o ck a y tk q Hs Hc Hy Ek Hl) as (h' & E & HF & HS & HE).
    exists h'. rewrite E. split_and!; [done|apply HF|done|done].
  - (* private *)
    rewrite (find_attr_found S o a h VNone).
    2:{ rewrite (getattr_priv S h o a PPrivate); [|by rewrite HK|done]. unfold read_key. by rewrite (Hnone _ Hset). }
    destruct (Sound_private S h o a (VRef y) Hs) as [HF HS]; [by rewrite HK|done|].
    exists (hset o (Priv a) (VRef y) h). cbn [setattr]. rewrite obj_prop_pkind, HK, Ek. rewrite write_key_ok by (by rewrite Hc).
    split_and!; [done|apply HF|done|]. intros _. unfold SetSlot. rewrite view_hset, upd_eq by (done || by rewrite Hc).
    split; [done|]. intros o' k' Hne. rewrite view_hset, upd_ne by (done || by rewrite Hc). done.
  - done.
  - (* alias *)
    destruct Hl as [q He].
    rewrite (find_attr_found S o a h VNone).
    2:{ unfold getattr. rewrite obj_prop_pkind, HK, Ek. unfold bind, read_key. by rewrite (Hnone _ Hset). }
    destruct (set_single_sound S h o ck p y tk q Hs Hc Hy He f) as (h' & E & HF & HS & HE).
    exists h'. split_and!; [|apply HF|done|intros _; exists q; split; [apply He|done]]. rewrite <- E. cbn [setattr]. by rewrite obj_prop_pkind, HK, Ek.
  - (* no property *)
    destruct Hl as [_ Hna].
    rewrite (find_attr_found S o a h VNone).
    2:{ rewrite getattr_pub by (by rewrite HK). unfold read_key. by rewrite Hpub, (Hnone _ Hset). }
    destruct (Sound_plain S h o ck a (VRef y) Hs Hc) as [HF HS]; [done|intros _ (_ & _ & c & ? & ?); by eapply Hna|].
    exists (hset o (Pub a) (VRef y) h). rewrite set_plain by (by rewrite ?HK, ?Hc). rewrite Hpub.
    split_and!; [done|apply HF|done|]. intros _. unfold SetSlot. rewrite view_hset, upd_eq by (done || by rewrite Hc).
    split; [done|]. intros o' k' Hne. rewrite view_hset, upd_ne by (done || by rewrite Hc). done.
Qed.
End effect.

Section position2.
Context (t : schema) (pm : list (name * name)) (Ht : (t, pm) ∈ tables) (base rdf : pystr) (f : nat) (pf : pystr → option pystr).
Notation Reaches := (Reaches base rdf t pm (S (S f)) pf).
Lemma Reaches_reference err root pre e rest d h o d' hk a id k :
  Sound t h → dict_alive d h → foreign_root base (pre ++ EEnd e :: rest) →
  compatible_doc base rdf t pm (pre ++ EEnd e :: rest) d h →
  Reaches err root pre (EEnd e :: rest) d h (Some (VRef o)) d' hk →
  reference_elem base rdf e a id → key_of a = Pub a →
  declared_class base rdf pm (pre ++ EEnd e :: rest) id = Some k →
  ∃ ck y, cls_of hk o = Some ck ∧ assoc id d' = Some (VRef y) ∧ cls_of hk y = Some k ∧
  (match lookup_prop t ck a with
   | None => view hk o (Pub a) = Some (OV VNone)
   | Some PPrivate => view hk o (Priv a) = Some (OV VNone)
   | Some (PAlias p _) => view hk o (Priv p) = Some (OV VNone)
   | _ => True
   end →
   ∃ h', Reaches err root (pre ++ [EEnd e]) rest d h (Some (VRef o)) d' h' ∧ same_classes hk h' ∧ Sound t h' ∧
         ref_effect t hk h' o ck a y).
Proof using Ht.
  intros HS Hd Hf Hc HR He Hpub Hk.
  destruct (Reaches_sound t pm Ht base rdf f pf err root pre e rest d h o d' hk HS Hd Hf Hc HR) as (HSk & Hdk & Hcl & Hst).
  pose proof He as [Hp Hres]. destruct (Hst a Hp) as (id0 & ck & Hid0 & Hck & Hco).
  assert (class_in base rdf pm (pre ++ EEnd e :: rest) d h id = Some k) as Hci by (unfold class_in; by rewrite Hk).
  specialize (Hco a Hp). rewrite Hres in Hco. cbn in Hco. specialize (Hco k Hci). rewrite Hcl in Hci.
  destruct (assoc id d') as [v|] eqn:Ev; [|done]. cbn in Hci. destruct (Hdk _ _ Ev) as (y & -> & _). cbn in Hci.
  exists ck, y. split_and!; [done|done|done|]. intros Hset.
  destruct (set_ref_effect t (tables_distinct_ends t pm Ht) f hk d' o ck a id y k HSk Hck Ev Hci Hco Hpub Hset)
    as (h' & E & Hsc & HS' & HE).
  exists h'. split_and!; [|done|done|done]. eapply (Reaches_step base rdf); [exact HR|].
  rewrite (property_step base rdf t _ pf d' o e a hk Hp), (reference_set base rdf t _ pf d' o e a id hk He). by rewrite E.
Qed.
End position2.

(** *** Single steps *)
Lemma special_reserved a : special_name a = true ↔ reserved a.
Proof.
  unfold special_name, reserved. rewrite orb_true_iff. cbn [existsb]. rewrite !orb_true_iff, !str_eqb_eq.
  assert (take 2 a = u "__" ↔ ∃ r, a = u "__" ++ r) as ->; [|intuition congruence].
  split; [intros <-; exists (drop 2 a); by rewrite take_drop|]. by intros [r ->].
Qed.
Lemma not_special a : special_name a = false ↔ ¬ reserved a.
Proof. rewrite <- special_reserved. by destruct (special_name a). Qed.

Section steps.
Context (base rdf : pystr) (S : schema) (pm : list (name * name)) (fuel : nat) (pf : pystr → option pystr).
Lemma view_val h o k v : view h o k = Some (OV v) → slot h o k = Some v.
Proof.
  unfold view. destruct (slot h o k) as [w|]; [|done]. simpl. destruct w; try (by intros [= <-] || done).
  by destruct (h_lists h !! l).
Qed.
Lemma shows_found h o a v : shows S h o a v → find_attr S o a h = Found v.
Proof.
  intros (ck & Hc & Hv). apply (find_attr_found S). unfold getattr. rewrite obj_prop_pkind. unfold pkind. rewrite Hc. cbn [mbind option_bind].
  destruct (lookup_prop S ck a) as [[q|q|q|q| |q|p c]|];
    try (unfold read_key; by rewrite (view_val _ _ _ _ Hv)).
  destruct Hv as [Hv Hcl]. unfold bind, read_key. rewrite (view_val _ _ _ _ Hv). by rewrite decide_True.
Qed.
Lemma plain_shows h o a v : plain_value S h o a v → shows S h o a v.
Proof. intros (Hp & ck & Hc & Hl & Hv). exists ck. split; [done|]. by rewrite Hl, Hp. Qed.
Lemma plain_write h o a v w f : plain_value S h o a v → is_vlist w = false →
  ∃ h', setattr S (Datatypes.S f) (VRef o) a w h = (inl tt, h') ∧ same_classes h h' ∧ SetSlot (view h) (view h') o (Pub a) w.
Proof.
  intros (Hp & ck & Hc & Hl & Hv) Hw. rewrite set_plain; [|unfold pkind; by rewrite Hc|by rewrite Hc]. rewrite Hp.
  eexists. split; [done|]. split; [intros o'; by rewrite cls_hset|]. split.
  - by rewrite view_hset, upd_eq by (done || by rewrite Hc).
  - intros o' k' Hne. by rewrite view_hset, upd_ne by (done || by rewrite Hc).
Qed.
Lemma lacks_missing h o a : lacks S h o a → find_attr S o a h = Missing.
Proof.
  intros (Hs & ck & Hc & Hl & Ha & Hv). unfold find_attr, getattr. rewrite obj_prop_pkind. unfold pkind. rewrite Hc. cbn [mbind option_bind].
  rewrite Hl. unfold read_key. rewrite Hv. cbn [fst]. apply not_special in Hs. rewrite Hs. destruct (accessor_name S ck a) eqn:E; [|done]. by apply accessor_method in E.
Qed.
Lemma method_accessor h o a : has_method S h o a → find_attr S o a h = Accessor.
Proof.
  intros (Hs & ck & Hc & Hl & Ha & Hv). unfold find_attr, getattr. rewrite obj_prop_pkind. unfold pkind. rewrite Hc. cbn [mbind option_bind].
  rewrite Hl. unfold read_key. rewrite Hv. cbn [fst]. apply not_special in Hs. rewrite Hs. apply accessor_method in Ha. by rewrite Ha.
Qed.
Lemma method_noop d h o e a : is_property base rdf e a → has_method S h o a →
  resource rdf e = None ∨ (∃ id, resource rdf e = Some (u "#" ++ id)) → set_property S fuel pf base rdf d o e h = (inl tt, h).
Proof.
  intros (_ & _ & _ & <-) Hl Hr. apply method_accessor in Hl. unfold set_property, set_text, set_ref, set_enum. rewrite Hl.
  unfold resource in Hr. destruct Hr as [->|[id ->]]; [done|]. cbn [app u]. change (u "#" ++ id) with (35%N :: id). cbn. by destruct (assoc id d).
Qed.
Lemma lacks_noop d h o e a : is_property base rdf e a → lacks S h o a → set_property S fuel pf base rdf d o e h = (inl tt, h).
Proof.
  intros (_ & _ & _ & <-) Hl. apply lacks_missing in Hl. unfold set_property, set_text, set_ref, set_enum. rewrite Hl.
  destruct (rdf_attr rdf "resource" (e_attrs e)) as [[|c r]|]; [done| |done]. by destruct (c =? 35)%N.
Qed.

End steps.

Lemma no_dot s : existsb (N.eqb 46) s = false ↔ 46%N ∉ s.
Proof.
  split.
  - intros H Hin. assert (existsb (N.eqb 46) s = true); [|congruence]. apply existsb_exists. exists 46%N. split; [by apply elem_of_list_In|done].
  - intros Hn. destruct (existsb (N.eqb 46) s) eqn:E; [|done]. apply existsb_exists in E as (x & Hx & <-%N.eqb_eq). by apply elem_of_list_In in Hx.
Qed.
Lemma after_dot p s : 46%N ∉ s → after_last_dot (p ++ 46%N :: s) = s.
Proof.
  intros Hs. induction p as [|c p IH]; cbn [app after_last_dot].
  - by rewrite (proj2 (no_dot s) Hs).
  - assert (existsb (N.eqb 46) (p ++ 46%N :: s) = true) as ->; [|done]. apply existsb_exists. exists 46%N. split; [|done].
    apply elem_of_list_In. set_solver.
Qed.
Lemma rsplit_dot p s : 46%N ∉ s → rsplit1_1 (p ++ 46%N :: s) = Some s.
Proof.
  intros Hs. unfold rsplit1_1. rewrite after_dot by done.
  assert (existsb (N.eqb 46) (p ++ 46%N :: s) = true) as ->; [|done]. apply existsb_exists. exists 46%N. split; [|done].
  apply elem_of_list_In. set_solver.
Qed.
Lemma rsplit_none s : 46%N ∉ s → rsplit1_1 s = None.
Proof. intros Hs. unfold rsplit1_1. by rewrite (proj2 (no_dot s) Hs). Qed.
