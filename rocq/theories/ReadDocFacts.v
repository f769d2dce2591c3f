(** Parts of a document that can be left out. *)
From Coq Require Import String.
From stdpp Require Import prelude gmap.
From Verif Require Import PyStr PyHeap Schema Assoc AssocSpec HeapFacts AssocFacts CtorFacts
  Reader ReaderSpec ReaderFacts CreateFacts StatementFacts ReadStepFacts.

Section doc.
Context (base rdf : pystr) (S : schema) (pm : list (name * name)) (fuel : nat) (pf : pystr → option pystr).
Notation statements := (statements base rdf).
Notation exec := (exec base rdf S fuel pf).
Notation reads := (reads base rdf S pm fuel pf).
Notation pass1 := (pass1 S pm fuel base rdf).
Notation declared := (declared base rdf pm).
Notation known_class := (known_class pm).

Lemma pass1_step_refs c ev d h d' h' : pass1_step S pm fuel base rdf c ev d h = (inl d', h') → all_refs d → all_refs d'.
Proof.
  unfold pass1_step. destruct ev as [e|e|p v]; try by intros [= <- <-].
  destruct (in_base base e); [|by intros [= <- <-]]. destruct (uuid_of _ _) as [i|]; [|by intros [= <- <-]].
  destruct (assoc (local base e) pm) as [k|]; [|by intros [= <- <-]]. unfold bind, construct.
  destruct (find_cls S k); [|done]. unfold bind. destruct (init_chain _ _ _ _ _ _ _) as [[[]|x] h2]; [|done]. intros [= <- <-] Hd.
  intros id v. rewrite assoc_dset. destruct (str_eqb id i); [intros [= <-]; eauto|apply Hd].
Qed.
Lemma pass1_refs err evs : ∀ c d h x d' h', pass1 err evs c d h = (x, d', h') → all_refs d → all_refs d'.
Proof.
  induction evs as [|ev evs IH]; intros c d h x d' h'; cbn [Reader.pass1]; [by intros [= _ <- _]|].
  destruct ev as [e|e|p v]; [| |apply IH];
    (destruct (pass1_step _ _ _ _ _ c _ d h) as [[d1|y] h1] eqn:E; [|by intros [= _ <- _]]; intros Hp Hd;
     eapply IH; [exact Hp|]; by eapply pass1_step_refs).
Qed.
(** Identifiers no element declares stay unknown. *)
Lemma pass1_step_unknown c ev d h d' h' id : foreign_root base [ev] → pass1_step S pm fuel base rdf c ev d h = (inl d', h') →
  id ∉ map fst (declared [ev]) → assoc id d' = assoc id d.
Proof.
  intros Hf. unfold pass1_step. destruct ev as [e|e|p v]; try by intros [= <- <-].
  unfold ReaderSpec.declared. cbn [omap list_omap]. destruct (in_base base e) eqn:Eb; [|by intros [= <- <-]].
  assert (e_root e = false) as ->. { destruct (e_root e) eqn:E; [|done]. rewrite (Hf e) in Eb; [done|right; left|done]. }
  cbn [andb]. destruct (uuid_of rdf (e_attrs e)) as [i|]; [|by intros [= <- <-]].
  destruct (assoc (local base e) pm) as [k|] eqn:Ek; [|by intros [= <- <-]]. unfold bind.
  destruct (construct S fuel k [] _ h) as [[v|x] h2]; [|done]. intros [= <- <-]. cbn. intros Hn. rewrite assoc_dset.
  destruct (str_eqb id i) eqn:E; [|done]. apply str_eqb_eq in E as ->. set_solver.
Qed.
Lemma pass1_unknown err evs id : foreign_root base evs → id ∉ map fst (declared evs) →
  ∀ c d h x d' h', pass1 err evs c d h = (x, d', h') → assoc id d' = assoc id d.
Proof.
  induction evs as [|ev evs IH]; intros Hf Hn c d h x d' h'; cbn [Reader.pass1]; [by intros [= _ <- _]|].
  assert (foreign_root base [ev]) as Hf1. { apply (foreign_app_l base [ev] evs Hf). }
  assert (foreign_root base evs) as Hf2. { apply (foreign_app_r base [ev] evs Hf). }
  assert (declared (ev :: evs) = declared [ev] ++ declared evs) as Hdec.
  { change (ev :: evs) with ([ev] ++ evs). apply omap_app. }
  rewrite Hdec, map_app in Hn. apply not_elem_of_app in Hn as [Hn1 Hn2].
  destruct ev as [e|e|p v]; [| |by eapply IH];
    (destruct (pass1_step _ _ _ _ _ c _ d h) as [[d1|y] h1] eqn:E; [|by intros [= _ <- _]]; intros Hp;
     rewrite (IH Hf2 Hn2 _ _ _ _ _ _ Hp); by eapply pass1_step_unknown).
Qed.

(** *** Dangling references *)
Lemma dangling_noop d o e a id h : reference_elem base rdf e a id → assoc id d = None →
  set_property S fuel pf base rdf d o e h = (inl tt, h).
Proof.
  intros He Hn. rewrite (reference_set base rdf S fuel pf d o e a id h He). unfold set_ref. rewrite Hn.
  by destruct (find_attr S o a h).
Qed.
Lemma statements_property k cur e a rest : is_property base rdf e a →
  statements k cur (EStart e :: EEnd e :: rest) =
  match cur with Some i => [(i, e)] | None => [] end ++ statements k cur rest.
Proof.
  intros Hp. pose proof Hp as (Hb & H1 & H2 & _). cbn [ReaderSpec.statements]. destruct cur as [i|].
  - rewrite Hb. unfold has_id. by rewrite H1, H2.
  - unfold opens. rewrite Hb, (is_property_uuid base rdf _ _ Hp). done.
Qed.
Lemma drop_dangling err root pre e a id rest d h : all_refs d → foreign_root base (pre ++ [EStart e; EEnd e] ++ rest) →
  reference_elem base rdf e a id → assoc id d = None → id ∉ map fst (declared (pre ++ rest)) →
  reads err root (pre ++ [EStart e; EEnd e] ++ rest) d h = reads err root (pre ++ rest) d h.
Proof.
  intros Hr Hf He Hn Hdec. pose proof He as [Hp _]. rewrite !reads_exec. rewrite (pass1_drop base rdf S pm fuel e a) by done.
  destruct (pass1 err (pre ++ rest) false d h) as [[[x|] d'] h1] eqn:E1; [done|].
  assert (foreign_root base (pre ++ rest)) as Hf'.
  { intros e' He'. apply Hf. rewrite !elem_of_app in *. tauto. }
  assert (assoc id d' = None) as Hn' by (rewrite <- Hn; by eapply pass1_unknown).
  assert (all_refs d') as Hr' by (by eapply pass1_refs).
  rewrite !(statements_app base rdf _ pre). cbn [app]. rewrite (statements_property _ _ e a) by done.
  set (cur := cursor _ _ _ _ pre). assert (∀ i, cur = Some i → is_Some (assoc i d')) as Hcur.
  { intros i. unfold cur. apply cursor_known. done. }
  clearbody cur.
  assert (∀ b, exec d' (statements (known d') None pre ++ match cur with Some i => [(i, e)] | None => [] end ++ b) h1 =
               exec d' (statements (known d') None pre ++ b) h1) as ->; [|done].
  intros b. rewrite !exec_app. unfold bind. destruct (exec d' _ h1) as [[[]|x] h2]; [|done]. destruct cur as [i|]; [|done].
  cbn [app]. unfold StatementFacts.exec. cbn [for_each]. unfold bind, exec1 at 1. cbn [fst snd].
  destruct (Hcur i eq_refl) as [v Hv]. rewrite Hv. destruct (Hr' _ _ Hv) as [o ->].
  by rewrite (dangling_noop _ _ _ a id).
Qed.

(** *** Flat documents *)
Lemma pel_base p : in_base base (pel_elem base p) = true.
Proof. unfold in_base, has_prefix, pel_elem. cbn [e_tag]. rewrite take_app. apply str_eqb_refl. Qed.
Lemma item_base i : in_base base (item_elem base i) = true.
Proof. unfold in_base, has_prefix, item_elem. cbn [e_tag]. rewrite take_app. apply str_eqb_refl. Qed.
Lemma item_local i : local base (item_elem base i) = i_tag i.
Proof. unfold local, item_elem. cbn [e_tag]. apply drop_app. Qed.
Lemma pel_property p : rdf_attr rdf "ID" (p_attrs p) = None → rdf_attr rdf "about" (p_attrs p) = None →
  is_property base rdf (pel_elem base p) (after_last_dot (p_tag p)).
Proof.
  intros H1 H2. split_and!; [apply pel_base|done|done|]. unfold local, pel_elem. cbn [e_tag]. by rewrite drop_app.
Qed.
Lemma statements_pels k cur ps rest : (∀ p, p ∈ ps → rdf_attr rdf "ID" (p_attrs p) = None ∧ rdf_attr rdf "about" (p_attrs p) = None) →
  statements k cur (flat_map (pel_events base) ps ++ rest) =
  match cur with Some i => map (λ p, (i, pel_elem base p)) ps | None => [] end ++ statements k cur rest.
Proof.
  induction ps as [|p ps IH]; intros Hp; [by destruct cur|]. cbn [flat_map]. unfold pel_events at 1.
  rewrite <- app_assoc. cbn [app]. destruct (Hp p) as [H1 H2]; [left|].
  rewrite (statements_property _ _ _ _ _ (pel_property p H1 H2)). rewrite IH by (intros; apply Hp; by right).
  by destruct cur.
Qed.
Lemma uuid_has_id e i : uuid_of rdf (e_attrs e) = Some i → has_id rdf e = true.
Proof. unfold uuid_of, has_id. destruct (rdf_attr rdf "ID" (e_attrs e)), (rdf_attr rdf "about" (e_attrs e)); done. Qed.
Lemma statements_item k i id rest : flat_ok base rdf i → uuid_of rdf (i_attrs i) = Some id →
  statements k None (item_events base i ++ rest) =
  (if k id then map (λ p, (id, pel_elem base p)) (i_props i) else []) ++ statements k None rest.
Proof.
  intros [_ Hp] Hid. unfold item_events. cbn [app ReaderSpec.statements]. unfold opens. rewrite item_base.
  change (e_attrs (item_elem base i)) with (i_attrs i). rewrite Hid.
  destruct (k id).
  - rewrite <- app_assoc, statements_pels by done. cbn [app ReaderSpec.statements]. rewrite item_base.
    by rewrite (uuid_has_id (item_elem base i) id).
  - rewrite <- app_assoc, statements_pels by done. done.
Qed.
Lemma pass1_pels ps : (∀ p, p ∈ ps → rdf_attr rdf "ID" (p_attrs p) = None ∧ rdf_attr rdf "about" (p_attrs p) = None) →
  ∀ d h, pass1 false (flat_map (pel_events base) ps) true d h = (None, d, h).
Proof.
  induction ps as [|p ps IH]; intros Hp d h; [done|]. cbn [flat_map]. unfold pel_events at 1. cbn [app Reader.pass1].
  unfold pass1_step at 1. cbn [ret]. unfold pass1_step at 1. rewrite pel_base. destruct (Hp p) as [H1 H2]; [left|].
  cbn [e_root pel_elem andb]. rewrite (is_property_uuid base rdf _ _ (pel_property p H1 H2)). cbn [ret].
  apply IH. intros; apply Hp. by right.
Qed.
Lemma pass1_item_unknown i err rest c d h : flat_ok base rdf i → assoc (i_tag i) pm = None →
  pass1 err (item_events base i ++ rest) c d h = pass1 err rest true d h.
Proof.
  intros [[id Hid] Hp] Hu. unfold item_events. cbn [app Reader.pass1]. unfold pass1_step at 1. cbn [ret].
  rewrite <- app_assoc, (pass1_app base rdf S pm fuel). rewrite pass1_pels by done. cbn [app Reader.pass1].
  assert (∀ c, pass1_step S pm fuel base rdf c (EEnd (item_elem base i)) d h = (inl d, h)) as Hs.
  { intros c'. unfold pass1_step. rewrite item_base. cbn [e_root item_elem andb e_attrs]. rewrite Hid.
    change (Elem (base ++ i_tag i) (i_attrs i) (i_text i) false) with (item_elem base i). by rewrite item_local, Hu. }
  by rewrite Hs.
Qed.
Lemma item_events_foreign i : foreign_root base (item_events base i).
Proof.
  intros e He Hr. exfalso. assert (e_root e = false); [|congruence]. clear Hr. unfold item_events in He.
  rewrite !elem_of_cons, !elem_of_app, !elem_of_list_singleton in He.
  assert (∀ ev, ev ∈ flat_map (pel_events base) (i_props i) → ev = EStart e ∨ ev = EEnd e → e_root e = false) as Hin.
  { intros ev Hev He'. apply elem_of_list_In, in_flat_map in Hev as (p & _ & Hev). cbn in Hev.
    destruct Hev as [<-|[<-|[]]], He' as [|]; by simplify_eq. }
  destruct He as [[?|[?|?]]|[?|[?|?]]]; simplify_eq; try done; eauto.
Qed.
Lemma flat_foreign items tail : foreign_root base tail → foreign_root base (flat base items ++ tail).
Proof.
  intros Ht. induction items as [|i items IH]; [done|]. cbn [flat flat_map]. fold (flat base items). rewrite <- app_assoc.
  intros e He. rewrite !elem_of_app in He. destruct He as [[He|He]|[He|He]].
  - apply item_events_foreign with i. by left.
  - apply IH. rewrite !elem_of_app. by left.
  - apply item_events_foreign with i. by right.
  - apply IH. rewrite !elem_of_app. by right.
Qed.

Lemma pass1_flat err items tail : foreign_root base tail → Forall (flat_ok base rdf) items → ∀ c d h,
  pass1 err (flat base items ++ tail) c d h = pass1 err (flat base (filter known_class items) ++ tail) c d h.
Proof.
  intros Ht. induction items as [|i items IH]; intros Hok c d h; [done|]. inversion Hok as [|? ? Hi Hrest]; subst.
  rewrite filter_cons. destruct (decide (known_class i)) as [Hk|Hk].
  - cbn [flat flat_map]. fold (flat base items). fold (flat base (filter known_class items)). rewrite <- !app_assoc.
    rewrite !(pass1_app base rdf S pm fuel err (item_events base i)). destruct (pass1 false (item_events base i) c d h) as [[[x|] d'] h']; [done|].
    apply IH. done.
  - cbn [flat flat_map]. fold (flat base items). rewrite <- app_assoc.
    assert (assoc (i_tag i) pm = None) as Hu. { destruct (assoc (i_tag i) pm) eqn:E; [|done]. destruct Hk. unfold ReaderSpec.known_class. by rewrite E. }
    rewrite pass1_item_unknown by done. rewrite IH by done. symmetry. apply (pass1_cleared base rdf S pm fuel).
    by apply flat_foreign.
Qed.
Lemma statements_flat k items tail : Forall (flat_ok base rdf) items →
  (∀ i id, i ∈ items → ¬ known_class i → uuid_of rdf (i_attrs i) = Some id → k id = false) →
  statements k None (flat base items ++ tail) = statements k None (flat base (filter known_class items) ++ tail).
Proof.
  induction items as [|i items IH]; intros Hok Hk; [done|]. inversion Hok as [|? ? Hi Hrest]; subst.
  assert (statements k None (flat base items ++ tail) = statements k None (flat base (filter known_class items) ++ tail)) as E.
  { apply IH; [done|]. intros. eapply Hk; eauto. by right. }
  pose proof Hi as [[id Hid] _]. cbn [flat flat_map]. fold (flat base items). rewrite <- app_assoc, (statements_item k i id) by done.
  rewrite filter_cons. destruct (decide (known_class i)) as [Hc|Hc].
  - cbn [flat flat_map]. fold (flat base (filter known_class items)). rewrite <- app_assoc, (statements_item k i id) by done. by rewrite E.
  - rewrite (Hk i id) by (done || left). done.
Qed.
Lemma read_flat err root items d h : in_base base root = false → Forall (flat_ok base rdf) items →
  (∀ i id, i ∈ items → ¬ known_class i → uuid_of rdf (i_attrs i) = Some id →
     assoc id d = None ∧ id ∉ map fst (declared (flat base (filter known_class items)))) →
  reads err root (flat base items ++ [EEnd root]) d h = reads err root (flat base (filter known_class items) ++ [EEnd root]) d h.
Proof.
  intros Hroot Hok Hun.
  assert (foreign_root base [EEnd root]) as Ht.
  { intros e He Hr. destruct He as [He|He]; apply elem_of_list_singleton in He; [done|]. by simplify_eq. }
  rewrite !reads_exec, pass1_flat by done.
  destruct (pass1 err _ false d h) as [[[x|] d'] h1] eqn:E; [done|].
  rewrite statements_flat; [done|done|]. intros i id Hi Hk Hid. destruct (Hun i id Hi Hk Hid) as [Hn Hd]. unfold known.
  rewrite (pass1_unknown err (flat base (filter known_class items) ++ [EEnd root]) id) with (1 := flat_foreign _ _ Ht) (3 := E); [by rewrite Hn|].
  unfold ReaderSpec.declared. rewrite omap_app, map_app. fold (declared (flat base (filter known_class items))).
  cbn [omap list_omap]. rewrite Hroot. cbn. by rewrite app_nil_r.
Qed.
End doc.
