(** Properties C81-C86: what cimread reports. *)
From Coq Require Import String Lia.
From stdpp Require Import prelude gmap.
From Verif Require Import PyStr PyHeap Schema Assoc AssocSpec Names TabCIM14 TabCIM15 TabProfiles Tables TableSpec TableFacts Reader ReaderSpec
  ReaderFacts FrameFacts CreateFacts ReaderTabs StatementFacts ReadStepFacts ReadDocFacts ReadDemo PropReader VocabSpec VocabFacts PropReread
  ReaderLog LogSpec LogFacts.

Section facts.
Context (base rdf : pystr) (S : schema) (pm : list (name * name)) (fuel : nat) (pf : pystr → option pystr) (err : bool) (root : elem).
Notation Reaches := (Reaches base rdf S pm fuel pf err root).
Notation reads := (reads base rdf S pm fuel pf err root).
Notation reads_log := (reads_log base rdf S pm fuel pf err root).
Notation pass1 := (pass1 S pm fuel base rdf err).
Notation pass1_notes := (pass1_notes S pm fuel base rdf).
Notation pass2 := (pass2 S fuel pf base rdf).
Notation pass2_notes := (pass2_notes S fuel pf base rdf).
Notation pass2_note := (pass2_note S base rdf).
Notation run2 := (run2 base rdf S fuel pf).
Notation unopened := (unopened base rdf).
Notation closing d' ns := (map (λ tn, MCount (fst tn) (snd tn)) (tallied ns []) ++ [MCreated (length (d' : dict)); MEnd]).

(** The first pass only reports missing modules. *)
Lemma notes1_kind evs n : ∀ c d h, n ∈ pass1_notes evs c d h → ∃ t i, n = Say (MNoModule t i).
Proof.
  assert (∀ c ev, n ∈ pass1_note pm base rdf c ev → ∃ t i, n = Say (MNoModule t i)) as Hn.
  { intros c [e|e|p v]; try by intros ?%elem_of_nil. unfold pass1_note. destruct (in_base base e); [|by intros ?%elem_of_nil].
    destruct (uuid_of _ _); [|by intros ?%elem_of_nil]. destruct (assoc _ pm); [by intros ?%elem_of_nil|]. intros ->%elem_of_list_singleton. eauto. }
  induction evs as [|ev evs IH]; intros c d h; [by intros ?%elem_of_nil|].
  destruct ev as [e|e|p v]; cbn [ReaderLog.pass1_notes]; [| |apply IH]; (intros [?|H]%elem_of_app; [by eapply Hn|]);
    (destruct (pass1_step _ _ _ _ _ _ _ _ _) as [[]]; [by eapply IH|by apply elem_of_nil in H]).
Qed.
(** The log of a read. *)
Lemma log_none evs d h x d' h' : pass1 evs false d h = (Some x, d', h') → reads_log evs d h = said (pass1_notes evs false d h).
Proof. intros E. rewrite read_log_unfold, E. done. Qed.
Lemma log_some evs d h d' h' : pass1 evs false d h = (None, d', h') → reads_log evs d h =
  said (pass1_notes evs false d h) ++ said (pass2_notes d' evs None h') ++
  match pass2 d' err evs None h' with (None, _) => closing d' (pass2_notes d' evs None h') | _ => [] end.
Proof. intros E. rewrite read_log_unfold, E. done. Qed.
Lemma reads_some evs d h d' h2 : reads evs d h = (None, d', h2) →
  ∃ h1, pass1 evs false d h = (None, d', h1) ∧ pass2 d' err evs None h1 = (None, h2).
Proof.
  rewrite read_unfold. destruct (pass1 evs false d h) as [[[x|] d1] h1]; [done|]. destruct (pass2 d1 err evs None h1) as [x h'] eqn:E. intros [= -> -> ->]. eauto.
Qed.
Lemma tail_kind d' ns m : m ∈ closing d' ns → final m = true.
Proof.
  rewrite elem_of_app. intros [(tn & -> & _)%elem_of_list_fmap|H]; [done|]. apply elem_of_cons in H as [->| ->%elem_of_list_singleton]; done.
Qed.
Lemma notes2_kind d evs cur h m : m ∈ said (pass2_notes d evs cur h) → ∃ a b, m = MNoObject a b ∨ m = MNoTarget a b.
Proof. rewrite said_in. apply notes_kind. Qed.
Lemma said1_kind evs c d h m : m ∈ said (pass1_notes evs c d h) → ∃ a b, m = MNoModule a b.
Proof. rewrite said_in. intros (t & i & [= ->])%notes1_kind. eauto. Qed.

Lemma omap_nil {A B} (f : A → option B) l : (∀ x, x ∈ l → f x = None) → omap f l = [].
Proof. induction l as [|x l IH]; intros H; [done|]. cbn [omap list_omap]. rewrite H by left. apply IH. intros y Hy. apply H. by right. Qed.
Lemma filter_nil {A} (P : A → Prop) `{!∀ x, Decision (P x)} l : (∀ x, x ∈ l → ¬ P x) → filter P l = [].
Proof. induction l as [|x l IH]; intros Hx; [done|]. rewrite filter_cons_False by (apply Hx; left). apply IH. intros y Hy. apply Hx. by right. Qed.
Lemma closing_no_module d' ns : no_module (closing d' ns) = [] ∧ no_object (closing d' ns) = [].
Proof. split; apply omap_nil; intros m Hm%tail_kind; by destruct m. Qed.
Lemma closing_counts d' ns : counts (closing d' ns) = tallied ns [].
Proof. unfold counts. rewrite omap_app. cbn [omap list_omap app]. rewrite app_nil_r. induction (tallied ns []) as [|[t n] l IH]; [done|]. cbn. by f_equal. Qed.

(** Positions. *)
Lemma dangling_iff evs d h d' h1 n id k : pass1 evs false d h = (None, d', h1) →
  dangling_at base rdf S pm fuel pf err root evs d h n id k ↔
  ∃ pre ev rest cur' h', evs = pre ++ ev :: rest ∧ length pre = k ∧ run2 d' pre None h1 = (inl cur', h') ∧
      ∃ m, m ∈ pass2_note d' cur' ev h' ∧ match m with Say x => bool_decide (x = MNoTarget n id) | Tally _ => false end = true.
Proof.
  intros E1. split.
  - intros (o & e & a & d1 & hk & (pre & rest & -> & Hl & Hp & (h1' & E1' & Hr)) & He & Ha & Hn & Hc%label_ok).
    rewrite E1 in E1'. injection E1' as <- <-. exists pre, (EEnd e), rest, (Some (VRef o)), hk. split_and!; try done.
    exists (Say (MNoTarget n id)). split; [|by apply bool_decide_eq_true]. apply note_target. exists e, o, a. by split_and!.
  - intros (pre & ev & rest & cur' & h' & -> & Hl & Hr & [m|t] & Hn & Hm); [|done]. apply bool_decide_eq_true in Hm as ->.
    apply note_target in Hn as (e & o & a & -> & -> & [Hp He] & Ha & Hn & Hc). exists o, e, a, d', h'. split_and!; try done; [|by apply label_ok].
    exists pre, rest. split_and!; try done. by exists h1.
Qed.
Lemma unknown_iff evs d h d' h1 t k : pass1 evs false d h = (None, d', h1) →
  (∃ n a, t = has_not n a ∧ unknown_at base rdf S pm fuel pf err root evs d h n a k) ↔
  ∃ pre ev rest cur' h', evs = pre ++ ev :: rest ∧ length pre = k ∧ run2 d' pre None h1 = (inl cur', h') ∧
      ∃ m, m ∈ pass2_note d' cur' ev h' ∧ match m with Tally x => str_eqb t x | Say _ => false end = true.
Proof.
  intros E1. split.
  - intros (n & a & -> & o & e & d1 & hk & (pre & rest & -> & Hl & Hp & (h1' & E1' & Hr)) & Ha & ->%label_ok).
    rewrite E1 in E1'. injection E1' as <- <-. exists pre, (EEnd e), rest, (Some (VRef o)), hk. split_and!; try done.
    exists (Tally (missing_text (class_name S hk o) a)). split; [|apply str_eqb_refl]. apply note_tally. exists e, o, a. by split_and!.
  - intros (pre & ev & rest & cur' & h' & -> & Hl & Hr & [m|t'] & Hn & Hm); [done|]. apply str_eqb_eq in Hm as <-.
    apply note_tally in Hn as (e & o & a & -> & -> & Hp & Ha & ->). exists (class_name S h' o), a. split; [done|].
    exists o, e, d', h'. split_and!; try done; [|by apply label_ok]. exists pre, rest. split_and!; try done. by exists h1.
Qed.
Lemma property_at_pass1 evs d h k o e a d' hk : property_at base rdf S pm fuel pf err root evs d h k o e a d' hk → ∃ h1, pass1 evs false d h = (None, d', h1).
Proof. intros (pre & rest & -> & _ & _ & (h1 & E & _)). eauto. Qed.
Lemma filter_said m ns : length (filter (.= m) (said ns)) =
  length (filter (λ n, match n with Say x => bool_decide (x = m) | Tally _ => false end = true) ns).
Proof.
  induction ns as [|[x|x] ns IH]; [done| |].
  - cbn [said omap list_omap]. fold (said ns). rewrite !filter_cons. destruct (decide (x = m)) as [->|Hn].
    + rewrite decide_True by (by apply bool_decide_eq_true). cbn [length]. by f_equal.
    + by rewrite decide_False by (by rewrite bool_decide_eq_true).
  - cbn [said omap list_omap]. fold (said ns). rewrite filter_cons. by rewrite decide_False.
Qed.
Lemma hits_filter t ns : hits t ns = length (filter (λ n, match n with Tally x => str_eqb t x | Say _ => false end = true) ns).
Proof.
  unfold hits. induction ns as [|[x|x] ns IH]; [done| |].
  - cbn [omap list_omap]. rewrite filter_cons. by rewrite decide_False.
  - cbn [omap list_omap]. rewrite filter_cons. destruct (str_eqb t x); [rewrite decide_True by done|by rewrite decide_False]. cbn [length]. by f_equal.
Qed.
Lemma target_times evs d h n id c : logged (MNoTarget n id) (reads_log evs d h) c ↔
  holds_of (dangling_at base rdf S pm fuel pf err root evs d h n id) c.
Proof.
  assert (∃ c', logged (MNoTarget n id) (reads_log evs d h) c' ∧ holds_of (dangling_at base rdf S pm fuel pf err root evs d h n id) c') as (c' & H1 & H2).
  { eexists. split; [apply logged_filter|]. destruct (pass1 evs false d h) as [[[x|] d'] h1] eqn:E1.
    - rewrite (log_none _ _ _ _ _ _ E1). rewrite filter_nil by (intros m (? & ? & ->)%said1_kind; done). apply holds_of_empty.
      intros k (o & e & a & d1 & hk & (h1' & Hp)%property_at_pass1 & _). congruence.
    - rewrite (log_some _ _ _ _ _ E1), !filter_app. rewrite filter_nil by (intros m (? & ? & ->)%said1_kind; done). cbn [app].
      assert (filter (.= MNoTarget n id) (match pass2 d' err evs None h1 with (None, _) => closing d' (pass2_notes d' evs None h1) | _ => [] end) = []) as ->.
      { apply filter_nil. intros m Hm ->. destruct (pass2 d' err evs None h1) as [[]]; [by apply elem_of_nil in Hm|]. by apply tail_kind in Hm. }
      rewrite app_nil_r, filter_said. eapply holds_of_ext; [|apply notes_positions]. intros k. symmetry. by apply dangling_iff. }
  split; intros H.
  - by rewrite (holds_of_unique _ _ _ H H1).
  - by rewrite (holds_of_unique _ _ _ H H2).
Qed.
Lemma count_times evs d h d' h' t : reads evs d h = (None, d', h') →
  holds_of (λ k, ∃ n a, t = has_not n a ∧ unknown_at base rdf S pm fuel pf err root evs d h n a k) (count_of t (reads_log evs d h)).
Proof.
  intros (h1 & E1 & E2)%reads_some. unfold count_of. rewrite (log_some _ _ _ _ _ E1), E2. unfold counts. rewrite !omap_app.
  rewrite omap_nil by (intros m (? & ? & ->)%said1_kind; done). rewrite omap_nil by (intros m (? & ? & [->| ->])%notes2_kind; done). cbn [app].
  rewrite <- omap_app. change (omap _ ?l) with (counts l). rewrite closing_counts, tallied_assoc. cbn [assoc default from_option]. rewrite Nat.add_0_l, hits_filter.
  eapply holds_of_ext; [|apply notes_positions]. intros k. symmetry. by apply unknown_iff.
Qed.
Lemma counts_inv evs d h : NoDup (map fst (counts (reads_log evs d h))) ∧ ∀ t n, MCount t n ∈ reads_log evs d h → 0 < n ∧ count_of t (reads_log evs d h) = n.
Proof.
  assert (NoDup (map fst (counts (reads_log evs d h))) ∧ ∀ t n, (t, n) ∈ counts (reads_log evs d h) → 0 < n) as [H1 H2].
  { destruct (pass1 evs false d h) as [[[x|] d'] h1] eqn:E1.
    - rewrite (log_none _ _ _ _ _ _ E1). unfold counts. rewrite omap_nil by (intros m (? & ? & ->)%said1_kind; done).
      split; [apply NoDup_nil_2|by intros ? ? ?%elem_of_nil].
    - rewrite (log_some _ _ _ _ _ E1). unfold counts. rewrite !(omap_app _ (said _)).
      rewrite omap_nil by (intros m (? & ? & ->)%said1_kind; done). rewrite omap_nil by (intros m (? & ? & [->| ->])%notes2_kind; done). cbn [app].
      destruct (pass2 d' err evs None h1) as [[]]; [split; [apply NoDup_nil_2|by intros ? ? ?%elem_of_nil]|].
      change (omap _ ?l) with (counts l). rewrite closing_counts. destruct (tallied_inv (pass2_notes d' evs None h1) []) as [Ha Hb].
      + by intros ? ? ?%elem_of_nil.
      + apply NoDup_nil_2.
      + split; [exact Hb|]. intros t n. apply Ha. }
  split; [done|]. intros t n Hin. assert ((t, n) ∈ counts (reads_log evs d h)) as Hc. { unfold counts. apply elem_of_list_omap. by exists (MCount t n). }
  split; [by eapply H2|]. unfold count_of. by rewrite (assoc_nodup t n _ H1 Hc).
Qed.

(** The second pass: object elements outside known objects. *)
Lemma run2_unopened d evs : ∀ cur, (∀ id, cur = Some id → is_Some (assoc id d)) → ∀ h,
  ∃ r, unopened (known d) cur evs = no_object (said (pass2_notes d evs (obj_of d cur) h)) ++ r ∧
       ∀ c h', run2 d evs (obj_of d cur) h = (inl c, h') → r = [].
Proof.
  induction evs as [|ev evs IH]; intros cur Hc h; [by exists []|]. cbn [LogSpec.unopened ReaderLog.pass2_notes ReaderSpec.run2].
  assert (∀ id, None = Some id → is_Some (assoc id d)) as HcN by done.
  assert (∀ cur', (∀ id, cur' = Some id → is_Some (assoc id d)) → no_object (said (pass2_note d (obj_of d cur) ev h)) = [] →
    (∀ c h1, pass2_step S fuel pf base rdf d (obj_of d cur) ev h = (inl c, h1) → c = obj_of d cur') →
    ∃ r, unopened (known d) cur' evs = no_object (said (pass2_note d (obj_of d cur) ev h ++
      match pass2_step S fuel pf base rdf d (obj_of d cur) ev h with (inl c, h1) => pass2_notes d evs c h1 | _ => [] end)) ++ r ∧
      ∀ c h', (let* c := pass2_step S fuel pf base rdf d (obj_of d cur) ev in run2 d evs c) h = (inl c, h') → r = []) as Hstep.
  { intros cur' Hc' Hn Hs. rewrite said_app. unfold no_object. rewrite omap_app. fold (no_object (said (pass2_note d (obj_of d cur) ev h))). rewrite Hn. cbn [app].
    unfold bind. destruct (pass2_step S fuel pf base rdf d (obj_of d cur) ev h) as [[c|x] h1].
    - rewrite (Hs c h1 eq_refl). by apply IH.
    - exists (unopened (known d) cur' evs). split; [done|]. by intros. }
  destruct cur as [id|].
  - destruct (Hc id eq_refl) as [v Hv]. assert (obj_of d (Some id) = Some v) as Eo by exact Hv. 
    assert (∀ e, no_object (said (pass2_note d (Some v) e h)) = []) as Hno.
    { intros e. apply omap_nil. intros m Hm. apply said_in in Hm. destruct m; try done. by apply note_object in Hm as [? _]. }
    rewrite Eo in *. destruct ev as [e|e|p w].
    + apply Hstep; [done|apply Hno|]. unfold pass2_step. rewrite Eo. by intros ? ? [= <- _].
    + unfold has_id. destruct (in_base base e) eqn:Eb; cbn [andb].
      * destruct (rdf_attr rdf "ID" (e_attrs e)) eqn:H1, (rdf_attr rdf "about" (e_attrs e)) eqn:H2;
          (apply Hstep; [done|apply Hno|]); unfold pass2_step; rewrite Eb, H1, ?H2; try (by intros ? ? [= <- _]).
        rewrite Eo. destruct v; try (by intros ? ? [= <- _] || done). unfold bind. destruct (set_property _ _ _ _ _ _ _ _ _) as [[]]; [|done]. by intros ? ? [= <- _].
      * apply Hstep; [done|apply Hno|]. unfold pass2_step. rewrite Eb, Eo. by intros ? ? [= <- _].
    + apply Hstep; [done|apply Hno|]. unfold pass2_step. rewrite Eo. by intros ? ? [= <- _].
  - change (obj_of d None) with (@None val) in *. destruct ev as [e|e|p w].
    + unfold opens. destruct (in_base base e) eqn:Eb.
      * destruct (uuid_of rdf (e_attrs e)) as [id|] eqn:Eu.
        -- assert (known d id = match assoc id d with Some _ => true | None => false end) as -> by done. destruct (assoc id d) as [v|] eqn:Ea.
           ++ cbn [app]. apply Hstep; [intros ? [= <-]; eauto|unfold ReaderLog.pass2_note; by rewrite Eb, Eu, Ea|].
              unfold pass2_step. rewrite Eb, Eu, Ea. intros ? ? [= <- _]. cbn. by rewrite Ea.
           ++ unfold ReaderLog.pass2_note, pass2_step at 1. rewrite Eb, Eu, Ea. unfold bind, pass2_step at 1. rewrite Eb, Eu, Ea. cbn [ret].
              destruct (IH None HcN h) as (r & E & Hr). exists r. split; [|exact Hr]. cbn. f_equal. exact E.
        -- apply Hstep; [done|unfold ReaderLog.pass2_note; by rewrite Eb, Eu|]. unfold pass2_step. rewrite Eb, Eu. by intros ? ? [= <- _].
      * apply Hstep; [done|unfold ReaderLog.pass2_note; by rewrite Eb|]. unfold pass2_step. rewrite Eb. by intros ? ? [= <- _].
    + apply Hstep; [done|done|]. unfold pass2_step. by intros ? ? [= <- _].
    + apply Hstep; [done|done|]. unfold pass2_step. by intros ? ? [= <- _].
Qed.
Lemma unopened_app k a b : ∀ cur, unopened k cur (a ++ b) = unopened k cur a ++ unopened k (cursor base rdf k cur a) b.
Proof.
  induction a as [|ev a IH]; intros cur; [done|]. cbn [app LogSpec.unopened ReadStepFacts.cursor].
  destruct cur as [id|], ev as [e|e|p v]; try apply IH.
  - destruct (in_base base e); cbn [andb]; [|apply IH]. destruct (has_id rdf e); apply IH.
  - by rewrite IH, app_assoc.
Qed.
Lemma unopened_pels k cur ps : (∀ p, p ∈ ps → rdf_attr rdf "ID" (p_attrs p) = None ∧ rdf_attr rdf "about" (p_attrs p) = None) →
  unopened k cur (flat_map (pel_events base) ps) = [].
Proof.
  induction ps as [|p ps IH]; intros Hp; [done|]. cbn [flat_map]. rewrite unopened_app.
  destruct (Hp p) as [H1 H2]; [left|].
  assert (uuid_of rdf (p_attrs p) = None) as Hu by (unfold uuid_of; by rewrite H1, H2).
  assert (cursor base rdf k cur (pel_events base p) = cur ∧ unopened k cur (pel_events base p) = []) as [-> ->].
  { unfold pel_events. cbn [ReadStepFacts.cursor LogSpec.unopened]. unfold opens. destruct cur as [id|]; rewrite pel_base; change (e_attrs (pel_elem base p)) with (p_attrs p).
    - assert (has_id rdf (pel_elem base p) = false) as -> by (unfold has_id; change (e_attrs (pel_elem base p)) with (p_attrs p); by rewrite H1, H2). done.
    - by rewrite Hu. }
  apply IH. intros p' Hp'. apply Hp. by right.
Qed.
Definition item_miss (k : pystr → bool) (i : item) : option (pystr * pystr) :=
  match uuid_of rdf (i_attrs i) with Some id => if k id then None else Some (i_tag i, id) | None => None end.
Lemma unopened_flat k items : Forall (flat_ok base rdf) items → in_base base root = false →
  unopened k None (flat base items ++ [EEnd root]) = omap (item_miss k) items.
Proof.
  intros Hok Hb. rewrite unopened_app, cursor_flat by done. cbn [LogSpec.unopened]. rewrite app_nil_r.
  induction Hok as [|i items Hi Hok IH]; [done|]. cbn [flat flat_map]. rewrite unopened_app, cursor_item by done. fold (flat base items). rewrite IH.
  cbn [omap list_omap]. unfold item_miss at 2. destruct Hi as [[id Hid] Hp]. unfold item_events. cbn [LogSpec.unopened]. unfold opens. rewrite item_base, item_local.
  change (e_attrs (item_elem base i)) with (i_attrs i). rewrite Hid, unopened_app, unopened_pels, cursor_pels by done.
  destruct (k id); cbn [app LogSpec.unopened]; [rewrite item_base; by destruct (has_id rdf (item_elem base i))|done].
Qed.
Definition item_unlocated (i : item) : option (pystr * pystr) :=
  match uuid_of rdf (i_attrs i), assoc (i_tag i) pm with Some id, None => Some (i_tag i, id) | _, _ => None end.
Lemma unlocated_flat items : Forall (flat_ok base rdf) items → in_base base root = false →
  unlocated base rdf pm (flat base items ++ [EEnd root]) = omap item_unlocated items.
Proof.
  intros Hok Hb. unfold unlocated. rewrite omap_app. cbn [omap list_omap]. rewrite Hb, app_nil_r.
  induction Hok as [|i items [[id Hid] Hp] Hok IH]; [done|]. cbn [flat flat_map]. rewrite omap_app. fold (flat base items).
  change (list_omap _ _ ?f (flat base items)) with (omap f (flat base items)) in IH. rewrite IH.
  unfold item_events. cbn [omap list_omap]. rewrite omap_app. cbn [omap list_omap].
  assert (∀ ps, (∀ p, p ∈ ps → rdf_attr rdf "ID" (p_attrs p) = None ∧ rdf_attr rdf "about" (p_attrs p) = None) → unlocated base rdf pm (flat_map (pel_events base) ps) = []) as Hps.
  { clear. induction ps as [|p ps IH]; intros Hp; [done|]. cbn [flat_map]. unfold unlocated. rewrite omap_app.
    change (unlocated base rdf pm (pel_events base p) ++ unlocated base rdf pm (flat_map (pel_events base) ps) = []).
    rewrite IH by (intros p' ?; apply Hp; by right). destruct (Hp p) as [H1 H2]; [left|]. unfold unlocated, pel_events. cbn [omap list_omap].
    rewrite pel_base. change (e_attrs (pel_elem base p)) with (p_attrs p). unfold uuid_of. by rewrite H1, H2. }
  specialize (Hps (i_props i) Hp). unfold unlocated in Hps. rewrite Hps. cbn [app]. rewrite item_base, item_local.
  change (e_attrs (item_elem base i)) with (i_attrs i). unfold item_unlocated at 2. rewrite Hid. cbn [mbind option_bind]. by destruct (assoc (i_tag i) pm).
Qed.
End facts.

(** *** C81: skipped objects *)
(** The first pass reports the objects of unknown classes up to where it ends. *)
Theorem C81_reported t pm base rdf fuel pf err root evs d h : foreign_root base evs →
  (∃ r, unlocated base rdf pm evs = no_module (reads_log base rdf t pm fuel pf err root evs d h) ++ r) ∧
  ∀ d' h', reads base rdf t pm fuel pf err root evs d h = (None, d', h') →
    no_module (reads_log base rdf t pm fuel pf err root evs d h) = unlocated base rdf pm evs.
Proof.
  intros Hf. destruct (pass1_notes_spec base rdf t pm fuel evs err Hf false d h) as (r & E & _ & _ & Hr).
  assert (no_module (reads_log base rdf t pm fuel pf err root evs d h) = no_module (said (pass1_notes t pm fuel base rdf evs false d h))) as ->.
  { destruct (pass1 t pm fuel base rdf err evs false d h) as [[[x|] d'] h1] eqn:E1.
    - by rewrite (log_none _ _ _ _ _ _ _ _ _ _ _ _ _ _ E1).
    - rewrite (log_some _ _ _ _ _ _ _ _ _ _ _ _ _ E1). unfold no_module. rewrite !(omap_app _ (said _)).
      rewrite (omap_nil _ (said (pass2_notes _ _ _ _ _ _ _ _ _))) by (intros m (? & ? & [->| ->])%notes2_kind; done).
      destruct (pass2 _ _ _ _ _ _ _ _ _ _) as [[]]; [by rewrite app_nil_r|]. cbn [app].
      change (omap _ (map _ _ ++ _)) with (no_module (map (λ tn, MCount (fst tn) (snd tn)) (tallied (pass2_notes t fuel pf base rdf d' evs None h1) []) ++ [MCreated (length d'); MEnd])).
      rewrite (proj1 (closing_no_module d' _)). by rewrite app_nil_r. }
  split; [by exists r|]. intros d' h' (h1 & E1 & _)%reads_some. rewrite E, (Hr _ _ E1). by rewrite app_nil_r.
Qed.
Print Assumptions C81_reported.
(** These are the objects whose tags are not in the package map. *)
Theorem C81_unlocated base rdf pm evs l id : (l, id) ∈ unlocated base rdf pm evs ↔
  ∃ e, EEnd e ∈ evs ∧ names_object base rdf e l id ∧ l ∉ map fst pm.
Proof.
  unfold unlocated. rewrite elem_of_list_omap. split.
  - intros ([e|e|p v] & Hin & Hx); try done. destruct (in_base base e) eqn:Eb; [|done]. apply in_base_iff in Eb as [l' Hl].
    destruct (uuid_of rdf (e_attrs e)) as [id'|] eqn:Eu; [|done]. cbn in Hx. rewrite (local_app base e l' Hl) in Hx.
    destruct (assoc l' pm) eqn:Ea; [done|]. injection Hx as -> ->. exists e. split; [done|]. split; [by apply (uuid_iff base rdf e l id Hl)|]. by apply assoc_lacks.
  - intros (e & Hin & Ho & Hl%assoc_lacks). exists (EEnd e). split; [done|]. pose proof (proj1 Ho) as Ht.
    rewrite (proj2 (in_base_iff base e)) by eauto. rewrite (proj2 (uuid_iff base rdf e l id Ht) Ho). cbn. by rewrite (local_app base e l Ht), Hl.
Qed.
Print Assumptions C81_unlocated.
(** The second pass reports the objects that the dictionary does not have. *)
Theorem C81_missing t pm base rdf fuel pf err root evs d h d' h' :
  reads base rdf t pm fuel pf err root evs d h = (None, d', h') →
  no_object (reads_log base rdf t pm fuel pf err root evs d h) =
  unopened base rdf (λ id, match assoc id d' with Some _ => true | None => false end) None evs.
Proof.
  intros (h1 & E1 & E2)%reads_some. rewrite (log_some _ _ _ _ _ _ _ _ _ _ _ _ _ E1), E2. unfold no_object. rewrite !(omap_app _ (said _)).
  rewrite omap_nil by (intros m (? & ? & ->)%said1_kind; done). cbn [app].
  change (omap _ (map _ _ ++ _)) with (no_object (map (λ tn, MCount (fst tn) (snd tn)) (tallied (pass2_notes t fuel pf base rdf d' evs None h1) []) ++ [MCreated (length d'); MEnd])).
  rewrite (proj2 (closing_no_module d' _)), app_nil_r.
  destruct (run2_unopened base rdf t fuel pf d' evs None) with (h := h1) as (r & E & Hr); [done|].
  etrans; [|symmetry; exact E].
  rewrite pass2_run in E2. change (obj_of d' None) with (@None val) in *. destruct (run2 base rdf t fuel pf d' evs None h1) as [[c|x] h2]; [|done].
  rewrite (Hr c h2 eq_refl), app_nil_r. done.
Qed.
Print Assumptions C81_missing.
(** In flat documents these are the objects of unknown classes once more,
    unless there is something else with their identifiers. *)
Theorem C81_twice t pm base rdf f pf err root items d h d' h' : (t, pm) ∈ tables → Wf h →
  in_base base root = false → Forall (flat_ok base rdf) items →
  let evs := flat base items ++ [EEnd root] in
  reads base rdf t pm (S f) pf err root evs d h = (None, d', h') →
  no_object (reads_log base rdf t pm (S f) pf err root evs d h) =
  filter (λ ti, snd ti ∉ map fst d') (no_module (reads_log base rdf t pm (S f) pf err root evs d h)).
Proof.
  intros Ht Hwf Hb Hok evs E. assert (foreign_root base evs) as Hf.
  { apply flat_foreign. intros e [He|He] Hr; apply elem_of_list_singleton in He; [done|]. by injection He as ->. }
  rewrite (C81_missing _ _ _ _ _ _ _ _ _ _ _ _ _ E). rewrite (proj2 (C81_reported t pm base rdf (S f) pf err root evs d h Hf) _ _ E).
  unfold evs at 1 2. rewrite (unopened_flat base rdf root) by done. rewrite (unlocated_flat base rdf pm root) by done.
  pose proof (proj2 (C24_keys t pm base rdf f pf err root evs d h d' h' Ht Hwf Hf E)) as Hk.
  assert (∀ i k id, i ∈ items → assoc (i_tag i) pm = Some k → uuid_of rdf (i_attrs i) = Some id → id ∈ map fst d') as Hin.
  { intros i k id Hi Ha Hid. apply Hk. right. apply elem_of_list_fmap. exists (id, k). split; [done|].
    unfold declared. apply elem_of_list_omap. exists (EEnd (item_elem base i)). split.
    - unfold evs. apply elem_of_app. left. apply elem_of_list_In, in_flat_map. exists i. split; [by apply elem_of_list_In|].
      apply elem_of_list_In. unfold item_events. right. apply elem_of_app. right. left.
    - rewrite item_base, item_local. change (e_attrs (item_elem base i)) with (i_attrs i). rewrite Hid. cbn. by rewrite Ha. }
  clear -Hin Hok. revert Hin. induction Hok as [|i items [[id Hid] _] Hok IH]; intros Hin; [done|]. cbn [omap list_omap].
  unfold item_miss at 1, item_unlocated at 1. rewrite Hid.
  assert (∀ id, id ∉ map fst d' ↔ assoc id d' = None) as Hl by (intros; by rewrite assoc_lacks).
  destruct (assoc (i_tag i) pm) as [k|] eqn:Ea.
  - assert (id ∈ map fst d') as Hid' by (apply (Hin i k id); [left|done|done]).
    destruct (assoc id d') eqn:Ed; [|by apply Hl in Ed]. apply IH. intros i' k' id' Hi'. apply Hin. by right.
  - rewrite filter_cons. cbn [snd]. destruct (assoc id d') eqn:Ed.
    + rewrite decide_False by (rewrite Hl; congruence). apply IH. intros i' k' id' Hi'. apply Hin. by right.
    + rewrite decide_True by (by apply Hl). f_equal. apply IH. intros i' k' id' Hi'. apply Hin. by right.
Qed.
Print Assumptions C81_twice.
Example C81_example :
  let evs := flat Bt with_unknown ++ [EEnd root] in
  foreign_root Bt evs ∧ in_base Bt root = false ∧ Forall (flat_ok Bt R) with_unknown ∧ Wf heap_empty ∧
  fst (fst (reads Bt R topo topo_map 20 pf_demo false root evs [] heap_empty)) = None ∧
  no_module (reads_log Bt R topo topo_map 20 pf_demo false root evs [] heap_empty) = [(u "Substation", u "s1")] ∧
  no_object (reads_log Bt R topo topo_map 20 pf_demo false root evs [] heap_empty) = [(u "Substation", u "s1")].
Proof.
  split; [apply foreign_b_ok; compute_now|]. split; [compute_now|]. split; [apply flat_ok_b_ok; compute_now|]. split; [apply (Sound_empty topo)|].
  split; [compute_now|]. split; compute_now.
Qed.

(** *** C82: dangling references *)
(** The message appears exactly as often as there are such references. *)
Theorem C82_dangling t pm base rdf fuel pf err root evs d h n id c :
  logged (MNoTarget n id) (reads_log base rdf t pm fuel pf err root evs d h) c ↔
  holds_of (dangling_at base rdf t pm fuel pf err root evs d h n id) c.
Proof. apply target_times. Qed.
Print Assumptions C82_dangling.
Theorem C82_resolved t pm base rdf fuel pf err root evs d h : 
  (∀ n id k, ¬ dangling_at base rdf t pm fuel pf err root evs d h n id k) ↔
  ∀ n id, MNoTarget n id ∉ reads_log base rdf t pm fuel pf err root evs d h.
Proof.
  split.
  - intros H n id Hin. apply elem_of_list_lookup in Hin as [k Hk].
    pose proof (proj2 (C82_dangling t pm base rdf fuel pf err root evs d h n id 0) (holds_of_empty _ (H n id))) as (ks & _ & Hks & E).
    apply Hks in Hk. destruct ks; [by apply elem_of_nil in Hk|done].
  - intros H n id k Hd. assert (logged (MNoTarget n id) (reads_log base rdf t pm fuel pf err root evs d h) 0) as Hl.
    { apply holds_of_empty. intros k' Hk'. destruct (H n id). apply elem_of_list_lookup. by exists k'. }
    apply C82_dangling in Hl as (ks & _ & Hks & E). apply Hks in Hd. destruct ks; [by apply elem_of_nil in Hd|done].
Qed.
Print Assumptions C82_resolved.

(** *** C83: unknown attributes *)
Theorem C83_counted t pm base rdf fuel pf err root evs d h d' h' txt :
  reads base rdf t pm fuel pf err root evs d h = (None, d', h') →
  holds_of (λ k, ∃ n a, txt = has_not n a ∧ unknown_at base rdf t pm fuel pf err root evs d h n a k)
    (count_of txt (reads_log base rdf t pm fuel pf err root evs d h)).
Proof. apply count_times. Qed.
Print Assumptions C83_counted.
(** One message for each text, with the number of times. *)
Theorem C83_once t pm base rdf fuel pf err root evs d h :
  NoDup (map fst (counts (reads_log base rdf t pm fuel pf err root evs d h))) ∧
  ∀ txt n, MCount txt n ∈ reads_log base rdf t pm fuel pf err root evs d h → 0 < n ∧ count_of txt (reads_log base rdf t pm fuel pf err root evs d h) = n.
Proof. apply counts_inv. Qed.
Print Assumptions C83_once.

(** *** C84: the summary *)
Theorem C84_summary t pm base rdf fuel pf err root evs d h d' h' :
  reads base rdf t pm fuel pf err root evs d h = (None, d', h') →
  ∃ l cs, reads_log base rdf t pm fuel pf err root evs d h =
    l ++ map (λ tn, MCount (fst tn) (snd tn)) cs ++ [MCreated (length d'); MEnd] ∧ ∀ m, m ∈ l → final m = false.
Proof.
  intros (h1 & E1 & E2)%reads_some. rewrite (log_some _ _ _ _ _ _ _ _ _ _ _ _ _ E1), E2.
  exists (said (pass1_notes t pm fuel base rdf evs false d h) ++ said (pass2_notes t fuel pf base rdf d' evs None h1)), (tallied (pass2_notes t fuel pf base rdf d' evs None h1) []).
  split; [by rewrite <- app_assoc|]. intros m [(? & ? & ->)%said1_kind|(? & ? & [->| ->])%notes2_kind]%elem_of_app; done.
Qed.
Print Assumptions C84_summary.
Theorem C84_raises t pm base rdf fuel pf err root evs d h x d' h' :
  reads base rdf t pm fuel pf err root evs d h = (Some x, d', h') →
  ∀ m, m ∈ reads_log base rdf t pm fuel pf err root evs d h → final m = false.
Proof.
  rewrite read_unfold. intros E m. destruct (pass1 t pm fuel base rdf err evs false d h) as [[[y|] d1] h1] eqn:E1.
  - rewrite (log_none _ _ _ _ _ _ _ _ _ _ _ _ _ _ E1). by intros (? & ? & ->)%said1_kind.
  - rewrite (log_some _ _ _ _ _ _ _ _ _ _ _ _ _ E1). destruct (pass2 t fuel pf base rdf d1 err evs None h1) as [[y|] h2]; [|done].
    rewrite app_nil_r. intros [(? & ? & ->)%said1_kind|(? & ? & [->| ->])%notes2_kind]%elem_of_app; done.
Qed.
Print Assumptions C84_raises.
(** The number is that of the keys, with those of the given dictionary. *)
Theorem C84_number t pm base rdf f pf err root evs d h d' h' n : (t, pm) ∈ tables → Wf h → foreign_root base evs →
  reads base rdf t pm (S f) pf err root evs d h = (None, d', h') →
  MCreated n ∈ reads_log base rdf t pm (S f) pf err root evs d h ↔ n = length (add_keys (map fst d) (map fst (declared base rdf pm evs))).
Proof.
  intros Ht Hwf Hf E. rewrite <- (proj1 (C24_keys t pm base rdf f pf err root evs d h d' h' Ht Hwf Hf E)), map_length.
  destruct (C84_summary t pm base rdf (S f) pf err root evs d h d' h' E) as (l & cs & -> & Hl). rewrite !elem_of_app. split.
  - intros [H|[(? & ? & _)%elem_of_list_fmap|H]]; [by apply Hl in H|done|]. apply elem_of_cons in H as [[= ->]|H]; [done|]. by apply elem_of_list_singleton in H.
  - intros ->. right. right. left.
Qed.
Print Assumptions C84_number.

(** *** C85: namespaces and versions *)
Section cimread.
Context (fuel : nat) (pf : pystr → option pystr).
Definition the_log := cimread_log fuel pf cim14_uri cim15_uri (cim14, cim14_map) (cim15, cim15_map).
Definition the_read := cimread fuel pf cim14_uri (cim14, cim14_map) (cim15, cim15_map).
Definition early (m : message) : bool := match m with MStart | MNoRdf | MNoCim | MNoVersion => true | _ => false end.
Lemma read_log_early t pm base rdf src d h m : m ∈ read_log t pm fuel pf base rdf src d h → early m = false.
Proof.
  unfold read_log. destruct (skip_root (s_events src)) as [evs|]; [|by intros ?%elem_of_nil].
  destruct (pass1 _ _ _ _ _ _ _ _ _ _) as [[[x|] d'] h']; [by intros (? & ? & ->)%said1_kind|].
  rewrite !elem_of_app. intros [(? & ? & ->)%said1_kind|[(? & ? & [->| ->])%notes2_kind|H]]; [done..|].
  destruct (pass2 _ _ _ _ _ _ _ _ _ _) as [[]]; [by apply elem_of_nil in H|]. apply tail_kind in H. by destruct m.
Qed.
Lemma read_end t pm base rdf src d h : MEnd ∈ read_log t pm fuel pf base rdf src d h ↔ fst (fst (read t pm fuel pf base rdf src d h)) = None.
Proof.
  unfold read_log, read. destruct (skip_root (s_events src)) as [evs|]; [|].
  2:{ split; [by intros ?%elem_of_nil|]. by destruct (s_error src). }
  destruct (pass1 _ _ _ _ _ _ _ _ _ _) as [[[x|] d'] h']; [split; [by intros (? & ? & ?)%said1_kind|done]|].
  rewrite !elem_of_app. destruct (pass2 _ _ _ _ _ _ _ _ _ _) as [[x|] h2].
  - split; [|done]. intros [(? & ? & ?)%said1_kind|[(? & ? & [?|?])%notes2_kind|?%elem_of_nil]]; done.
  - split; [done|]. intros _. right. right. apply elem_of_app. right. right. left.
Qed.
Lemma log_shape src pm ns sd h m0 : xmlns src = inl m0 →
  ∃ r, the_log src pm ns sd h = MStart :: rdf_ns_log m0 ++ (match ns, pm with None, None => cim_ns_log cim14_uri cim15_uri m0 | _, _ => [] end) ++ r ∧
    (∀ m, m ∈ r → early m = false) ∧ (MEnd ∈ r ↔ fst (fst (the_read src pm ns sd h)) = None).
Proof.
  intros E. unfold the_log, the_read, cimread_log, cimread. rewrite E.
  assert (∀ l, ∃ r : list message, l = [] ++ r ∧ r = l) as Hcat by (intros l; by exists l).
  assert (∃ r : list message, rdf_ns_log m0 ++ [] = rdf_ns_log m0 ++ [] ++ r ∧ (∀ m, m ∈ r → early m = false) ∧ (MEnd ∈ r ↔ False)) as Hnil.
  { exists []. split; [done|]. split; [by intros ? ?%elem_of_nil|]. split; [by intros ?%elem_of_nil|done]. }
  destruct ns as [n|], pm as [[t pm]|].
  - destruct (negb _).
    + destruct Hnil as (r & Hr & H1 & H2). exists r. split; [by f_equal|]. split; [done|]. rewrite H2. done.
    + eexists. split; [reflexivity|]. split; [intros m; apply read_log_early|apply read_end].
  - destruct Hnil as (r & Hr & H1 & H2). destruct n; cbn [eqb negb]; (exists r; split; [by f_equal|]; split; [done|]; by rewrite H2).
  - destruct Hnil as (r & Hr & H1 & H2). destruct pm; cbn [eqb negb]; (exists r; split; [by f_equal|]; split; [done|]; by rewrite H2).
  - cbn [eqb negb]. destruct (get_cim_ns cim14_uri m0) as [n b]. destruct b; eexists; (split; [reflexivity|]); (split; [intros m; apply read_log_early|apply read_end]).
Qed.
Lemma rdf_ns_in m0 m : m ∈ rdf_ns_log m0 ↔ m = MNoRdf ∧ assoc (u "rdf") m0 = None.
Proof.
  unfold rdf_ns_log. destruct (assoc (u "rdf") m0); [split; [by intros ?%elem_of_nil|by intros [_ ?]]|]. rewrite elem_of_list_singleton. tauto.
Qed.
Definition version (m0 : list (pystr * pystr)) (uri : pystr) : Prop := ∃ s, assoc (u "cim") m0 = Some s ∧ with_hash s = uri ++ u "#".
Lemma cim_ns_in m0 m : m ∈ cim_ns_log cim14_uri cim15_uri m0 ↔
  m = MNoCim ∧ assoc (u "cim") m0 = None ∨
  m = MNoVersion ∧ ¬ version m0 cim14_uri ∧ ¬ version m0 cim15_uri ∧ ¬ version m0 (u "http://iec.ch/TC57/2013/CIM-schema-cim16").
Proof.
  unfold cim_ns_log. rewrite elem_of_app, cim_detect. cbn [fst].
  assert (∀ uri, uri ≠ [] → version m0 uri ↔ str_eqb (strip_hash (default [] (assoc (u "cim") m0))) uri = true) as Hv.
  { intros uri Hu. unfold version. rewrite str_eqb_eq. destruct (assoc (u "cim") m0) as [s|]; cbn [default from_option].
    - split; [intros (? & [= <-] & Hs)|intros Hs; exists s; split; [done|]]; rewrite <- strip_with_hash in *; [by apply (proj1 (hash_inj _ _)) in Hs|].
      by rewrite <- Hs.
    - split; [by intros (? & ? & _)|]. intros Hs. by rewrite <- Hs in Hu. }
  assert (cim14_uri ≠ [] ∧ cim15_uri ≠ [] ∧ cim16_uri ≠ []) as (H1 & H2 & H3) by (split_and!; by vm_compute).
  change (u "http://iec.ch/TC57/2013/CIM-schema-cim16") with cim16_uri. rewrite !Hv by done. clear Hv.
  assert (m ∈ match assoc (u "cim") m0 with Some _ => [] | None => [MNoCim] end ↔ m = MNoCim ∧ assoc (u "cim") m0 = None) as ->.
  { destruct (assoc (u "cim") m0); [split; [by intros ?%elem_of_nil|by intros [_ ?]]|]. rewrite elem_of_list_singleton. tauto. }
  destruct (str_eqb _ cim14_uri), (str_eqb _ cim15_uri), (str_eqb _ cim16_uri); cbn [orb]; rewrite ?elem_of_nil, ?elem_of_list_singleton; intuition congruence.
Qed.
Theorem C84_end src pm ns sd h : (∃ r, the_log src pm ns sd h = MStart :: r ∧ MStart ∉ r) ∧
  (MEnd ∈ the_log src pm ns sd h ↔ fst (fst (the_read src pm ns sd h)) = None).
Proof.
  destruct (xmlns src) as [m0|x] eqn:E.
  - destruct (log_shape src pm ns sd h m0 E) as (r & -> & Hr & He). split.
    + eexists. split; [done|]. rewrite !elem_of_app, rdf_ns_in. intros [[? _]|[H|H]]; [done| |by apply Hr in H].
      destruct ns, pm; try (by apply elem_of_nil in H). apply cim_ns_in in H as [[? _]|[? _]]; done.
    + rewrite <- He, elem_of_cons, !elem_of_app, rdf_ns_in. split; [|auto]. intros [?|[[? _]|[H|H]]]; [done..| |done].
      destruct ns, pm; try (by apply elem_of_nil in H). apply cim_ns_in in H as [[? _]|[? _]]; done.
  - unfold the_log, the_read, cimread_log, cimread. rewrite E. split; [exists []; split; [done|apply not_elem_of_nil]|].
    split; [|done]. by intros ?%elem_of_list_singleton.
Qed.
Theorem C85_rdf src pm ns sd h m0 : xmlns src = inl m0 → MNoRdf ∈ the_log src pm ns sd h ↔ assoc (u "rdf") m0 = None.
Proof.
  intros E. destruct (log_shape src pm ns sd h m0 E) as (r & -> & Hr & _). rewrite elem_of_cons, !elem_of_app, rdf_ns_in.
  split; [|auto]. intros [?|[[_ ?]|[H|H]]]; [done..| |by apply Hr in H].
  destruct ns, pm; try (by apply elem_of_nil in H). apply cim_ns_in in H as [[? _]|[? _]]; done.
Qed.
Theorem C85_cim src sd h m0 : xmlns src = inl m0 → MNoCim ∈ the_log src None None sd h ↔ assoc (u "cim") m0 = None.
Proof.
  intros E. destruct (log_shape src None None sd h m0 E) as (r & -> & Hr & _). rewrite elem_of_cons, !elem_of_app, rdf_ns_in, cim_ns_in.
  split; [|auto 10]. intros [?|[[? _]|[[[_ ?]|[? _]]|H]]]; [done..|by apply Hr in H].
Qed.
Theorem C85_version src sd h m0 : xmlns src = inl m0 → MNoVersion ∈ the_log src None None sd h ↔
  ¬ version m0 cim14_uri ∧ ¬ version m0 cim15_uri ∧ ¬ version m0 (u "http://iec.ch/TC57/2013/CIM-schema-cim16").
Proof.
  intros E. destruct (log_shape src None None sd h m0 E) as (r & -> & Hr & _). rewrite elem_of_cons, !elem_of_app, rdf_ns_in, cim_ns_in.
  split; [|auto 10]. intros [?|[[? _]|[[[? _]|[_ ?]]|H]]]; [done..|by apply Hr in H].
Qed.
Theorem C85_given src t pm ns sd h : MNoCim ∉ the_log src (Some (t, pm)) (Some ns) sd h ∧ MNoVersion ∉ the_log src (Some (t, pm)) (Some ns) sd h.
Proof.
  destruct (xmlns src) as [m0|x] eqn:E.
  - destruct (log_shape src (Some (t, pm)) (Some ns) sd h m0 E) as (r & -> & Hr & _). rewrite !elem_of_cons, !elem_of_app, !rdf_ns_in.
    split; (intros [?|[[? _]|[H|H]]]; [done..|by apply elem_of_nil in H|by apply Hr in H]).
  - unfold the_log, cimread_log. rewrite E. split; by intros ?%elem_of_list_singleton.
Qed.
End cimread.
Print Assumptions C84_end.
Print Assumptions C85_rdf.
Print Assumptions C85_cim.
Print Assumptions C85_version.
Print Assumptions C85_given.
(** A document of CIM16 is read with the classes of CIM15 and nothing is said. *)
Theorem C85_cim16 fuel pf src sd h m0 : xmlns src = inl m0 → version m0 (u "http://iec.ch/TC57/2013/CIM-schema-cim16") →
  the_read fuel pf src None None sd h =
    read cim15 cim15_map fuel pf (u "{http://iec.ch/TC57/2013/CIM-schema-cim16#}") (rdf_ns m0) src (default [] sd) h ∧
  MNoCim ∉ the_log fuel pf src None None sd h ∧ MNoVersion ∉ the_log fuel pf src None None sd h.
Proof.
  intros E Hv. pose proof Hv as (s & Hs & Hh). split_and!.
  - unfold the_read. rewrite (C23_cim15 fuel pf src sd h m0 E).
    + unfold detected_ns. rewrite Hs. change (default [] (Some s)) with s. rewrite Hh. f_equal.
    + intros (s' & Hs' & Hh'). rewrite Hs in Hs'. injection Hs' as <-. rewrite Hh in Hh'. apply (proj1 (hash_inj _ _)) in Hh'. revert Hh'. clear. by vm_compute.
  - rewrite (C85_cim fuel pf src sd h m0 E). congruence.
  - rewrite (C85_version fuel pf src sd h m0 E). tauto.
Qed.
Print Assumptions C85_cim16.
Definition doc16 : source := Source ([ENs (u "rdf") R; ENs (u "cim") (u "http://iec.ch/TC57/2013/CIM-schema-cim16#"); EStart root] ++
  flat (u "{http://iec.ch/TC57/2013/CIM-schema-cim16#}") [obj "Terminal" "t1" []] ++ [EEnd root]) false.
Definition map16 : list (pystr * pystr) := [(u "rdf", R); (u "cim", u "http://iec.ch/TC57/2013/CIM-schema-cim16#")].
Lemma doc16_version : version map16 (u "http://iec.ch/TC57/2013/CIM-schema-cim16").
Proof. eexists. split; [reflexivity|]. compute_now. Qed.
(** Expectation: a document of a version without classes here is reported. *)
Theorem C85_unsupported_refuted : ¬ ∀ src sd h m0, xmlns src = inl m0 → ¬ version m0 cim14_uri → ¬ version m0 cim15_uri →
  MNoVersion ∈ the_log 20 pf_demo src None None sd h.
Proof.
  intros H. specialize (H doc16 None heap_empty map16 ltac:(compute_now)).
  assert (∀ uri, bool_decide (u "http://iec.ch/TC57/2013/CIM-schema-cim16#" = uri ++ u "#") = false → ¬ version map16 uri) as Hn.
  { intros uri Hb (s & [= <-] & Hh). apply bool_decide_eq_false in Hb. apply Hb. rewrite <- Hh. compute_now. }
  assert (MNoVersion ∈ the_log 20 pf_demo doc16 None None None heap_empty) as Hin by (apply H; apply Hn; compute_now).
  apply (C85_version 20 pf_demo doc16 None heap_empty map16) in Hin as (_ & _ & Hv); [|compute_now]. apply Hv. apply doc16_version.
Qed.
Print Assumptions C85_unsupported_refuted.
(** That document: all that is logged. *)
Example C85_example : xmlns doc16 = inl map16 ∧ version map16 (u "http://iec.ch/TC57/2013/CIM-schema-cim16") ∧
  the_log 20 pf_demo doc16 None None None heap_empty = [MStart; MCreated 1; MEnd] ∧
  the_log 20 pf_demo (Source [EStart root; EEnd root] false) None None None heap_empty = [MStart; MNoRdf; MNoCim; MNoVersion; MCreated 0; MEnd].
Proof. split; [compute_now|]. split; [apply doc16_version|]. split; compute_now. Qed.

(** *** C86: what is lost silently *)
Section silent.
Context (base rdf : pystr) (S : schema) (pm : list (name * name)) (fuel : nat) (pf : pystr → option pystr) (err : bool) (root : elem).
Notation Reaches := (Reaches base rdf S pm fuel pf err root).
Notation reads := (reads base rdf S pm fuel pf err root).
Notation reads_log := (reads_log base rdf S pm fuel pf err root).
Notation pass2_notes := (pass2_notes S fuel pf base rdf).
Notation run2 := (run2 base rdf S fuel pf).
Lemma found_has o a h v : find_attr S o a h = Found v → has_attr S h o a.
Proof.
  unfold find_attr, has_attr. destruct (fst (getattr S (VRef o) a h)) as [w|x]; [eauto|]. destruct (special_name a); [done|].
  destruct (cls_of h o) as [ck|]; [|done]. by destruct (accessor_name S ck a).
Qed.
Lemma quiet_notes d o e a h : is_property base rdf e a → has_attr S h o a → (∀ id, resource rdf e = Some (u "#" ++ id) → is_Some (assoc id d)) →
  pass2_note S base rdf d (Some (VRef o)) (EEnd e) h = [].
Proof.
  intros Hp Ha Hr. destruct (pass2_note S base rdf d (Some (VRef o)) (EEnd e) h) as [|[m|t] l] eqn:E; [done| |]; exfalso.
  - assert (Say m ∈ pass2_note S base rdf d (Some (VRef o)) (EEnd e) h) as Hin by (rewrite E; left).
    pose proof Hin as Hk. apply note_kind in Hk as (x & y & [->| ->]); [by apply note_object in Hin as [? _]|].
    apply note_target in Hin as (e' & o' & a' & [= <-] & [= <-] & [_ Hres] & _ & Hn & _). apply Hr in Hres as [? ?]. congruence.
  - assert (Tally t ∈ pass2_note S base rdf d (Some (VRef o)) (EEnd e) h) as Hin by (rewrite E; left).
    apply note_tally in Hin as (e' & o' & a' & [= <-] & [= <-] & Hp' & Ha' & _).
    destruct Hp as (_ & _ & _ & <-), Hp' as (_ & _ & _ & <-). done.
Qed.
Lemma log_drop pre e a rest d h o d' hk : is_property base rdf e a → foreign_root base (pre ++ [EStart e; EEnd e] ++ rest) →
  Reaches pre ([EStart e; EEnd e] ++ rest) d h (Some (VRef o)) d' hk →
  set_property S fuel pf base rdf d' o e hk = (inl tt, hk) →
  pass2_note S base rdf d' (Some (VRef o)) (EEnd e) hk = [] →
  reads_log (pre ++ [EStart e; EEnd e] ++ rest) d h = reads_log (pre ++ rest) d h.
Proof.
  intros Hp Hf (h1 & E1 & E2) Hs Hn. pose proof E1 as E1'. rewrite (pass1_drop base rdf S pm fuel e a) in E1' by done.
  rewrite (log_some _ _ _ _ _ _ _ _ _ _ _ _ _ E1), (log_some _ _ _ _ _ _ _ _ _ _ _ _ _ E1').
  rewrite (pass1_notes_drop base rdf S pm fuel e a) by done.
  assert (pass2_step S fuel pf base rdf d' (Some (VRef o)) (EEnd e) hk = (inl (Some (VRef o)), hk)) as Hst.
  { rewrite (property_step base rdf S fuel pf d' o e a hk Hp), Hs. done. }
  assert (pass2_step S fuel pf base rdf d' (Some (VRef o)) (EStart e) hk = (inl (Some (VRef o)), hk)) as Hst0 by done.
  assert (pass2_notes d' (pre ++ [EStart e; EEnd e] ++ rest) None h1 = pass2_notes d' (pre ++ rest) None h1) as ->.
  { rewrite !(notes_app base rdf S fuel pf d' pre _ None h1 _ _ E2). f_equal. cbn [app ReaderLog.pass2_notes]. rewrite Hst0. cbn [app]. rewrite Hn, Hst. done. }
  assert (pass2 S fuel pf base rdf d' err (pre ++ [EStart e; EEnd e] ++ rest) None h1 = pass2 S fuel pf base rdf d' err (pre ++ rest) None h1) as ->; [|done].
  rewrite !pass2_run, !run2_app. unfold bind. rewrite E2. cbn [app ReaderSpec.run2]. unfold bind. by rewrite Hst0, Hst.
Qed.
End silent.
(** A quiet read: every object element has a known class and is found, every
    property exists, every reference resolves. *)
Theorem C86_quiet t pm base rdf fuel pf err root evs d h d' h' : foreign_root base evs →
  reads base rdf t pm fuel pf err root evs d h = (None, d', h') →
  (∀ m, m ∈ reads_log base rdf t pm fuel pf err root evs d h → level_of m = Info) ↔
  unlocated base rdf pm evs = [] ∧ unopened base rdf (λ id, match assoc id d' with Some _ => true | None => false end) None evs = [] ∧
  (∀ n id k, ¬ dangling_at base rdf t pm fuel pf err root evs d h n id k) ∧
  (∀ n a k, ¬ unknown_at base rdf t pm fuel pf err root evs d h n a k).
Proof.
  intros Hf E. rewrite C82_resolved. pose proof (C81_missing t pm base rdf fuel pf err root evs d h d' h' E) as Hob. rewrite <- Hob. clear Hob.
  rewrite <- (proj2 (C81_reported t pm base rdf fuel pf err root evs d h Hf) _ _ E).
  pose proof (C83_counted t pm base rdf fuel pf err root evs d h d' h') as Hc.
  pose proof (C83_once t pm base rdf fuel pf err root evs d h) as [_ Ho].
  assert (∀ m, m ∈ reads_log base rdf t pm fuel pf err root evs d h → early m = false) as He by (intros m; apply read_log_early).
  revert Hc Ho He. generalize (reads_log base rdf t pm fuel pf err root evs d h). intros l Hc Ho He. split.
  - intros Hl. split_and!.
    + apply omap_nil. intros m Hm%Hl. by destruct m.
    + apply omap_nil. intros m Hm%Hl. by destruct m.
    + intros n id Hm%Hl. done.
    + intros n a k Hu. destruct (Hc (has_not n a) E) as (ks & _ & Hks & Hlen).
      assert (k ∈ ks) as Hin by (apply Hks; eauto). destruct ks as [|k0 ks]; [by apply elem_of_nil in Hin|].
      unfold count_of in Hlen. destruct (assoc (has_not n a) (counts l)) as [c|] eqn:Ea; [|done]. apply CreateFacts.assoc_in in Ea.
      unfold counts in Ea. apply elem_of_list_omap in Ea as (m & Hm & Hx). apply Hl in Hm. by destruct m.
  - intros (H1 & H2 & H3 & H4) m Hm. destruct m as [| | | |t0 i|t0 i|c i|txt n|n|]; try done; try (by apply He in Hm).
    + assert ((t0, i) ∈ no_module l) as Hin by (apply elem_of_list_omap; by eexists). rewrite H1 in Hin. by apply elem_of_nil in Hin.
    + assert ((t0, i) ∈ no_object l) as Hin by (apply elem_of_list_omap; by eexists). rewrite H2 in Hin. by apply elem_of_nil in Hin.
    + by destruct (H3 c i).
    + exfalso. destruct (Ho txt n Hm) as [Hpos Hcnt]. destruct (Hc txt E) as (ks & _ & Hks & Hlen). rewrite Hcnt in Hlen.
      destruct ks as [|k ks]; [cbn in Hlen; lia|]. destruct (proj1 (Hks k) ltac:(left)) as (c & a & _ & Hu). by apply (H4 c a k).
Qed.
Print Assumptions C86_quiet.
(** The severity of each message: attributes that do not exist are a warning,
    objects that do not exist are errors. *)
Theorem C86_levels :
  (∀ m, level_of m = Info ↔ m = MStart ∨ (∃ n, m = MCreated n) ∨ m = MEnd) ∧
  (∀ m, level_of m = Warning ↔ m = MNoRdf ∨ m = MNoVersion ∨ ∃ text n, m = MCount text n) ∧
  (∀ m, level_of m = Error ↔ m = MNoCim ∨ (∃ tag id, m = MNoModule tag id) ∨ (∃ tag id, m = MNoObject tag id) ∨ ∃ cls id, m = MNoTarget cls id).
Proof.
  split_and!; intros m; split.
  all: try (destruct m; cbn [level_of]; intros H; try discriminate H; by eauto 6).
  - by intros [->|[[n ->]| ->]].
  - by intros [->|[->|(text & n & ->)]].
  - by intros [->|[(tag & id & ->)|[(tag & id & ->)|(cls & id & ->)]]].
Qed.
Print Assumptions C86_levels.
(** But: a reference where the object already refers to another, *)
Theorem C86_second_reference t pm base rdf fuel pf err root pre e a id rest d h o d' hk z y :
  foreign_root base (pre ++ [EStart e; EEnd e] ++ rest) →
  Reaches base rdf t pm fuel pf err root pre ([EStart e; EEnd e] ++ rest) d h (Some (VRef o)) d' hk →
  reference_elem base rdf e a id → assoc id d' = Some y → shows t hk o a (VRef z) →
  reads base rdf t pm fuel pf err root (pre ++ [EStart e; EEnd e] ++ rest) d h = reads base rdf t pm fuel pf err root (pre ++ rest) d h ∧
  reads_log base rdf t pm fuel pf err root (pre ++ [EStart e; EEnd e] ++ rest) d h = reads_log base rdf t pm fuel pf err root (pre ++ rest) d h.
Proof.
  intros Hf HR He Hy Hs. pose proof He as [Hp Hres].
  assert (set_property t fuel pf base rdf d' o e hk = (inl tt, hk)) as Hset.
  { rewrite (reference_set base rdf t fuel pf d' o e a id hk He). unfold set_ref. by rewrite (shows_found t hk o a (VRef z) Hs), Hy. }
  split; [by eapply drop_at|]. eapply log_drop; [done|done|exact HR|done|]. apply (quiet_notes base rdf t d' o e a hk); [done| |].
  - by eapply found_has, shows_found.
  - intros id' Hr. rewrite Hres in Hr. apply (inj Some), (app_inv_head (u "#")) in Hr as <-. eauto.
Qed.
Print Assumptions C86_second_reference.
(** or a text for a property that is None. *)
Theorem C86_text_for_reference t pm base rdf fuel pf err root pre e a text rest d h o d' hk :
  foreign_root base (pre ++ [EStart e; EEnd e] ++ rest) →
  Reaches base rdf t pm fuel pf err root pre ([EStart e; EEnd e] ++ rest) d h (Some (VRef o)) d' hk →
  attribute_elem base rdf e a text → shows t hk o a VNone →
  reads base rdf t pm fuel pf err root (pre ++ [EStart e; EEnd e] ++ rest) d h = reads base rdf t pm fuel pf err root (pre ++ rest) d h ∧
  reads_log base rdf t pm fuel pf err root (pre ++ [EStart e; EEnd e] ++ rest) d h = reads_log base rdf t pm fuel pf err root (pre ++ rest) d h.
Proof.
  intros Hf HR He Hs. pose proof He as (Hp & Hres & _).
  assert (set_property t fuel pf base rdf d' o e hk = (inl tt, hk)) as Hset.
  { rewrite (attribute_set base rdf t fuel pf d' o e a text hk He). unfold set_text. by rewrite (shows_found t hk o a VNone Hs). }
  split; [by eapply drop_at|]. eapply log_drop; [done|done|exact HR|done|]. apply (quiet_notes base rdf t d' o e a hk); [done|by eapply found_has, shows_found|].
  intros id' Hr. by rewrite Hres in Hr.
Qed.
Print Assumptions C86_text_for_reference.
(** or a text for the name of a method. *)
Theorem C86_method t pm base rdf fuel pf err root pre e a text rest d h o d' hk :
  foreign_root base (pre ++ [EStart e; EEnd e] ++ rest) →
  Reaches base rdf t pm fuel pf err root pre ([EStart e; EEnd e] ++ rest) d h (Some (VRef o)) d' hk →
  attribute_elem base rdf e a text → has_method t hk o a →
  reads base rdf t pm fuel pf err root (pre ++ [EStart e; EEnd e] ++ rest) d h = reads base rdf t pm fuel pf err root (pre ++ rest) d h ∧
  reads_log base rdf t pm fuel pf err root (pre ++ [EStart e; EEnd e] ++ rest) d h = reads_log base rdf t pm fuel pf err root (pre ++ rest) d h.
Proof.
  intros Hf HR He Hm. pose proof He as (Hp & Hres & _).
  assert (set_property t fuel pf base rdf d' o e hk = (inl tt, hk)) as Hset by (apply (method_noop base rdf t fuel pf d' hk o e a); auto).
  split; [by eapply drop_at|]. eapply log_drop; [done|done|exact HR|done|]. apply (quiet_notes base rdf t d' o e a hk); [done| |].
  - destruct Hm as (_ & ck & Hc & _ & Hm & _). right. right. eauto.
  - intros id' Hr. by rewrite Hres in Hr.
Qed.
Print Assumptions C86_method.
(** Expectation: when nothing but progress is reported, every reference of the
    document counts.  The second reference of c1 in the topology document. *)
Definition c1_second : elem := pel_elem Bt (ref "ConnectivityNode.TopologicalNode" "#n2").
Lemma silent_example : ∃ cur d' hk,
  Reaches Bt R topo topo_map 20 pf_demo false root (take 3 topo_doc) ([EStart c1_second; EEnd c1_second] ++ drop 5 topo_doc) [] heap_empty cur d' hk ∧
  cur = Some (VRef 0) ∧ shows topo hk 0 n_TopologicalNode (VRef 1) ∧ assoc (u "n2") d' = Some (VRef 2).
Proof.
  destruct (reach_ex topo topo_map Bt 3 topo_doc [] heap_empty (λ cur d' hk,
    bool_decide (cur = Some (VRef 0)) && view_is hk 0 (Priv n_TopologicalNode) (OV (VRef 1)) &&
    bool_decide (cls_of hk 0 = Some n_CIM14_CPSM_Topology_Core_ConnectivityNode_ConnectivityNode) &&
    bool_decide (assoc (u "n2") d' = Some (VRef 2)))) as (cur & d' & hk & HR & HP); [compute_now|].
  rewrite !andb_true_iff, !bool_decide_eq_true in HP. destruct HP as [[[? ?%view_is_ok] ?] ?].
  exists cur, d', hk. split; [exact HR|]. split; [assumption|]. split; [|assumption]. eapply shows_intro; [eassumption|compute_now|assumption].
Qed.
Lemma quiet_b (l : list message) : forallb (λ m, match level_of m with Info => true | _ => false end) l = true → ∀ m, m ∈ l → level_of m = Info.
Proof. rewrite forallb_forall. intros H m Hm%elem_of_list_In. specialize (H m Hm). by destruct (level_of m). Qed.
Theorem C86_nothing_lost_refuted : ¬ ∀ pre e a id rest d h,
  reference_elem Bt R e a id →
  fst (fst (reads Bt R topo topo_map 20 pf_demo false root (pre ++ [EStart e; EEnd e] ++ rest) d h)) = None →
  (∀ m, m ∈ reads_log Bt R topo topo_map 20 pf_demo false root (pre ++ [EStart e; EEnd e] ++ rest) d h → level_of m = Info) →
  reads Bt R topo topo_map 20 pf_demo false root (pre ++ [EStart e; EEnd e] ++ rest) d h ≠
  reads Bt R topo topo_map 20 pf_demo false root (pre ++ rest) d h.
Proof.
  intros H. apply (H (take 3 topo_doc) c1_second n_TopologicalNode (u "n2") (drop 5 topo_doc) [] heap_empty).
  - repeat split; compute_now.
  - compute_now.
  - apply quiet_b. compute_now.
  - destruct silent_example as (cur & d' & hk & HR & -> & Hs & Ha).
    eapply (C86_second_reference topo topo_map Bt R 20 pf_demo false root (take 3 topo_doc) c1_second n_TopologicalNode (u "n2") (drop 5 topo_doc) [] heap_empty 0 d' hk).
    + apply foreign_b_ok. compute_now.
    + exact HR.
    + repeat split; compute_now.
    + exact Ha.
    + exact Hs.
Qed.
Print Assumptions C86_nothing_lost_refuted.
(** The hypotheses of C86 hold of the topology document. *)
Example C86_example :
  foreign_root Bt topo_doc ∧ topo_doc = take 3 topo_doc ++ [EStart c1_second; EEnd c1_second] ++ drop 5 topo_doc ∧
  fst (fst (reads Bt R topo topo_map 20 pf_demo false root topo_doc [] heap_empty)) = None ∧
  reads_log Bt R topo topo_map 20 pf_demo false root topo_doc [] heap_empty = [MCreated 4; MEnd].
Proof. split; [apply foreign_b_ok; compute_now|]. split; [compute_now|]. split; compute_now. Qed.
(** A text for the reference of c1 to its node, before it is set. *)
Definition c1_text : elem := pel_elem Bt (att "ConnectivityNode.TopologicalNode" "n1").
Definition text_doc : list event := take 1 topo_doc ++ [EStart c1_text; EEnd c1_text] ++ drop 1 topo_doc.
Example C86_text_example :
  foreign_root Bt text_doc ∧ attribute_elem Bt R c1_text n_TopologicalNode (Some (u "n1")) ∧
  reads_log Bt R topo topo_map 20 pf_demo false root text_doc [] heap_empty = [MCreated 4; MEnd] ∧
  ∃ cur d' hk, Reaches Bt R topo topo_map 20 pf_demo false root (take 1 text_doc) (drop 1 text_doc) [] heap_empty cur d' hk ∧
    cur = Some (VRef 0) ∧ shows topo hk 0 n_TopologicalNode VNone.
Proof.
  split; [apply foreign_b_ok; compute_now|]. split; [repeat split; compute_now|]. split; [compute_now|].
  destruct (reach_ex topo topo_map Bt 1 text_doc [] heap_empty (λ cur d' hk,
    bool_decide (cur = Some (VRef 0)) && view_is hk 0 (Priv n_TopologicalNode) (OV VNone) &&
    bool_decide (cls_of hk 0 = Some n_CIM14_CPSM_Topology_Core_ConnectivityNode_ConnectivityNode))) as (cur & d' & hk & HR & HP); [compute_now|].
  rewrite !andb_true_iff, !bool_decide_eq_true in HP. destruct HP as [[? ?%view_is_ok] ?].
  exists cur, d', hk. split; [exact HR|]. split; [assumption|]. eapply shows_intro; [eassumption|compute_now|assumption].
Qed.

(** *** Examples of C82-C84 *)
Lemma label_intro S h o ck n : cls_of h o = Some ck → match find_cls S ck with Some c => str_eqb n (c_name c) | None => false end = true → class_label S h o n.
Proof. intros Hc Hn. left. destruct (find_cls S ck) as [c|] eqn:E; [|done]. apply str_eqb_eq in Hn as ->. by exists ck, c. Qed.
(** One reference of c1 to nothing. *)
Definition dangling_doc : list event := take 1 topo_doc ++ [EStart c1_dangling; EEnd c1_dangling] ++ drop 1 topo_doc.
Example C82_example :
  dangling_at Bt R topo topo_map 20 pf_demo false root dangling_doc [] heap_empty (u "ConnectivityNode") (u "n9") 2 ∧
  reads_log Bt R topo topo_map 20 pf_demo false root dangling_doc [] heap_empty = [MNoTarget (u "ConnectivityNode") (u "n9"); MCreated 4; MEnd].
Proof.
  split; [|compute_now].
  destruct (reach_ex topo topo_map Bt 2 dangling_doc [] heap_empty (λ cur d' hk,
    bool_decide (cur = Some (VRef 0)) && view_is hk 0 (Priv n_TopologicalNode) (OV VNone) &&
    bool_decide (cls_of hk 0 = Some n_CIM14_CPSM_Topology_Core_ConnectivityNode_ConnectivityNode) && bool_decide (assoc (u "n9") d' = None)))
    as (cur & d' & hk & HR & HP); [compute_now|].
  rewrite !andb_true_iff, !bool_decide_eq_true in HP. destruct HP as [[[-> ?%view_is_ok] Hc] ?].
  exists 0, c1_dangling, n_TopologicalNode, d', hk. split; [|split; [compute_now|split; [|split; [assumption|eapply label_intro; [exact Hc|compute_now]]]]].
  - exists (take 2 dangling_doc), (drop 3 dangling_doc). split; [compute_now|]. split; [compute_now|]. split; [repeat split; compute_now|exact HR].
  - eapply found_has, shows_found, shows_intro; [exact Hc|compute_now|eassumption].
Qed.
(** Two texts for an attribute that connectivity nodes do not have. *)
Definition colours_doc : list event := take 1 topo_doc ++ [EStart c1_colour; EEnd c1_colour; EStart c1_colour; EEnd c1_colour] ++ drop 1 topo_doc.
Example C83_example :
  unknown_at Bt R topo topo_map 20 pf_demo false root colours_doc [] heap_empty (u "ConnectivityNode") (u "colour") 4 ∧
  fst (fst (reads Bt R topo topo_map 20 pf_demo false root colours_doc [] heap_empty)) = None ∧
  reads_log Bt R topo topo_map 20 pf_demo false root colours_doc [] heap_empty =
    [MCount (u "'ConnectivityNode' has not attribute 'colour'") 2; MCreated 4; MEnd].
Proof.
  split; [|split; compute_now].
  destruct (reach_ex topo topo_map Bt 4 colours_doc [] heap_empty (λ cur d' hk,
    bool_decide (cur = Some (VRef 0)) && bool_decide (slot hk 0 (Pub (u "colour")) = None) &&
    bool_decide (cls_of hk 0 = Some n_CIM14_CPSM_Topology_Core_ConnectivityNode_ConnectivityNode))) as (cur & d' & hk & HR & HP); [compute_now|].
  rewrite !andb_true_iff, !bool_decide_eq_true in HP. destruct HP as [[-> ?] Hc].
  exists 0, c1_colour, d', hk. split; [|split; [|eapply label_intro; [exact Hc|compute_now]]].
  - exists (take 4 colours_doc), (drop 5 colours_doc). split; [compute_now|]. split; [compute_now|]. split; [repeat split; compute_now|exact HR].
  - apply find_missing, lacks_missing. eapply lacks_intro; [exact Hc|compute_now..|assumption].
Qed.
(** Two descriptions of t1: two objects are made, one is left. *)
Definition twice_doc : list event := flat Bt [obj "Terminal" "t1" []; obj "Terminal" "t1" []] ++ [EEnd root].
Theorem C84_created_refuted : ¬ ∀ evs h n, Wf h → foreign_root Bt evs →
  fst (fst (reads Bt R topo topo_map 20 pf_demo false root evs [] h)) = None →
  MCreated n ∈ reads_log Bt R topo topo_map 20 pf_demo false root evs [] h → n = length (declared Bt R topo_map evs).
Proof.
  intros H. assert (1 = length (declared Bt R topo_map twice_doc)) as E; [|revert E; clear; by vm_compute].
  apply (H twice_doc heap_empty 1); [apply (Sound_empty topo)|apply foreign_b_ok; compute_now|compute_now|].
  assert (reads_log Bt R topo topo_map 20 pf_demo false root twice_doc [] heap_empty = [MCreated 1; MEnd]) as -> by compute_now. left.
Qed.
Print Assumptions C84_created_refuted.
Example C84_example :
  foreign_root Bt twice_doc ∧ Wf heap_empty ∧ fst (fst (reads Bt R topo topo_map 20 pf_demo false root twice_doc [] heap_empty)) = None ∧
  length (add_keys [] (map fst (declared Bt R topo_map twice_doc))) = 1 ∧
  fst (fst (reads Bt R topo topo_map 20 pf_demo true root twice_doc [] heap_empty)) = Some ParseError ∧
  reads_log Bt R topo topo_map 20 pf_demo true root twice_doc [] heap_empty = [].
Proof. split; [apply foreign_b_ok; compute_now|]. split; [apply (Sound_empty topo)|]. split; [compute_now|]. split; [compute_now|]. split; compute_now. Qed.
