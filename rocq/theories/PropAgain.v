(** Exporting, reading back and exporting again (PyCIM/RDFXMLWriter.py,
    PyCIM/RDFXMLReader.py). *)
From Coq Require Import String ZArith Lia.
From stdpp Require Import prelude gmap.
From Verif Require Import PyStr PyHeap Schema Assoc AssocSpec HeapFacts BlankFacts Names TabCIM14 TabCIM15 TabProfiles Tables TableSpec TableFacts
  Reader ReaderSpec ReaderFacts FrameFacts CreateFacts ReaderTabs ReadSound ReadStepFacts ReadDocFacts ReadDemo PropReader HistorySpec.
From Verif Require Import XmlWriter XmlSpec XmlCalls XmlDocFacts WriteSpec CimWriter WriteFacts WriteDocFacts WriteTables PropWriter.
From Verif Require Import RoundSpec AgainSpec RoundTables RoundDocFacts RoundFacts RoundMain RoundDemo AgainFacts PropRound.
Notation rdf_ns := PropWriter.rdf_ns.

(** *** C91 *)
Definition text_to (t : schema) (fint : pystr → option Z) (enc : pystr) (d : dict) (h : heap) : (unit + exn) * heap * pystr :=
  let '(x, h', w) := writes_to t fint d enc h in (x, h', w_out w).
Section again.
Context (t : schema) (pm : list (name * name)) (Ht : (t, pm) ∈ tables) (t14 t15 : schema * list (name * name)) (pf : pystr → option pystr).
Context (fint : pystr → option Z) (enc : pystr) (Henc : enc_ok enc) (f : nat).
Notation read_back src hr := (cimread (S (S f)) pf cim14_uri t14 t15 src (Some (t, pm)) (Some cim15_uri) None hr).
Lemma text_writes d h h' s : text_to t fint enc d h = (inl tt, h', s) ↔ ∃ w, writes_to t fint d enc h = (inl tt, h', w) ∧ s = w_out w.
Proof.
  unfold text_to. destruct (writes_to t fint d enc h) as [[x h2] w]. split; [intros [= -> -> <-]; eauto|]. by intros (w' & [= -> -> ->] & ->).
Qed.
Lemma trip_copies h d h' w src hr x d' h2 : Portable t pm pf h d → Sound t hr → writes_to t fint d enc h = (inl tt, h', w) → parses_to (w_out w) src →
  read_back src hr = (x, d', h2) → x = None ∧ h' = h ∧ Copies t h d h2 d' ∧ Sound t h2 ∧ ∃ es, Writes_all t fint cim_ns h d es ∧
    parse_ns (w_out w) = Some (doc_tree cim_ns rdf_ns cim_decls es) ∧ map en_id es = map fst d.
Proof using Ht Henc.
  intros HP Hs Hw (n & Hn & ->) Hr. pose proof Hw as (-> & es & Hes & _)%writes_spec.
  destruct (C51_document _ _ _ _ _ _ _ _ Ht Henc Hw) as (es2 & Hes2 & Hp).
  rewrite (C51_unique _ _ _ _ _ _ _ Hes2 Hes) in Hp.
  specialize (Hp (portable_chars t pm Ht pf fint h d HP cim_ns es Hes cim_ns_chars)).
  destruct (round_reads t pm Ht pf fint h d HP cim_ns rdf_ns es Hes cim_ns_head root_foreign hr f Hs) as (d3 & h3 & Hr3 & HC & _ & _ & Hs3).
  assert (n = doc_tree cim_ns rdf_ns cim_decls es) as -> by congruence. change (Source _ false) with (doc_source es) in Hr.
  rewrite (given_doc _ _ _ _ _ _ _ _ _ Ht) in Hr. cbn [default from_option] in Hr. rewrite Hr3 in Hr. injection Hr as <- <- <-.
  split_and!; try done. exists es. split_and!; [done|done|]. exact (entry_ids t pm pf fint h d HP cim_ns es Hes).
Qed.
Lemma entries_text d h es : Writes_all t fint cim_ns h d es → ∃ w, writes_to t fint d enc h = (inl tt, h, w) ∧
  document true enc (root_call cim15_uri (u "cim") es) = (inl tt, w).
Proof.
  intros Hes. destruct (render_document true enc (root_call cim15_uri (u "cim") es) eq_refl) as (w & E & _). exists w. split; [|done].
  apply writes_spec. eauto.
Qed.
Lemma second_text h d h' w src hr x d' h2 : Portable t pm pf h d → Sound t hr → writes_to t fint d enc h = (inl tt, h', w) → parses_to (w_out w) src →
  read_back src hr = (x, d', h2) → no_way_out t h d → writes_to t fint d' enc h2 = (inl tt, h2, w).
Proof using Ht Henc.
  intros HP Hs Hw Hp Hr Hno. destruct (trip_copies _ _ _ _ _ _ _ _ _ HP Hs Hw Hp Hr) as (-> & -> & HC & Hs2 & es & Hes & _).
  pose proof (copy_writes_all t pm Ht pf fint h d HP h2 d' HC cim_ns es cim_ns_head Hes) as Hes'.
  rewrite (trim_closed t pm Ht pf fint h d HP cim_ns es cim_ns_head Hno Hes) in Hes'.
  apply writes_spec in Hw as (_ & es3 & Hes3 & Hd). rewrite (C51_unique _ _ _ _ _ _ _ Hes3 Hes) in Hd.
  apply writes_spec. eauto.
Qed.
Lemma second_doc h d h' w src hr x d' h2 : Portable t pm pf h d → Sound t hr → writes_to t fint d enc h = (inl tt, h', w) → parses_to (w_out w) src →
  read_back src hr = (x, d', h2) → ∃ es w', x = None ∧ parse_ns (w_out w) = Some (doc_tree cim_ns rdf_ns cim_decls es) ∧
    writes_to t fint d' enc h2 = (inl tt, h2, w') ∧ parse_ns (w_out w') = Some (doc_tree cim_ns rdf_ns cim_decls (map (trim (map en_id es)) es)).
Proof using Ht Henc.
  intros HP Hs Hw Hp Hr. destruct (trip_copies _ _ _ _ _ _ _ _ _ HP Hs Hw Hp Hr) as (-> & -> & HC & Hs2 & es & Hes & Hdoc & Hids).
  pose proof (copy_writes_all t pm Ht pf fint h d HP h2 d' HC cim_ns es cim_ns_head Hes) as Hes'.
  destruct (entries_text _ _ _ Hes') as (w' & Hw' & _). exists es, w'. rewrite Hids. split_and!; try done.
  destruct (C51_document _ _ _ _ _ _ _ _ Ht Henc Hw') as (es2 & Hes2 & Hp2).
  rewrite (C51_unique _ _ _ _ _ _ _ Hes2 Hes') in Hp2. apply Hp2.
  intros e (e0 & -> & He0)%elem_of_list_fmap.
  destruct (portable_chars t pm Ht pf fint h d HP cim_ns es Hes cim_ns_chars e0 He0) as [Hc1 Hc2].
  split; [done|]. intros p. cbn [en_props trim]. rewrite elem_of_list_In, filter_In, <- elem_of_list_In. intros [Hin _]. by apply Hc2.
Qed.
Notation Trip := (trip (text_to t fint enc) (λ src hr, read_back src hr) (Sound t)).
Lemma trip_ok a b : Portable t pm pf a.1 a.2 → Trip a b → pf (u "0.0") = Some (u "0.0") → Portable t pm pf b.1 b.2 ∧ no_way_out t b.1 b.2.
Proof using Ht Henc.
  destruct a as [h d], b as [h2 d']. cbn [fst snd]. intros HP (h' & s & src & hr & (w & Hw & ->)%text_writes & Hp & Hs & Hr) Hpf. cbn [fst snd] in *.
  destruct (trip_copies _ _ _ _ _ _ _ _ _ HP Hs Hw Hp Hr) as (_ & -> & HC & Hs2 & es & Hes & Hdoc & Hids). split.
  - by eapply copy_portable.
  - by eapply copy_no_way_out.
Qed.
Lemma trips_text a b s : pf (u "0.0") = Some (u "0.0") → Portable t pm pf a.1 a.2 → no_way_out t a.1 a.2 →
  text_to t fint enc a.2 a.1 = (inl tt, a.1, s) → rtc Trip a b → text_to t fint enc b.2 b.1 = (inl tt, b.1, s).
Proof using Ht Henc.
  intros Hpf HP Hno Hs Htr. induction Htr as [|a b c Hab Hbc IH]; [done|]. destruct (trip_ok a b HP Hab Hpf) as [HP2 Hno2].
  apply IH; [done|done|]. destruct a as [h d], b as [h2 d']. cbn [fst snd] in *.
  destruct Hab as (h' & s' & src & hr & Hw & Hp & Hs' & Hr). cbn [fst snd] in *. rewrite Hs in Hw. injection Hw as <- <-.
  apply text_writes in Hs as (w & Hw & ->). apply text_writes. exists w. split; [|done].
  exact (second_text _ _ _ _ _ _ _ _ _ HP Hs' Hw Hp Hr Hno).
Qed.
End again.

(** A dictionary whose references do not lead out of it: the second export is the
    same text. *)
Theorem C91_same t pm t14 t15 pf fint enc f h d h' w src hr x d' h2 : (t, pm) ∈ tables → enc_ok enc → Portable t pm pf h d → Sound t hr →
  no_way_out t h d → writes_to t fint d enc h = (inl tt, h', w) → parses_to (w_out w) src →
  cimread (S (S f)) pf cim14_uri t14 t15 src (Some (t, pm)) (Some cim15_uri) None hr = (x, d', h2) →
  writes_to t fint d' enc h2 = (inl tt, h2, w).
Proof. intros Ht He HP Hs Hno Hw Hp Hr. by eapply second_text. Qed.
Print Assumptions C91_same.
(** In general exactly the references to objects outside are missing. *)
Theorem C91_exact t pm t14 t15 pf fint enc f h d h' w src hr x d' h2 : (t, pm) ∈ tables → enc_ok enc → Portable t pm pf h d → Sound t hr →
  writes_to t fint d enc h = (inl tt, h', w) → parses_to (w_out w) src →
  cimread (S (S f)) pf cim14_uri t14 t15 src (Some (t, pm)) (Some cim15_uri) None hr = (x, d', h2) →
  ∃ es w', x = None ∧ parse_ns (w_out w) = Some (doc_tree cim_ns rdf_ns cim_decls es) ∧
    writes_to t fint d' enc h2 = (inl tt, h2, w') ∧ parse_ns (w_out w') = Some (doc_tree cim_ns rdf_ns cim_decls (map (trim (map en_id es)) es)).
Proof. intros Ht He HP Hs Hw Hp Hr. by eapply second_doc. Qed.
Print Assumptions C91_exact.
(** From the second export on, the text stays the same over any number of round
    trips. *)
Theorem C91_stable t pm t14 t15 pf fint enc f a b c : (t, pm) ∈ tables → enc_ok enc → Portable t pm pf a.1 a.2 → pf (u "0.0") = Some (u "0.0") →
  let T := trip (text_to t fint enc) (λ src hr, cimread (S (S f)) pf cim14_uri t14 t15 src (Some (t, pm)) (Some cim15_uri) None hr) (Sound t) in
  T a b → rtc T b c → ∃ s, text_to t fint enc b.2 b.1 = (inl tt, b.1, s) ∧ text_to t fint enc c.2 c.1 = (inl tt, c.1, s).
Proof.
  intros Ht He HP Hpf T Hab Hbc. destruct (trip_ok t pm Ht t14 t15 pf fint enc He f a b HP Hab Hpf) as [HP2 Hno2].
  assert (∃ s, text_to t fint enc b.2 b.1 = (inl tt, b.1, s)) as [s Hs].
  { destruct a as [h d], b as [h2 d']. destruct Hab as (h' & s & src & hr & Hw & Hp & Hs & Hr). cbn [fst snd] in *.
    apply text_writes in Hw as (w & Hw & ->). destruct (second_doc t pm Ht t14 t15 pf fint enc He f _ _ _ _ _ _ _ _ _ HP Hs Hw Hp Hr) as (es & w' & _ & _ & Hw' & _).
    exists (w_out w'). apply text_writes. eauto. }
  exists s. split; [done|]. by eapply (trips_text t pm Ht t14 t15 pf fint enc He f b c s).
Qed.
Print Assumptions C91_stable.
(** Checks for the examples. *)
Definition closed_b (S : schema) (h : heap) (d : dict) : bool :=
  forallb (λ kv : pystr * val, match kv.2 with
    | VRef o => match cls_of h o with
        | Some ck => forallb (λ c, forallb (λ p, existsb (str_eqb p) (c_many c) ||
            match see S h o p with Some (VRef x) => existsb (λ kv' : pystr * val, bool_decide (kv'.2 = VRef x)) d | _ => true end) (c_refs c)) (mro S ck)
        | None => true
        end
    | _ => true
    end) d.
Lemma closed_b_ok S h d : closed_b S h d = true → no_way_out S h d.
Proof.
  intros H id o ck c p x Hin Hck Hc Hp Hm Hx. unfold closed_b in H. rewrite forallb_forall in H. specialize (H _ (proj1 (elem_of_list_In _ _) Hin)).
  cbn [snd] in H. rewrite Hck, forallb_forall in H. specialize (H _ (proj1 (elem_of_list_In _ _) Hc)). rewrite forallb_forall in H.
  specialize (H _ (proj1 (elem_of_list_In _ _) Hp)). apply orb_true_iff in H as [H%BlankFacts.existsb_str|H]; [done|].
  apply see_ok in Hx. rewrite Hx in H. apply existsb_exists in H as ([i v] & Hi%elem_of_list_In & Hv%bool_decide_eq_true). cbn [snd] in Hv. subst v. eauto.
Qed.
(** The generating unit and its machine, with both in the dictionary. *)
Definition plant_h : heap := snd (demo_r plant_evs).
Definition plant_d : dict := snd (fst (demo_r plant_evs)).
Example C91_example :
  Portable bal bal_map pf_demo plant_h plant_d ∧ Sound bal heap_empty ∧ enc_ok (u "utf-8") ∧ no_way_out bal plant_h plant_d ∧
  pf_demo (u "0.0") = Some (u "0.0") ∧ sees bal plant_h 1 n_GeneratingUnit (VRef 0) ∧ map fst plant_d = [u "g1"; u "m1"] ∧
  fst (fst (writes_to bal fint_demo plant_d (u "utf-8") plant_h)) = inl tt.
Proof.
  split; [apply C54_example|]. split; [apply Sound_empty|]. split; [right; by left|]. split; [apply closed_b_ok; compute_now|].
  split; [compute_now|]. split; [apply see_ok; compute_now|]. split; compute_now.
Qed.
(** There always is a first round trip. *)
Example C91_example_trip :
  ∃ b, trip (text_to bal fint_demo (u "utf-8"))
    (λ src hr, cimread 20 pf_demo cim14_uri (cim14, cim14_map) (cim15, cim15_map) src (Some (bal, bal_map)) (Some cim15_uri) None hr) (Sound bal)
    (plant_h, plant_d) b.
Proof.
  destruct C91_example as (HP & Hs & He & _ & _ & _ & _ & Hw). apply returns_keeps in Hw.
  destruct (C54_round_trip _ _ (cim14, cim14_map) (cim15, cim15_map) _ _ _ _ _ _ _ heap_empty 18 bal_in HP Hs He Hw) as (src & d' & h2 & H1 & H2 & _).
  exists (h2, d'). eexists _, _, src, heap_empty. split; [apply text_writes; eexists; split; [exact Hw|reflexivity]|]. split; [exact H1|]. split; [exact Hs|exact H2].
Qed.
(** The machine without its generating unit. *)
Definition part_d : dict := [(u "m1", VRef 1)].
Definition part_w : writer := snd (writes_to bal fint_demo part_d (u "utf-8") plant_h).
Definition part_src : source := Source (match parse_ns (w_out part_w) with Some x => xevents true x | None => [] end) false.
Notation part_r := (cimread 20 pf_demo cim14_uri (cim14, cim14_map) (cim15, cim15_map) part_src (Some (bal, bal_map)) (Some cim15_uri) None heap_empty).
Lemma part_returns : part_r = (None, snd (fst part_r), snd part_r).
Proof.
  assert (fst (fst part_r) = None) as H by compute_now. exact (triple_eq part_r None (snd (fst part_r)) H eq_refl).
Qed.
Lemma plant_sound : Sound bal plant_h.
Proof. apply (po_sound _ _ _ _ _ (proj1 C54_example)). Qed.
Lemma longer (a b : pystr) : length a ≠ length b → a ≠ b.
Proof. by intros H ->. Qed.
Theorem C91_same_refuted : ∃ t pm pf fint h d w src d' h2 w', (t, pm) ∈ tables ∧ Portable t pm pf h d ∧
  writes_to t fint d (u "utf-8") h = (inl tt, h, w) ∧ parses_to (w_out w) src ∧
  cimread 20 pf cim14_uri (cim14, cim14_map) (cim15, cim15_map) src (Some (t, pm)) (Some cim15_uri) None heap_empty = (None, d', h2) ∧
  writes_to t fint d' (u "utf-8") h2 = (inl tt, h2, w') ∧ w_out w ≠ w_out w'.
Proof.
  exists bal, bal_map, pf_demo, fint_demo, plant_h, part_d, part_w, part_src, (snd (fst part_r)), (snd part_r),
    (snd (writes_to bal fint_demo (snd (fst part_r)) (u "utf-8") (snd part_r))).
  split; [exact bal_in|]. split; [apply portable_b_ok; [exact plant_sound|compute_now]|].
  split; [apply returns_keeps; compute_now|].
  split; [apply (parsed_ok _ _ (match parse_ns (w_out part_w) with Some x => x | None => XText [] end)); compute_now|].
  split; [exact part_returns|]. split; [apply returns_keeps; compute_now|].
  apply longer, Nat.eqb_neq. compute_now.
Qed.
Print Assumptions C91_same_refuted.
