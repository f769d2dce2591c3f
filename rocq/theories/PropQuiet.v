(** Property C101: reads without complaints, and the report of an export. *)
From Coq Require Import String ZArith Lia.
From stdpp Require Import prelude gmap.
From Verif Require Import PyStr PyHeap Schema Assoc AssocSpec HeapFacts BlankFacts Names TabCIM14 TabCIM15 TabProfiles Tables TableSpec TableFacts
  Reader ReaderSpec ReaderFacts FrameFacts CreateFacts ReaderTabs ReadSound ReadStepFacts ReadDocFacts ReadDemo PropReader.
From Verif Require Import XmlWriter XmlSpec XmlCalls XmlDocFacts WriteSpec CimWriter WriteFacts WriteDocFacts WriteTables PropWriter.
From Verif Require Import RoundSpec RoundTables RoundDocFacts RoundFacts RoundMain RoundDemo DocSpec DocFacts ExportDocFacts PropRound PropMember.
From Verif Require Import VocabSpec VocabFacts ReaderLog LogSpec LogFacts PropLog WriterLog QuietSpec QuietFacts QuietDocFacts.
Notation rdf_ns := PropWriter.rdf_ns.

(** *** Documents without complaints *)
Lemma class_of_tag pm base rdf evs e l id : EEnd e ∈ evs → names_object base rdf e l id → l ∈ map fst pm → id ∈ map fst (declared base rdf pm evs).
Proof.
  intros Hin Ho Hl. pose proof (proj1 Ho) as Ht. destruct (assoc l pm) as [k|] eqn:Ea; [|by apply assoc_lacks in Ea].
  apply elem_of_list_fmap. exists (id, k). split; [done|]. apply elem_of_list_omap. exists (EEnd e). split; [done|].
  rewrite (proj2 (in_base_iff base e)) by eauto. rewrite (proj2 (uuid_iff base rdf e l id Ht) Ho). cbn. by rewrite (local_app base e l Ht), Ea.
Qed.
(** Reading a document whose objects are of known classes and have the
    properties stated, the log is the summary if and only if every reference
    is to an object. *)
Theorem C101_quiet t pm base rdf f pf err root evs d h d' h' : (t, pm) ∈ tables → Wf h → dict_alive d h → foreign_root base evs →
  self_contained base rdf pm evs d → classes_known base rdf pm evs → objects_closed base rdf evs → attributes_known base rdf t pm evs d →
  reads base rdf t pm (S f) pf err root evs d h = (None, d', h') →
  reads_log base rdf t pm (S f) pf err root evs d h = [MCreated (length d'); MEnd] ↔ references_known base rdf pm evs d h.
Proof.
  intros Ht Hwf Hd Hf Hself Hcls Hcl Hattr E.
  assert (unlocated base rdf pm evs = []) as H1.
  { apply elem_of_nil_inv. intros [l id] (e & He & Ho & Hl)%C81_unlocated. by apply Hl, (Hcls e l id). }
  assert (unopened base rdf (λ id, match assoc id d' with Some _ => true | None => false end) None evs = []) as H2.
  { apply elem_of_nil_inv. intros [l id] (e & He & Ho & Hk)%unopened_start. destruct (Hcl e l id He Ho) as (e' & He' & Ho').
    pose proof (class_of_tag pm base rdf evs e' l id He' Ho' (Hcls e' l id He' Ho')) as Hin.
    assert (id ∈ map fst d') as Hin' by (apply (C24_keys t pm base rdf f pf err root evs d h d' h' Ht Hwf Hf E); by right).
    destruct (assoc id d') eqn:Ea; [done|]. by apply assoc_lacks in Ea. }
  assert (∀ n a k, ¬ unknown_at base rdf t pm (S f) pf err root evs d h n a k) as H4.
  { intros n a k (o & e & d1 & hk & (pre & rest & Ee & _ & Hp & HR) & Hn & _). apply Hn.
    by eapply (position t pm Ht base rdf f pf err root evs d h Hwf Hd Hf Hself Hattr). }
  pose proof (C86_quiet t pm base rdf (S f) pf err root evs d h d' h' Hf E) as HQ. split.
  - intros Hlog. assert (∀ m, m ∈ reads_log base rdf t pm (S f) pf err root evs d h → level_of m = Info) as Hi.
    { rewrite Hlog. intros m. rewrite !elem_of_cons. intros [->|[->|?%elem_of_nil]]; done. }
    apply HQ in Hi as (_ & _ & H3 & _). intros id e a y Hin [Hp Hy].
    destruct (positions t pm Ht base rdf f pf err root evs d h Hwf Hf Hself d' h' id e a E Hin Hp) as (k & o & hk & Hat).
    pose proof Hat as (pre & rest & Ee & _ & _ & HR).
    destruct (position t pm Ht base rdf f pf err root evs d h Hwf Hd Hf Hself Hattr pre e a rest o d' hk Ee Hp HR) as (Hh & _ & Hk).
    apply Hk. destruct (assoc y d') eqn:Ea; [by eexists|]. exfalso. destruct (label_exists t hk o) as [n Hn].
    apply (H3 n y k). by exists o, e, a, d', hk.
  - intros Href.
    assert (∀ m, m ∈ reads_log base rdf t pm (S f) pf err root evs d h → level_of m = Info) as Hi.
    { apply HQ. split; [done|]. split; [done|]. split; [|done]. intros n id k (o & e & a & d1 & hk & (pre & rest & Ee & _ & Hp & HR) & Hy & _ & Hn & _).
      destruct (position t pm Ht base rdf f pf err root evs d h Hwf Hd Hf Hself Hattr pre e a rest o d1 hk Ee Hp HR) as (_ & (i & Hin) & Hk).
      specialize (Href i e a id Hin (conj Hp Hy)). apply Hk in Href as [v Hv]. congruence. }
    destruct (C84_summary t pm base rdf (S f) pf err root evs d h d' h' E) as (l & cs & Hl & Hfin).
    pose proof (λ m, read_log_early (S f) pf t pm base rdf (Source (EStart root :: evs) err) d h m) as He.
    fold (reads_log base rdf t pm (S f) pf err root evs d h) in He. rewrite Hl in *.
    assert (l = []) as ->.
    { apply elem_of_nil_inv. intros m Hm. specialize (Hfin m Hm). assert (level_of m = Info) as Hm1 by (apply Hi, elem_of_app; by left).
      assert (early m = false) as Hm2 by (apply He, elem_of_app; by left). by destruct m. }
    destruct cs as [|[x n] cs]; [done|]. by specialize (Hi (MCount x n) ltac:(left)).
Qed.
Print Assumptions C101_quiet.

(** *** Exports *)
Lemma read_doc_log t pm fuel pf es d h base rdf : base = wbase → rdf = rdf_ns →
  read_log t pm fuel pf base rdf (doc_source es) d h = reads_log wbase rdf_ns t pm fuel pf false (root_elem rdf_ns) (wevents es) d h.
Proof. intros -> ->. unfold reads_log, read_log, doc_source. cbn [s_error s_events]. rewrite doc_events. done. Qed.
Lemma given_log t pm t14 t15 fuel pf es sd h : (t, pm) ∈ tables →
  cimread_log fuel pf cim14_uri cim15_uri t14 t15 (doc_source es) (Some (t, pm)) (Some cim15_uri) sd h =
  MStart :: reads_log wbase rdf_ns t pm fuel pf false (root_elem rdf_ns) (wevents es) (default [] sd) h.
Proof.
  intros Ht. unfold cimread_log. rewrite doc_xmlns. pose proof (maps_nonempty _ _ Ht) as Hn. destruct pm as [|r pm]; [done|].
  assert (rdf_ns_log cim_decls = []) as -> by (vm_compute; reflexivity).
  assert (match cim15_uri with [] => false | _ => true end = true) as Hu by (vm_compute; reflexivity).
  f_equal. cbv zeta. rewrite Hu. cbn [eqb negb app]. apply read_doc_log; vm_compute; reflexivity.
Qed.
Lemma default_log fuel pf es sd h :
  cimread_log fuel pf cim14_uri cim15_uri (cim14, cim14_map) (cim15, cim15_map) (doc_source es) None None sd h =
  MStart :: reads_log wbase rdf_ns cim15 cim15_map fuel pf false (root_elem rdf_ns) (wevents es) (default [] sd) h.
Proof.
  unfold cimread_log. rewrite doc_xmlns. assert (rdf_ns_log cim_decls = []) as -> by (vm_compute; reflexivity).
  assert (cim_ns_log cim14_uri cim15_uri cim_decls = []) as -> by (vm_compute; reflexivity).
  assert (get_cim_ns cim14_uri cim_decls = (cim15_uri, false)) as -> by (vm_compute; reflexivity).
  f_equal. cbn [eqb negb app]. apply read_doc_log; vm_compute; reflexivity.
Qed.
Lemma export_log t pm pf fint h d es hr f d' h2 : (t, pm) ∈ tables → Portable t pm pf h d → Writes_all t fint cim_ns h d es → Sound t hr →
  reads wbase rdf_ns t pm (S f) pf false (root_elem rdf_ns) (wevents es) [] hr = (None, d', h2) → length d' = length d →
  MStart :: reads_log wbase rdf_ns t pm (S f) pf false (root_elem rdf_ns) (wevents es) [] hr = [MStart; MCreated (length d); MEnd] ↔ refs_inside t h d.
Proof.
  intros Ht HP Hes Hs Hr Hlen. rewrite <- (doc_references t pm Ht pf fint h d HP cim_ns rdf_ns es Hes hr cim_ns_head root_foreign).
  rewrite <- (C101_quiet t pm wbase rdf_ns f pf false (root_elem rdf_ns) (wevents es) [] hr d' h2 Ht).
  - rewrite Hlen. split; [by intros [= ?]|by intros ->].
  - apply Hs.
  - intros id v. by cbn.
  - exact (doc_foreign cim_ns rdf_ns es root_foreign).
  - exact (doc_self_contained t pm Ht pf fint h d HP cim_ns rdf_ns es Hes root_foreign).
  - exact (doc_classes_known t pm pf fint h d HP cim_ns rdf_ns es Hes root_foreign).
  - exact (doc_objects_closed cim_ns rdf_ns es).
  - exact (doc_attributes_known t pm Ht pf fint h d HP cim_ns rdf_ns es Hes root_foreign).
  - done.
Qed.
(** A graph that is exported and read back: the log of the read is that of a
    read without complaints if and only if every reference is to an exported
    object. *)
Theorem C101_export t pm t14 t15 pf fint enc h d h' w hr f : (t, pm) ∈ tables → Portable t pm pf h d → Sound t hr → enc_ok enc →
  writes_to t fint d enc h = (inl tt, h', w) →
  ∃ src, parses_to (w_out w) src ∧
    (cimread_log (S (S f)) pf cim14_uri cim15_uri t14 t15 src (Some (t, pm)) (Some cim15_uri) None hr = [MStart; MCreated (length d); MEnd] ↔ refs_inside t h d).
Proof.
  intros Ht HP Hs He Hw. destruct (C51_document _ _ _ _ _ _ _ _ Ht He Hw) as (es & Hes & Hp).
  specialize (Hp (portable_chars t pm Ht pf fint h d HP cim_ns es Hes cim_ns_chars)).
  destruct (round_reads t pm Ht pf fint h d HP cim_ns rdf_ns es Hes cim_ns_head root_foreign hr f Hs) as (d' & h2 & Hr & HC & _).
  exists (doc_source es). split; [by eexists|]. rewrite (given_log t pm t14 t15 _ pf es None hr Ht).
  eapply (export_log t pm pf fint h d es hr (S f) d' h2 Ht HP Hes Hs Hr). rewrite <- (map_length fst d'), (cp_keys _ _ _ _ _ HC). apply map_length.
Qed.
Print Assumptions C101_export.
Theorem C101_default pf fint enc h d h' w hr f : Portable cim15 cim15_map pf h d → Sound cim15 hr → enc_ok enc →
  writes_to cim15 fint d enc h = (inl tt, h', w) →
  ∃ src, parses_to (w_out w) src ∧
    (cimread_log (S (S f)) pf cim14_uri cim15_uri (cim14, cim14_map) (cim15, cim15_map) src None None None hr = [MStart; MCreated (length d); MEnd] ↔
     refs_inside cim15 h d).
Proof.
  intros HP Hs He Hw. destruct (C51_document _ _ _ _ _ _ _ _ cim15_in He Hw) as (es & Hes & Hp).
  specialize (Hp (portable_chars cim15 cim15_map cim15_in pf fint h d HP cim_ns es Hes cim_ns_chars)).
  destruct (round_reads cim15 cim15_map cim15_in pf fint h d HP cim_ns rdf_ns es Hes cim_ns_head root_foreign hr f Hs) as (d' & h2 & Hr & HC & _).
  exists (doc_source es). split; [by eexists|]. rewrite default_log.
  eapply (export_log cim15 cim15_map pf fint h d es hr (S f) d' h2 cim15_in HP Hes Hs Hr). rewrite <- (map_length fst d'), (cp_keys _ _ _ _ _ HC). apply map_length.
Qed.
Print Assumptions C101_default.

(** *** The report of cimwrite *)
(** A call of cimwrite of CIM15's namespace. *)
Definition calls_write (t : schema) (fint : pystr → option Z) (d : dict) (enc : pystr) (h : heap) :=
  cimwrite_call t fint cim15_uri cim15_prefix d enc h.
Lemma writes_call t fint d enc h h' w : writes_to t fint d enc h = (inl tt, h', w) →
  calls_write t fint d enc h = (inl VNone, h', w, [MSerialised (length d)]).
Proof. unfold calls_write, cimwrite_call, writes_to. by intros ->. Qed.
(** What is returned is None, and the one message has the number of elements
    below the root of the document. *)
Theorem C101_reported t pm fint d enc h v h' w ms : (t, pm) ∈ tables → enc_ok enc → calls_write t fint d enc h = (inl v, h', w, ms) →
  v = VNone ∧ ms = [MSerialised (length d)] ∧
  ∀ x, parse_ns (w_out w) = Some x → ∃ ds tag kids, x = XElem ds tag [] kids ∧ ms = [MSerialised (length kids)] ∧
    ∀ k, k ∈ kids → ∃ l id ps, k = XElem [] (u "{" ++ cim_ns ++ u "}" ++ l) [(rdf_name rdf_ns "ID", id)] ps.
Proof.
  intros Ht He. unfold calls_write, cimwrite_call. destruct (cimwrite t fint cim15_uri cim15_prefix d enc h) as [[[[]|e] h1] w1] eqn:E; [|done].
  intros [= <- <- <- <-]. split; [done|]. split; [done|]. intros x Hx.
  destruct (back_entries t pm Ht fint enc He h h1 d w1 E x Hx) as (es & Hes & ->).
  eexists _, _, _. split; [reflexivity|]. split.
  - rewrite !map_length. by rewrite (Forall2_length _ _ _ Hes).
  - intros k (e & -> & _)%elem_of_list_fmap. eexists _, _, _. reflexivity.
Qed.
Print Assumptions C101_reported.
(** A message is logged if and only if the call returns; it is informational. *)
Theorem C101_message t fint d enc h r h' w ms : calls_write t fint d enc h = (r, h', w, ms) →
  ((∃ m, m ∈ ms) ↔ ∃ v, r = inl v) ∧ ∀ m, m ∈ ms → wlevel_of m = Info.
Proof.
  unfold calls_write, cimwrite_call. destruct (cimwrite t fint cim15_uri cim15_prefix d enc h) as [[[[]|e] h1] w1]; intros [= <- <- <- <-].
  all: split; [|by intros [n]].
  - split; [by eexists|]. intros _. eexists. left.
  - split; [by intros [m ?%elem_of_nil]|by intros [v ?]].
Qed.
Print Assumptions C101_message.
(** The docstring promises a boolean that tells success. *)
Theorem C101_success_refuted : ¬ ∀ t pm fint d enc h v h' w ms, (t, pm) ∈ tables → enc_ok enc →
  calls_write t fint d enc h = (inl v, h', w, ms) → ∃ b, v = VBool b.
Proof.
  intros H. destruct (C51_returns bal fint_demo [] (u "utf-8") heap_empty) as [_ Hr].
  destruct Hr as (h' & w & Hw); [exists []; constructor|].
  destruct (H bal bal_map fint_demo [] (u "utf-8") heap_empty VNone h' w [MSerialised 0]) as [b Hb]; [exact bal_in|right; by left| |done].
  exact (writes_call _ _ _ _ _ _ _ Hw).
Qed.
Print Assumptions C101_success_refuted.

(** *** Examples *)
Definition inside_b (S : schema) (h : heap) (d : dict) : bool :=
  forallb (λ kv, match snd kv with
    | VRef o => match cls_of h o with
        | Some ck => forallb (λ c, forallb (λ p, existsb (str_eqb p) (c_many c) ||
            match see S h o p with Some (VRef x) => existsb (λ kv', match snd kv' with VRef y => Nat.eqb x y | _ => false end) d | _ => true end) (c_refs c)) (mro S ck)
        | None => true
        end
    | _ => true
    end) d.
Lemma inside_b_ok S h d : inside_b S h d = true → refs_inside S h d.
Proof.
  intros Hb id o ck c p x Hin Hck Hc Hp Hm Hx. unfold inside_b in Hb. rewrite forallb_forall in Hb.
  apply elem_of_list_In in Hin. specialize (Hb _ Hin). cbn [snd] in Hb. rewrite Hck, forallb_forall in Hb.
  apply elem_of_list_In in Hc. specialize (Hb _ Hc). rewrite forallb_forall in Hb. apply elem_of_list_In in Hp. specialize (Hb _ Hp).
  apply orb_true_iff in Hb as [Hb%existsb_str|Hb]; [done|]. apply see_ok in Hx. rewrite Hx in Hb. apply existsb_exists in Hb as ([i v] & Hi & Hv).
  cbn [snd] in Hv. destruct v as [| | | | |y|]; try done. apply Nat.eqb_eq in Hv as ->. exists i. by apply elem_of_list_In.
Qed.
(** The generating unit with its machines. *)
Example C101_example :
  Portable bal bal_map pf_demo park_h park_d ∧ refs_inside bal park_h park_d ∧ Sound bal heap_empty ∧ enc_ok (u "utf-8") ∧
  writes_to bal fint_demo park_d (u "utf-8") park_h = (inl tt, park_h, park_w) ∧
  calls_write bal fint_demo park_d (u "utf-8") park_h = (inl VNone, park_h, park_w, [MSerialised 3]) ∧
  cimread_log 20 pf_demo cim14_uri cim15_uri (cim14, cim14_map) (cim15, cim15_map) park_src (Some (bal, bal_map)) (Some cim15_uri) None heap_empty =
    [MStart; MCreated 3; MEnd].
Proof.
  destruct C96_round_example as (HP & Hs & He & Hw). apply returns_keeps in Hw.
  split; [exact HP|]. split; [apply inside_b_ok; compute_now|]. split; [exact Hs|]. split; [exact He|]. split; [exact Hw|]. split; [|compute_now].
  assert (length park_d = 3%nat) as Hl by compute_now. rewrite <- Hl. exact (writes_call _ _ _ _ _ _ _ Hw).
Qed.
(** One machine without the unit: the export can be read, with a complaint. *)
Notation alone_d := [(u "m1", VRef 1)].
Notation alone_w := (snd (writes_to bal fint_demo alone_d (u "utf-8") park_h)).
Theorem C101_always_refuted : ¬ ∀ t pm t14 t15 pf fint enc h d h' w src hr f, (t, pm) ∈ tables → Portable t pm pf h d → Sound t hr → enc_ok enc →
  writes_to t fint d enc h = (inl tt, h', w) → parses_to (w_out w) src →
  ∀ m, m ∈ cimread_log (S (S f)) pf cim14_uri cim15_uri t14 t15 src (Some (t, pm)) (Some cim15_uri) None hr → level_of m = Info.
Proof.
  intros H. assert (writes_to bal fint_demo alone_d (u "utf-8") park_h = (inl tt, park_h, alone_w)) as Hw by (apply returns_keeps; compute_now).
  specialize (H bal bal_map (cim14, cim14_map) (cim15, cim15_map) pf_demo fint_demo (u "utf-8") park_h alone_d park_h alone_w
    (Source (match parse_ns (w_out alone_w) with Some x => xevents true x | None => [] end) false) heap_empty 18).
  specialize (H bal_in).
  assert (Portable bal bal_map pf_demo park_h alone_d) as HP.
  { apply portable_b_ok; [|compute_now]. exact (po_sound _ _ _ _ _ (proj1 C96_round_example)). }
  specialize (H HP (Sound_empty _) ltac:(right; by left) Hw).
  assert (parses_to (w_out alone_w) (Source (match parse_ns (w_out alone_w) with Some x => xevents true x | None => [] end) false)) as Hp.
  { apply (parsed_ok _ _ (match parse_ns (w_out alone_w) with Some x => x | None => XText [] end)); compute_now. }
  specialize (H Hp (MNoTarget (u "SynchronousMachine") (u "g1"))).
  assert (level_of (MNoTarget (u "SynchronousMachine") (u "g1")) = Info) as Hx; [|done]. apply H.
  eapply elem_of_list_lookup_2 with (i := 1%nat). compute_now.
Qed.
Print Assumptions C101_always_refuted.
(** The number reported as serialised and that reported as created on reading
    back differ when identifiers repeat. *)
Theorem C101_count_refuted : ∃ t pm pf fint h d w src, (t, pm) ∈ tables ∧
  calls_write t fint d (u "utf-8") h = (inl VNone, h, w, [MSerialised 2]) ∧ parses_to (w_out w) src ∧
  cimread_log 20 pf cim14_uri cim15_uri (cim14, cim14_map) (cim15, cim15_map) src (Some (t, pm)) (Some cim15_uri) None heap_empty =
    [MStart; MCreated 1; MEnd].
Proof.
  assert (writes_to bal fint_demo units_d (u "utf-8") units_h = (inl tt, units_h, units_w)) as Hw by (apply returns_keeps; compute_now).
  assert (parses_to (w_out units_w) units_src) as Hp.
  { apply (parsed_ok _ _ (match parse_ns (w_out units_w) with Some x => x | None => XText [] end)); compute_now. }
  exists bal, bal_map, pf_demo, fint_demo, units_h, units_d, units_w, units_src. split; [exact bal_in|]. split; [|split; [exact Hp|compute_now]].
  exact (writes_call _ _ _ _ _ _ _ Hw).
Qed.
Print Assumptions C101_count_refuted.
