(** The order in collections, and what the documents of cimwrite say. *)
From Coq Require Import String ZArith Lia.
From stdpp Require Import prelude gmap.
From Verif Require Import PyStr PyHeap Schema Assoc AssocSpec HeapFacts BlankFacts Names TabCIM14 TabCIM15 TabProfiles Tables TableSpec TableFacts
  Reader ReaderSpec ReaderFacts FrameFacts CreateFacts ReaderTabs CompatFacts ReadSound ReadStepFacts ReadDocFacts ReadDemo PropReader.
From Verif Require Import XmlWriter XmlSpec XmlCalls XmlDocFacts WriteSpec CimWriter WriteFacts WriteDocFacts WriteTables PropWriter.
From Verif Require Import RoundSpec RoundTables RoundDocFacts RoundFacts RoundMain RoundDemo PropRound.
From Verif Require Import DocSpec DocFacts RefFacts DocDemo MemberSpec MemberFacts ExportDocFacts.

(** *** C96 *)
(** The contents of every collection after a read: the members it had before,
    followed by the arrivals that the statements of the document bring, one by
    one in document order. *)
Theorem C96_members t pm base rdf f pf err root evs d h d' h' o q k : (t, pm) ∈ tables → Sound t h → dict_alive d h → foreign_root base evs →
  compatible_doc base rdf t pm evs d h → coherent base rdf t pm evs d h →
  reads base rdf t pm (S (S f)) pf err root evs d h = (None, d', h') →
  pkind t h' o q = Some k → many_kind k = true →
  ∃ ys, members h o q ys ∧
    view h' o (Priv q) = Some (OL (joins base rdf t (class_in base rdf pm evs d h) d' o q (doc_statements base rdf pm evs d) ys)).
Proof.
  intros Ht Hs Hd Hf Hc Hco Hr. exact (reads_members t pm Ht base rdf f pf err root evs d h d' h' Hs Hd Hf Hc Hco Hr o q k).
Qed.
Print Assumptions C96_members.
(** When only single ends are stated, new members are in the order in which they
    are stated first. *)
Definition firsts (vs : list val) : list val := fold_left (λ ys v, if decide (v ∈ ys) then ys else ys ++ [v]) vs [].
Theorem C96_stated t pm base rdf f pf err root evs d h d' h' o q k : (t, pm) ∈ tables → Sound t h → dict_alive d h → foreign_root base evs →
  compatible_doc base rdf t pm evs d h → coherent base rdf t pm evs d h →
  reads base rdf t pm (S (S f)) pf err root evs d h = (None, d', h') →
  pkind t h' o q = Some k → many_kind k = true → cls_of h o = None →
  let arrive := arrival base rdf t (class_in base rdf pm evs d h) d' o q in
  (∀ st m v, st ∈ doc_statements base rdf pm evs d → arrive st = Some (m, v) → m = Stays) →
  view h' o (Priv q) = Some (OL (firsts (omap (λ st, snd <$> arrive st) (doc_statements base rdf pm evs d)))).
Proof.
  intros Ht Hs Hd Hf Hc Hco Hr Hk Hm Hn arrive Hall.
  destruct (C96_members _ _ _ _ _ _ _ _ _ _ _ _ _ o q k Ht Hs Hd Hf Hc Hco Hr Hk Hm) as (ys & Hys & ->). do 2 f_equal.
  unfold members in Hys. rewrite Hn in Hys. subst ys. unfold joins, firsts.
  assert (∀ ys, fold_left (join base rdf t (class_in base rdf pm evs d h) d' o q) (doc_statements base rdf pm evs d) ys =
    fold_left (λ ys v, if decide (v ∈ ys) then ys else ys ++ [v]) (omap (λ st, snd <$> arrive st) (doc_statements base rdf pm evs d)) ys) as H; [|by apply H].
  induction (doc_statements base rdf pm evs d) as [|st sts IH]; intros ys; [done|]. cbn [fold_left omap list_omap]. unfold join at 2. fold arrive.
  assert (∀ st0 m v, st0 ∈ sts → arrive st0 = Some (m, v) → m = Stays) as Hall' by (intros st0 m v Hin; apply Hall; by right).
  destruct (arrive st) as [[m v]|] eqn:E; [|by apply IH]. rewrite (Hall st m v (elem_of_list_here _ _) E). cbn [fmap option_fmap option_map snd fold_left joined].
  by apply IH.
Qed.
Print Assumptions C96_stated.
(** After a round trip the members of every collection are in the order of the
    dictionary. *)
Lemma copies_distinct t pm pf fint h d cim rdf es hr f d' h2 : (t, pm) ∈ tables → Portable t pm pf h d → Writes_all t fint cim h d es →
  (∃ c r, cim = c :: r ∧ c ≠ 35%N) → in_base (u "{" ++ cim ++ u "}") (root_elem rdf) = false → Sound t hr →
  reads (u "{" ++ cim ++ u "}") rdf t pm (S (S f)) pf false (root_elem rdf)
    (flat (u "{" ++ cim ++ u "}") (map (item_of rdf) es) ++ [EEnd (root_elem rdf)]) [] hr = (None, d', h2) →
  ∀ id id' v, assoc id d' = Some v → assoc id' d' = Some v → id = id'.
Proof.
  intros Ht HP Hes Hcim Hroot Hs Hr id id' v Hv Hv'.
  destruct (reads_ready t pm Ht _ _ _ _ _ _ _ _ _ _ _ Hs (dict_alive_nil hr) (doc_foreign cim rdf es Hroot)
    (doc_compatible t pm Ht pf fint h d HP cim rdf es Hes Hcim Hroot hr) (doc_coherent t pm Ht pf fint h d HP cim rdf es Hes Hcim Hroot hr) Hr)
    as (h1 & HC & Hd1 & _).
  assert (∀ i, assoc i d' = Some v → ∃ o, v = VRef o ∧ view h1 o (Pub (u "UUID")) = Some (OV (VStr i))) as H.
  { intros i Hi. destruct (assoc i (reverse (declared (u "{" ++ cim ++ u "}") rdf pm (flat (u "{" ++ cim ++ u "}") (map (item_of rdf) es) ++ [EEnd (root_elem rdf)])))) as [k|] eqn:E.
    - destruct (cr_new _ _ _ _ _ _ HC i k E) as (o & Ho & _ & _ & Hview). rewrite Hi in Ho. injection Ho as ->. exists o. split; [done|]. rewrite Hview.
      change (declared_class (u "{" ++ cim ++ u "}") rdf pm (flat (u "{" ++ cim ++ u "}") (map (item_of rdf) es) ++ [EEnd (root_elem rdf)]) i = Some k) in E.
      apply (doc_class t pm pf fint h d HP cim rdf es Hes Hroot) in E as (o1 & Ho1 & Hk).
      destruct (dict_obj _ _ _ _ _ HP _ _ Ho1) as (? & c & [= <-] & _ & Hc & Hf & Hn & Hu). rewrite Hk in Hc. injection Hc as ->.
      by apply (blank_id _ _ _ _ Ht Hn Hu).
    - rewrite (cr_old _ _ _ _ _ _ HC i E) in Hi. done. }
  destruct (H _ Hv) as (o & -> & E). destruct (H _ Hv') as (? & [= <-] & E'). rewrite E in E'. by injection E'.
Qed.
Lemma NoDup_values (d : dict) : NoDup (map fst d) → (∀ id id' v, assoc id d = Some v → assoc id' d = Some v → id = id') → NoDup (map snd d).
Proof.
  intros Hn Hi. assert (∀ id v, (id, v) ∈ d → assoc id d = Some v) as Ha by (intros; by apply assoc_NoDup).
  assert (∀ id id' v, (id, v) ∈ d → (id', v) ∈ d → id = id') as Hj by (intros ? ? ? ?%Ha ?%Ha; by eapply Hi). clear Hi Ha.
  induction d as [|[id v] d IH]; cbn [map fst snd] in *; [constructor|]. apply NoDup_cons in Hn as [Hni Hn]. constructor.
  - intros ([id' v'] & -> & Hin)%elem_of_list_fmap. cbn [snd] in Hj. assert (id' = id) as -> by (eapply Hj; [by right|by left]).
    apply Hni. apply elem_of_list_fmap. by exists (id, v').
  - apply IH; [done|]. intros i i' w H H'. eapply Hj; by right.
Qed.
Lemma keyed_values (d : dict) (ks : list pystr) : NoDup (map fst d) → ks = map fst d →
  map (λ id, default VNone (assoc id d)) ks = map snd d.
Proof.
  intros Hn ->. rewrite map_map. apply map_ext_in. intros [id v] Hin%elem_of_list_In. cbn [fst snd]. by rewrite (assoc_NoDup _ _ _ Hn Hin).
Qed.
Theorem C96_round t pm t14 t15 pf fint enc h d h' w hr f : (t, pm) ∈ tables → Portable t pm pf h d → Sound t hr → enc_ok enc →
  writes_to t fint d enc h = (inl tt, h', w) →
  ∃ src d' h2, parses_to (w_out w) src ∧
    cimread (S (S f)) pf cim14_uri t14 t15 src (Some (t, pm)) (Some cim15_uri) None hr = (None, d', h2) ∧
    Copies t h d h2 d' ∧
    ∀ id o q k, assoc id d' = Some (VRef o) → pkind t h2 o q = Some k → many_kind k = true →
      ∃ ys, view h2 o (Priv q) = Some (OL ys) ∧ ys `sublist_of` map snd d'.
Proof.
  intros Ht HP Hs He Hw. destruct (C51_document _ _ _ _ _ _ _ _ Ht He Hw) as (es & Hes & Hp).
  specialize (Hp (portable_chars t pm Ht pf fint h d HP cim_ns es Hes cim_ns_chars)).
  destruct (round_reads t pm Ht pf fint h d HP cim_ns rdf_ns es Hes cim_ns_head root_foreign hr f Hs) as (d' & h2 & Hr & Hc & _ & Ha & Hs2).
  exists (doc_source es), d', h2. split; [by eexists|]. split; [by rewrite given_doc|]. split; [done|].
  intros id o q k Ho Hk Hm.
  destruct (C96_members _ _ _ _ _ _ _ _ _ _ _ _ _ o q k Ht Hs (dict_alive_nil hr) (doc_foreign cim_ns rdf_ns es root_foreign)
    (doc_compatible t pm Ht pf fint h d HP cim_ns rdf_ns es Hes cim_ns_head root_foreign hr)
    (doc_coherent t pm Ht pf fint h d HP cim_ns rdf_ns es Hes cim_ns_head root_foreign hr) Hr Hk Hm) as (ys0 & Hys0 & Hv).
  unfold members in Hys0. rewrite (proj2 Ha _ _ Ho) in Hys0. subst ys0. eexists. split; [exact Hv|]. clear Hv.
  rewrite (all_statements t pm pf fint h d HP cim_ns rdf_ns es Hes root_foreign).
  pose proof (entry_ids t pm pf fint h d HP cim_ns es Hes) as Hids. pose proof (cp_keys _ _ _ _ _ Hc) as Hkeys. rewrite <- Hids in Hkeys.
  assert (NoDup (map fst d')) as Hnd by (rewrite Hkeys, Hids; apply HP).
  pose proof (keyed_values d' (map en_id es) Hnd (eq_sym Hkeys)) as Hvals. rewrite map_map in Hvals.
  destruct (joins_order wbase rdf_ns t (class_in wbase rdf_ns pm (wevents es) [] hr) d' o q
    (λ e, map (λ p, (en_id e, pel_elem wbase (pel_of rdf_ns p))) (en_props e)) (λ e, default VNone (assoc (en_id e) d')) es) with (ys := @nil val)
    as (zs & Ez & Hz).
  - intros e Hin [id' el] Hst m v Harr.
    assert (id' = en_id e) as -> by (by apply elem_of_list_fmap in Hst as (p & [= -> ->] & _)).
    destruct (doc_arrival t pm Ht pf fint h d HP cim_ns rdf_ns es Hes cim_ns_head root_foreign hr d' o q (en_id e) el m v) as [H1 H2]; [|exact Harr|].
    { apply elem_of_list_In, in_flat_map. exists e. split; [by apply elem_of_list_In|]. by apply elem_of_list_In. }
    split; [done|]. by rewrite H2.
  - rewrite Hvals. apply NoDup_values; [done|].
    exact (copies_distinct t pm pf fint h d cim_ns rdf_ns es hr f d' h2 Ht HP Hes cim_ns_head root_foreign Hs Hr).
  - by intros e _ ?%elem_of_nil.
  - rewrite Ez. cbn [app]. by rewrite Hvals in Hz.
Qed.
Print Assumptions C96_round.
(** A generating unit that lists its machines in the order opposite to that of
    the document. *)
Definition park_evs : list event :=
  flat Bb [obj "GeneratingUnit" "g1" [ref "GeneratingUnit.SynchronousMachines" "#m2"; ref "GeneratingUnit.SynchronousMachines" "#m1"];
           obj "SynchronousMachine" "m1" [ref "SynchronousMachine.GeneratingUnit" "#g1"];
           obj "SynchronousMachine" "m2" [ref "SynchronousMachine.GeneratingUnit" "#g1"]] ++ [EEnd root].
Definition late_evs : list event :=
  flat Bb [obj "SynchronousMachine" "m2" [ref "SynchronousMachine.GeneratingUnit" "#g1"]; obj "GeneratingUnit" "g1" [];
           obj "SynchronousMachine" "m1" [ref "SynchronousMachine.GeneratingUnit" "#g1"]] ++ [EEnd root].
Example C96_example :
  Sound bal heap_empty ∧ foreign_root Bb park_evs ∧ compatible_doc Bb R bal bal_map park_evs [] heap_empty ∧
  coherent Bb R bal bal_map park_evs [] heap_empty ∧
  (let '(x, d', h') := demo_r park_evs in
   x = None ∧ map fst d' = [u "g1"; u "m1"; u "m2"] ∧ map snd d' = [VRef 0; VRef 1; VRef 2] ∧
   pkind bal h' 0 n_SynchronousMachines = Some (PManyOne n_GeneratingUnit) ∧
   view h' 0 (Priv n_SynchronousMachines) = Some (OL [VRef 2; VRef 1]) ∧
   joins Bb R bal (class_in Bb R bal_map park_evs [] heap_empty) d' 0 n_SynchronousMachines (doc_statements Bb R bal_map park_evs []) [] = [VRef 2; VRef 1]).
Proof.
  split; [apply Sound_empty|]. split; [apply foreign_b_ok; compute_now|]. split; [apply compatible_doc_b_ok; compute_now|].
  split; [apply coherent_b_ok; compute_now|]. vm_compute. by split_and!.
Qed.
Example C96_stated_example :
  foreign_root Bb late_evs ∧ compatible_doc Bb R bal bal_map late_evs [] heap_empty ∧ coherent Bb R bal bal_map late_evs [] heap_empty ∧
  (let '(x, d', h') := demo_r late_evs in
   x = None ∧ map snd d' = [VRef 0; VRef 1; VRef 2] ∧
   map (arrival Bb R bal (class_in Bb R bal_map late_evs [] heap_empty) d' 1 n_SynchronousMachines) (doc_statements Bb R bal_map late_evs []) =
     [Some (Stays, VRef 0); Some (Stays, VRef 2)] ∧
   view h' 1 (Priv n_SynchronousMachines) = Some (OL [VRef 0; VRef 2])).
Proof.
  split; [apply foreign_b_ok; compute_now|]. split; [apply compatible_doc_b_ok; compute_now|].
  split; [apply coherent_b_ok; compute_now|]. vm_compute. by split_and!.
Qed.
Notation park_h := (snd (demo_r park_evs)).
Notation park_d := (snd (fst (demo_r park_evs))).
Notation park_w := (snd (writes_to bal fint_demo park_d (u "utf-8") park_h)).
Notation park_src := (Source (match parse_ns (w_out park_w) with Some x => xevents true x | None => [] end) false).
Example C96_round_example :
  Portable bal bal_map pf_demo park_h park_d ∧ Sound bal heap_empty ∧ enc_ok (u "utf-8") ∧
  fst (fst (writes_to bal fint_demo park_d (u "utf-8") park_h)) = inl tt.
Proof.
  split; [apply demo_portable; compute_now|]. split; [apply Sound_empty|]. split; [right; by left|]. compute_now.
Qed.
Lemma no_swap (d : dict) o o' : value_copy d d (VRef o) (VRef o') → o = o'.
Proof.
  intros H. remember (VRef o) as v. remember (VRef o') as v'. destruct H as [v Hv|a b (id & H1 & H2)|]; simplify_eq; congruence.
Qed.
(** So the order of a collection is not kept by a round trip. *)
Theorem C96_kept_refuted : ∃ t pm pf fint h d w src d' h2 o o' q ys ys', (t, pm) ∈ tables ∧ Portable t pm pf h d ∧
  writes_to t fint d (u "utf-8") h = (inl tt, h, w) ∧ parses_to (w_out w) src ∧
  cimread 20 pf cim14_uri (cim14, cim14_map) (cim15, cim15_map) src (Some (t, pm)) (Some cim15_uri) None heap_empty = (None, d', h2) ∧
  copy_of d d' o o' ∧ view h o (Priv q) = Some (OL ys) ∧ view h2 o' (Priv q) = Some (OL ys') ∧ ¬ Forall2 (value_copy d d') ys ys'.
Proof.
  destruct C96_round_example as (HP & _ & _ & Hw). apply returns_keeps in Hw.
  assert (parses_to (w_out park_w) park_src) as Hp.
  { apply (parsed_ok _ _ (match parse_ns (w_out park_w) with Some x => x | None => XText [] end)); compute_now. }
  pose proof (triple_eq (cimread 20 pf_demo cim14_uri (cim14, cim14_map) (cim15, cim15_map) park_src (Some (bal, bal_map)) (Some cim15_uri) None heap_empty)
    None park_d) as Hr.
  eexists bal, bal_map, pf_demo, fint_demo, park_h, park_d, park_w, park_src, park_d, _, 0%nat, 0%nat, n_SynchronousMachines, [VRef 2; VRef 1], [VRef 1; VRef 2].
  split; [exact bal_in|]. split; [exact HP|]. split; [exact Hw|]. split; [exact Hp|]. split; [apply Hr; compute_now|].
  split; [exists (u "g1"); split; compute_now|]. split; [compute_now|]. split; [compute_now|].
  intros [Ha _]%Forall2_cons_1. by apply no_swap in Ha.
Qed.
Print Assumptions C96_kept_refuted.

(** *** C97 *)
(** What cimwrite writes is a document that the theorems about reading apply to:
    compatible, not contradicting itself, about nothing but the objects it
    describes, which can be made. *)
Theorem C97_coherent t pm pf fint enc h d h' w hr : (t, pm) ∈ tables → Portable t pm pf h d → enc_ok enc →
  writes_to t fint d enc h = (inl tt, h', w) →
  ∃ items, parses_to (w_out w) (Source (map (λ p, ENs p.1 p.2) cim_decls ++ EStart (root_elem rdf_ns) :: flat wbase items ++ [EEnd (root_elem rdf_ns)]) false) ∧
    let evs := flat wbase items ++ [EEnd (root_elem rdf_ns)] in
    foreign_root wbase evs ∧ compatible_doc wbase rdf_ns t pm evs [] hr ∧ coherent wbase rdf_ns t pm evs [] hr ∧
    self_contained wbase rdf_ns pm evs [] ∧ attributes_plain wbase rdf_ns t pm evs [] ∧ instantiable wbase rdf_ns pm evs ∧
    (* its objects are those of the dictionary *)
    (∀ id k, declared_class wbase rdf_ns pm evs id = Some k ↔ ∃ o, assoc id d = Some (VRef o) ∧ cls_of h o = Some k) ∧
    (* and what it says of them is what they refer to *)
    (∀ x p y, doc_says wbase rdf_ns t pm evs [] hr x p y ↔ ∃ o o' k, assoc x d = Some (VRef o) ∧ assoc y d = Some (VRef o') ∧
      pkind t h o p = Some k ∧ single_kind k = true ∧ view h o (Priv p) = Some (OV (VRef o'))) ∧
    (∀ x p y, ¬ doc_says_many wbase rdf_ns t pm evs [] hr x p y).
Proof.
  intros Ht HP He Hw. destruct (C51_document _ _ _ _ _ _ _ _ Ht He Hw) as (es & Hes & Hp).
  specialize (Hp (portable_chars t pm Ht pf fint h d HP cim_ns es Hes cim_ns_chars)).
  exists (map (item_of rdf_ns) es). split; [eexists; split; [exact Hp|by rewrite doc_events]|]. cbv zeta.
  split; [exact (doc_foreign cim_ns rdf_ns es root_foreign)|].
  split; [exact (doc_compatible t pm Ht pf fint h d HP cim_ns rdf_ns es Hes cim_ns_head root_foreign hr)|].
  split; [exact (doc_coherent t pm Ht pf fint h d HP cim_ns rdf_ns es Hes cim_ns_head root_foreign hr)|].
  split; [exact (doc_self_contained t pm Ht pf fint h d HP cim_ns rdf_ns es Hes root_foreign)|].
  split; [exact (doc_attributes_plain t pm Ht pf fint h d HP cim_ns rdf_ns es Hes cim_ns_head root_foreign)|].
  split; [exact (doc_instantiable t pm pf fint h d HP cim_ns rdf_ns es Hes root_foreign)|].
  split; [exact (doc_class t pm pf fint h d HP cim_ns rdf_ns es Hes root_foreign)|].
  unfold doc_says, doc_says_many. rewrite (all_statements t pm pf fint h d HP cim_ns rdf_ns es Hes root_foreign). split.
  - intros x p y. split.
    + intros H. destruct (says_view t pm Ht pf fint h d HP cim_ns rdf_ns es Hes cim_ns_head root_foreign hr x p y H) as (o & o' & ck & k & Ho & Hc & Ho' & Hl & Hk & Hv).
      exists o, o', k. split_and!; try done. unfold pkind. by rewrite Hc.
    + intros (o & o' & k & Ho & Ho' & Hl & Hk & Hv). unfold pkind in Hl. destruct (cls_of h o) as [ck|] eqn:Ec; [|done].
      exact (view_says t pm Ht pf fint h d HP cim_ns rdf_ns es Hes root_foreign hr x p y o o' ck k Ho Ec Ho' Hl Hk Hv).
  - exact (says_no_many t pm Ht pf fint h d HP cim_ns rdf_ns es Hes cim_ns_head root_foreign hr).
Qed.
Print Assumptions C97_coherent.
Example C97_example :
  Portable bal bal_map pf_demo park_h park_d ∧ enc_ok (u "utf-8") ∧ fst (fst (writes_to bal fint_demo park_d (u "utf-8") park_h)) = inl tt ∧
  assoc (u "m1") park_d = Some (VRef 1) ∧ pkind bal park_h 1 n_GeneratingUnit = Some (POneMany n_SynchronousMachines) ∧
  view park_h 1 (Priv n_GeneratingUnit) = Some (OV (VRef 0)).
Proof.
  split; [apply C96_round_example|]. split; [right; by left|]. split; [compute_now|]. split; [compute_now|]. split; compute_now.
Qed.
