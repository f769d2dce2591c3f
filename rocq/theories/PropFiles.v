(** A model exported in several files. *)
From Coq Require Import String ZArith Lia.
From stdpp Require Import prelude gmap.
From Verif Require Import PyStr PyHeap Schema Assoc AssocSpec HeapFacts BlankFacts Names TabCIM14 TabCIM15 TabProfiles Tables TableSpec TableFacts
  Reader ReaderSpec ReaderFacts CreateFacts ReaderTabs ReadSound ReadStepFacts ReadDocFacts ReadDemo PropReader.
From Verif Require Import XmlWriter XmlSpec XmlCalls XmlDocFacts WriteSpec CimWriter WriteFacts WriteDocFacts WriteTables PropWriter.
From Verif Require Import RoundSpec RoundTables RoundDocFacts RoundFacts RoundMain RoundDemo PropRound FilesSpec FilesFacts.

Lemma files_docs t pm pf fint enc h ds ws : (t, pm) ∈ tables → Portable t pm pf h (concat ds) → enc_ok enc →
  Forall2 (λ d w, ∃ h', writes_to t fint d enc h = (inl tt, h', w)) ds ws →
  ∃ ess, Forall2 (Writes_all t fint cim_ns h) ds ess ∧ Forall2 (λ w es, parses_to (w_out w) (doc_source es)) ws ess.
Proof.
  intros Ht HP He Hw. assert (∀ d, d ∈ ds → Portable t pm pf h d) as Hsub.
  { intros d Hd. eapply Portable_sub; [exact HP| |].
    - pose proof (po_keys _ _ _ _ _ HP) as Hn. clear -Hn Hd. induction ds as [|d0 l IH]; [by apply elem_of_nil in Hd|].
      cbn [concat] in Hn. rewrite map_app in Hn. apply NoDup_app in Hn as (H1 & _ & H2). apply elem_of_cons in Hd as [->|Hd]; [done|by apply IH].
    - intros x Hx. apply elem_of_list_In, in_concat. exists d. by rewrite <- !elem_of_list_In. }
  clear HP. induction Hw as [|d w ds ws (h' & Hw) _ IH]; [exists []; by split; constructor|].
  destruct IH as (ess & H1 & H2); [intros d0 Hd0; apply Hsub; by right|].
  destruct (C51_document _ _ _ _ _ _ _ _ Ht He Hw) as (es & Hes & Hp).
  specialize (Hp (portable_chars t pm Ht pf fint h d (Hsub d (elem_of_list_here _ _)) cim_ns es Hes cim_ns_chars)).
  exists (es :: ess). split; constructor; try done. by eexists.
Qed.
Lemma reads_files_map {A B} (g : A → B) (r1 : A → dict → heap → res) (r2 : B → dict → heap → res) l : (∀ a d h, r2 (g a) d h = r1 a d h) →
  ∀ d h d' h', reads_files r1 l d h d' h' → reads_files r2 (map g l) d h d' h'.
Proof.
  intros Hg d h d' h'. induction 1 as [|a l d h d1 h1 d2 h2 H1 _ IH]; [constructor|]. cbn [map]. eapply rf_cons; [|exact IH]. by rewrite Hg.
Qed.

(** *** C98 *)
(** The objects of a model are dealt out to several dictionaries, each is
    exported, and the files are read one after the other into one dictionary:
    the model is back, provided that the files are in an order in which
    references lead to the same file or an earlier one. *)
Theorem C98_files t pm t14 t15 pf fint enc h ds ws hr f : (t, pm) ∈ tables → Portable t pm pf h (concat ds) → enc_ok enc →
  stackable t h ds → only_ends t h (concat ds) → Sound t hr →
  Forall2 (λ d w, ∃ h', writes_to t fint d enc h = (inl tt, h', w)) ds ws →
  ∃ srcs d' h2, Forall2 (λ w src, parses_to (w_out w) src) ws srcs ∧
    reads_files (λ src d, cimread (S (S f)) pf cim14_uri t14 t15 src (Some (t, pm)) (Some cim15_uri) (Some d)) srcs [] hr d' h2 ∧
    Restored t h (concat ds) h2 d' ∧ Sound t h2.
Proof.
  intros Ht HP He Hst Hen Hs Hw. destruct (files_docs t pm pf fint enc h ds ws Ht HP He Hw) as (ess & Hes & Hp).
  destruct (files_read t pm Ht pf fint h ds HP cim_ns rdf_ns ess Hes cim_ns_head root_foreign Hst Hen hr f Hs) as (d' & h2 & Hr & HR & Hs2).
  exists (map doc_source ess), d', h2. split_and!; [| |done..].
  - apply Forall2_fmap_r. exact Hp.
  - eapply reads_files_map; [|exact Hr]. intros es d h0. by rewrite given_doc.
Qed.
Print Assumptions C98_files.
(** The same without arguments for the package map, with the classes of CIM15. *)
Theorem C98_default pf fint enc h ds ws hr f : Portable cim15 cim15_map pf h (concat ds) → enc_ok enc →
  stackable cim15 h ds → only_ends cim15 h (concat ds) → Sound cim15 hr →
  Forall2 (λ d w, ∃ h', writes_to cim15 fint d enc h = (inl tt, h', w)) ds ws →
  ∃ srcs d' h2, Forall2 (λ w src, parses_to (w_out w) src) ws srcs ∧
    reads_files (λ src d, cimread (S (S f)) pf cim14_uri (cim14, cim14_map) (cim15, cim15_map) src None None (Some d)) srcs [] hr d' h2 ∧
    Restored cim15 h (concat ds) h2 d' ∧ Sound cim15 h2.
Proof.
  intros HP He Hst Hen Hs Hw. destruct (files_docs _ _ pf fint enc h ds ws cim15_in HP He Hw) as (ess & Hes & Hp).
  destruct (files_read _ _ cim15_in pf fint h ds HP cim_ns rdf_ns ess Hes cim_ns_head root_foreign Hst Hen hr f Hs) as (d' & h2 & Hr & HR & Hs2).
  exists (map doc_source ess), d', h2. split; [|split; [|split; [exact HR|exact Hs2]]].
  - apply Forall2_fmap_r. exact Hp.
  - eapply reads_files_map; [|exact Hr]. intros es d h0. by rewrite default_doc.
Qed.
Print Assumptions C98_default.

(** Checkers for the examples. *)
Section checks.
Context (T : schema) (h : heap).
Definition lists_b (d : dict) (x : nat) : bool := existsb (λ kv, bool_decide (kv.2 = VRef x)) d.
Lemma lists_b_ok d x : lists_b d x = true ↔ lists d x.
Proof.
  unfold lists_b, lists. rewrite existsb_exists. split.
  - intros ([id v] & Hin%elem_of_list_In & Hv%bool_decide_eq_true). cbn [snd] in Hv. subst v. by exists id.
  - intros [id Hin%elem_of_list_In]. exists (id, VRef x). split; [done|]. by apply bool_decide_eq_true.
Qed.
Definition end_ok (all before d : dict) (o : nat) (p : name) : bool :=
  match view h o (Priv p) with
  | Some (OV (VRef x)) =>
      if lists_b all x then match pkind T h o p with Some (POneMany _) => lists_b before x | Some (POneOne _) => lists_b d x | _ => true end else true
  | _ => true
  end.
Definition props_of (o : nat) : list name :=
  match cls_of h o with Some ck => flat_map (λ c, map fst (c_props c)) (mro T ck) | None => [] end.
Definition part_ok (all before d : dict) : bool :=
  forallb (λ kv, match kv.2 with VRef o => forallb (end_ok all before d o) (props_of o) | _ => true end) d.
Fixpoint stack_b (all before : dict) (ds : list dict) : bool :=
  match ds with [] => true | d :: r => part_ok all (before ++ d) d && stack_b all (before ++ d) r end.
Lemma pkind_props o p k : pkind T h o p = Some k → p ∈ props_of o.
Proof.
  unfold pkind, props_of. destruct (cls_of h o) as [ck|]; [|done]. cbn [mbind option_bind].
  intros (c & Hc & Hp)%lookup_in_props. apply elem_of_list_In, in_flat_map. exists c. rewrite <- !elem_of_list_In. split; [done|].
  apply elem_of_list_fmap. by exists (p, k).
Qed.
Lemma stack_b_ok all ds : ∀ before, stack_b all before ds = true → ∀ l d r o p k x, ds = l ++ d :: r → lists d o →
  pkind T h o p = Some k → view h o (Priv p) = Some (OV (VRef x)) → lists all x →
  match k with POneMany _ => lists (before ++ concat (l ++ [d])) x | POneOne _ => lists d x | _ => True end.
Proof.
  induction ds as [|d0 ds IH]; intros before Hb l d r o p k x E Ho Hk Hv Hx; [by destruct l|].
  cbn [stack_b] in Hb. apply andb_true_iff in Hb as [H1 H2]. destruct l as [|d1 l].
  - injection E as -> ->. destruct Ho as [id Ho]. unfold part_ok in H1. rewrite forallb_forall in H1.
    specialize (H1 _ (proj1 (elem_of_list_In _ _) Ho)). cbn [snd] in H1. rewrite forallb_forall in H1.
    specialize (H1 p (proj1 (elem_of_list_In _ _) (pkind_props _ _ _ Hk))). unfold end_ok in H1. rewrite Hv, Hk in H1.
    apply lists_b_ok in Hx. rewrite Hx in H1. cbn [app concat]. rewrite app_nil_r. destruct k; try done; by apply lists_b_ok.
  - injection E as -> ->. specialize (IH _ H2 l d r o p k x eq_refl Ho Hk Hv Hx). cbn [app concat]. by rewrite <- app_assoc in IH.
Qed.
Lemma stackable_b_ok ds : stack_b (concat ds) [] ds = true → stackable T h ds.
Proof. intros Hb l d r o p k x. exact (stack_b_ok (concat ds) ds [] Hb l d r o p k x). Qed.
Definition ends_b (d : dict) : bool :=
  forallb (λ kv, match kv.2 with
    | VRef o => match cls_of h o with
      | Some ck => forallb (λ c, forallb (λ p, match lookup_prop T ck p with
          | Some (POneMany _ | POneOne _ | PAlias _ _) => true
          | _ => existsb (str_eqb p) (c_many c) || match see T h o p with Some (VRef _) => false | _ => true end
          end) (c_refs c)) (mro T ck)
      | None => true
      end
    | _ => true
    end) d.
Lemma ends_b_ok d : ends_b d = true → only_ends T h d.
Proof.
  intros Hb o ck c p x [id Ho] Hc Hcm Hp Hm Hx _. unfold ends_b in Hb. rewrite forallb_forall in Hb.
  specialize (Hb _ (proj1 (elem_of_list_In _ _) Ho)). cbn [snd] in Hb. rewrite Hc in Hb. rewrite forallb_forall in Hb.
  specialize (Hb _ (proj1 (elem_of_list_In _ _) Hcm)). rewrite forallb_forall in Hb. specialize (Hb _ (proj1 (elem_of_list_In _ _) Hp)).
  apply see_ok in Hx. rewrite Hx, orb_false_r in Hb. destruct (lookup_prop T ck p) as [[]|]; try done; by apply ReaderFacts.existsb_str in Hb.
Qed.
End checks.
(** The generating unit and its machine, each in a file of its own. *)
Notation unit_d := (take 1 (snd (fst (demo_r plant_evs)))).
Notation machine_d := (drop 1 (snd (fst (demo_r plant_evs)))).
Notation plant_h := (snd (demo_r plant_evs)).
Example C98_example :
  Portable bal bal_map pf_demo plant_h (concat [unit_d; machine_d]) ∧ stackable bal plant_h [unit_d; machine_d] ∧
  only_ends bal plant_h (concat [unit_d; machine_d]) ∧ Sound bal heap_empty ∧
  map (map fst) [unit_d; machine_d] = [[u "g1"]; [u "m1"]] ∧
  view plant_h 1 (Priv n_GeneratingUnit) = Some (OV (VRef 0)) ∧
  Forall (λ d, fst (fst (writes_to bal fint_demo d (u "utf-8") plant_h)) = inl tt) [unit_d; machine_d].
Proof.
  assert (concat [unit_d; machine_d] = snd (fst (demo_r plant_evs))) as E by compute_now. rewrite E.
  split; [apply demo_portable; compute_now|]. split; [apply stackable_b_ok; compute_now|]. split; [apply ends_b_ok; compute_now|].
  split; [apply Sound_empty|]. split; [compute_now|]. split; [compute_now|].
  constructor; [compute_now|]. constructor; [compute_now|constructor].
Qed.
(** A connectivity node in the first file and its terminal in the second. *)
Notation node_d := (drop 1 (snd (fst node_r))).
Notation terminal_d := (take 1 (snd (fst node_r))).
Notation node_h := (snd node_r).
Lemma node_sound r : reads B15 R cim15 cim15_map 20 pf_demo false root node_evs [] heap_empty = r → fst (fst r) = None → Sound cim15 (snd r).
Proof.
  intros E. destruct r as [[x d'] h']. cbn [fst snd]. intros ->.
  refine (reads_sound cim15 cim15_map cim15_in B15 R 18 pf_demo false root node_evs [] heap_empty None d' h' (Sound_empty _) (dict_alive_nil _) _ _ E _).
  - apply foreign_b_ok. compute_now.
  - apply compatible_doc_b_ok. compute_now.
  - done.
Qed.
Example C98_default_example :
  Portable cim15 cim15_map pf_demo node_h (concat [node_d; terminal_d]) ∧ stackable cim15 node_h [node_d; terminal_d] ∧
  only_ends cim15 node_h (concat [node_d; terminal_d]) ∧ Sound cim15 heap_empty ∧
  map (map fst) [node_d; terminal_d] = [[u "n1"]; [u "t1"]] ∧
  Forall (λ d, fst (fst (writes_to cim15 fint_demo d (u "utf-8") node_h)) = inl tt) [node_d; terminal_d].
Proof.
  split; [apply portable_b_ok; [apply (node_sound node_r eq_refl)|]; compute_now|].
  split; [apply stackable_b_ok; compute_now|]. split; [apply ends_b_ok; compute_now|]. split; [apply Sound_empty|]. split; [compute_now|].
  constructor; [compute_now|]. constructor; [compute_now|constructor].
Qed.
(** The order of the files matters: when the machine is read before its unit, its
    reference is lost. *)
Lemma demo_made evs : foreign_b Bb evs = true → compatible_doc_b Bb R bal bal_map evs [] heap_empty = true →
  fst (fst (demo_r evs)) = None → Sound bal (snd (demo_r evs)).
Proof. intros Hf Hc. destruct (demo_r evs) as [[x d'] h'] eqn:E. cbn [fst snd]. intros ->. by eapply demo_sound. Qed.
Lemma two_files {A} (r : A → dict → heap → res) a b d h : fst (fst (r a d h)) = None → fst (fst (r b (snd (fst (r a d h))) (snd (r a d h)))) = None →
  reads_files r [a; b] d h (snd (fst (r b (snd (fst (r a d h))) (snd (r a d h))))) (snd (r b (snd (fst (r a d h))) (snd (r a d h)))).
Proof.
  intros H1 H2. eapply rf_cons; [by apply triple_eq|]. eapply rf_cons; [by apply triple_eq|]. constructor.
Qed.
Definition file_of (d : dict) : source :=
  Source (match parse_ns (w_out (snd (writes_to bal fint_demo d (u "utf-8") plant_h))) with Some x => xevents true x | None => [] end) false.
Lemma file_parses d : match parse_ns (w_out (snd (writes_to bal fint_demo d (u "utf-8") plant_h))) with Some _ => true | None => false end = true →
  parses_to (w_out (snd (writes_to bal fint_demo d (u "utf-8") plant_h))) (file_of d).
Proof. unfold file_of. intros H. destruct (parse_ns _) as [x|] eqn:E; [|done]. by exists x. Qed.
Notation read_file src d h := (cimread 20 pf_demo cim14_uri (cim14, cim14_map) (cim15, cim15_map) src (Some (bal, bal_map)) (Some cim15_uri) (Some d) h).
Notation first_r := (read_file (file_of machine_d) [] heap_empty).
Notation second_r := (read_file (file_of unit_d) (snd (fst first_r)) (snd first_r)).
Theorem C98_any_order_refuted : ∃ t pm pf fint h d1 d2 w1 w2 src1 src2 d' h2 o o' p x, (t, pm) ∈ tables ∧ Portable t pm pf h (d1 ++ d2) ∧ only_ends t h (d1 ++ d2) ∧
  writes_to t fint d1 (u "utf-8") h = (inl tt, h, w1) ∧ writes_to t fint d2 (u "utf-8") h = (inl tt, h, w2) ∧
  parses_to (w_out w1) src1 ∧ parses_to (w_out w2) src2 ∧
  reads_files (λ src d h, cimread 20 pf cim14_uri (cim14, cim14_map) (cim15, cim15_map) src (Some (t, pm)) (Some cim15_uri) (Some d) h) [src1; src2] [] heap_empty d' h2 ∧
  copy_of (d1 ++ d2) d' o o' ∧ lists (d1 ++ d2) x ∧ view h o (Priv p) = Some (OV (VRef x)) ∧ view h2 o' (Priv p) = Some (OV VNone).
Proof.
  assert (writes_to bal fint_demo machine_d (u "utf-8") plant_h = (inl tt, plant_h, snd (writes_to bal fint_demo machine_d (u "utf-8") plant_h))) as H1
    by (apply returns_keeps; compute_now).
  assert (writes_to bal fint_demo unit_d (u "utf-8") plant_h = (inl tt, plant_h, snd (writes_to bal fint_demo unit_d (u "utf-8") plant_h))) as H2
    by (apply returns_keeps; compute_now).
  exists bal, bal_map, pf_demo, fint_demo, plant_h, machine_d, unit_d, (snd (writes_to bal fint_demo machine_d (u "utf-8") plant_h)),
    (snd (writes_to bal fint_demo unit_d (u "utf-8") plant_h)), (file_of machine_d), (file_of unit_d), (snd (fst second_r)), (snd second_r), 1%nat, 0%nat, n_GeneratingUnit, 0%nat.
  split; [exact bal_in|].
  split; [apply portable_b_ok; [|compute_now]|].
  { apply demo_made; compute_now. }
  split; [apply ends_b_ok; compute_now|]. split; [exact H1|]. split; [exact H2|].
  split; [apply file_parses; compute_now|]. split; [apply file_parses; compute_now|].
  split; [apply (two_files (λ src d h, read_file src d h)); compute_now|].
  split; [exists (u "m1"); split; compute_now|]. split; [apply lists_b_ok; compute_now|]. split; compute_now.
Qed.
Print Assumptions C98_any_order_refuted.
