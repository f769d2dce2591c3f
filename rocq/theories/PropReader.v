(** Properties C22-C41: the reader. *)
From Coq Require Import String.
From stdpp Require Import prelude gmap.
From Verif Require Import PyStr PyHeap Schema Assoc AssocSpec HeapFacts AssocFacts CtorFacts BlankFacts History HistorySpec HistoryFacts
  Names TabCIM14 TabCIM15 TabProfiles Tables TableSpec TableFacts Reader ReaderSpec ReaderFacts RegionFacts FrameFacts CreateFacts
  ReaderTabs StatementFacts CompatFacts ReadSound NumFacts ReadStepFacts ReadDocFacts ReadDemo.

Ltac compute_now := vm_compute; reflexivity.

(** Positions of example documents. *)
Definition reach (S : schema) (pm : list (name * name)) (base : pystr) (n : nat) (evs : list event) (d : dict) (h : heap) :
    option (option val * dict * heap) :=
  match pass1 S pm 20 base R false evs false d h with
  | (None, d', h1) =>
      match run2 base R S 20 pf_demo d' (take n evs) None h1 with (inl cur, hk) => Some (cur, d', hk) | _ => None end
  | _ => None
  end.
Lemma reach_ex S pm base n evs d h (P : option val → dict → heap → bool) :
  match reach S pm base n evs d h with Some (cur, d', hk) => P cur d' hk | None => false end = true →
  ∃ cur d' hk, Reaches base R S pm 20 pf_demo false root (take n evs) (drop n evs) d h cur d' hk ∧ P cur d' hk = true.
Proof.
  unfold reach. destruct (pass1 _ _ _ _ _ _ _ _ _ _) as [[[x|] d'] h1] eqn:E1; [done|].
  destruct (run2 _ _ _ _ _ _ _ _ _) as [[cur|x] hk] eqn:E2; [|done]. intros HP. exists cur, d', hk. split; [|done].
  exists h1. rewrite take_drop. done.
Qed.
Definition view_is (h : heap) (o : nat) (k : key) (w : ov) : bool := bool_decide (view h o k = Some w).
Lemma view_is_ok h o k w : view_is h o k w = true → view h o k = Some w.
Proof. apply bool_decide_eq_true. Qed.

(** *** C22 *)
Definition nonempty_map (pm : option (schema * list (name * name))) : Prop :=
  ∃ t m, pm = Some (t, m) ∧ m ≠ [].
Definition nonempty_ns (ns : option pystr) : Prop := ∃ s, ns = Some s ∧ s ≠ [].
Theorem C22_both_or_neither fuel pf uri14 t14 t15 src pm ns sd h m :
  xmlns src = inl m → (nonempty_map pm ∧ ¬ nonempty_ns ns ∨ ¬ nonempty_map pm ∧ nonempty_ns ns) →
  cimread fuel pf uri14 t14 t15 src pm ns sd h = (Some ValueError, default [] sd, h).
Proof.
  intros Hx Hne. unfold cimread. rewrite Hx.
  assert (∀ p, match p with Some (_, _ :: _) => true | _ => false end = true ↔ nonempty_map p) as Hp.
  { intros [[t [|x r]]|]; (split; [|]).
    - done.
    - intros (t' & m' & E & Hm). injection E as -> <-. done.
    - intros _. exists t, (x :: r). done.
    - done.
    - done.
    - by intros (? & ? & ? & _). }
  assert (∀ n, match n with Some (_ :: _) => true | _ => false end = true ↔ nonempty_ns n) as Hn.
  { intros [[|c r]|]; (split; [|]).
    - done.
    - intros (s & E & Hs). injection E as <-. done.
    - intros _. exists (c :: r). done.
    - done.
    - done.
    - by intros (? & ? & _). }
  specialize (Hp pm). specialize (Hn ns).
  destruct pm as [[t [|x r]]|], ns as [[|c s]|]; try reflexivity; exfalso;
    (destruct Hne as [[H1 H2]|[H1 H2]];
     [first [by apply Hp in H1|by apply H2, Hn]|first [by apply Hn in H2|by apply H1, Hp]]).
Qed.
Print Assumptions C22_both_or_neither.
(** A package map without a namespace. *)
Example C22_example : xmlns (Source [EStart root; EEnd root] false) = inl [] ∧ nonempty_map (Some (topo, topo_map)) ∧ ¬ nonempty_ns None.
Proof. split_and!; [done|do 2 eexists; done|by intros (? & ? & _)]. Qed.

(** *** C41 *)
Theorem C41_prefixes src m p : xmlns src = inl m → assoc p m = assoc p (reverse (decls (s_events src))).
Proof.
  intros H. rewrite (xmlns_from_assoc _ _ [] m H p). by destruct (assoc p (reverse (decls (s_events src)))).
Qed.
Print Assumptions C41_prefixes.
Theorem C41_errors src x : xmlns src = inr x ↔ x = ParseError ∧ s_error src = true ∧ ∀ e, EEnd e ∉ s_events src.
Proof.
  destruct src as [evs err]. unfold xmlns. cbn [s_events s_error]. generalize (@nil (pystr * pystr)).
  induction evs as [|[e|e|p v] evs IH]; intros m; cbn [xmlns_from].
  - destruct err; [|by split; [|intros (_ & ? & _)]]. split; [intros [= <-]; split_and!; [done..|]; intros e; apply not_elem_of_nil|by intros (-> & _)].
  - rewrite IH. split; intros (? & ? & H); split_and!; try done; intros e'; specialize (H e'); set_solver.
  - split; [done|]. intros (_ & _ & H). destruct (H e). left.
  - rewrite IH. split; intros (? & ? & H); split_and!; try done; intros e'; specialize (H e'); set_solver.
Qed.
Print Assumptions C41_errors.
(** The second declaration of prefix a counts, the one after the first closed
    element does not. *)
Example C41_example :
  let src := Source [ENs (u "a") (u "x"); EStart root; ENs (u "a") (u "y"); EStart root; EEnd root; ENs (u "b") (u "z"); EEnd root] false in
  xmlns src = inl [(u "a", u "y")] ∧ reverse (decls (s_events src)) = [(u "a", u "y"); (u "a", u "x")].
Proof. done. Qed.

(** *** C23 *)
Definition detects14 (m : list (pystr * pystr)) : Prop :=
  ∃ ns, assoc (u "cim") m = Some ns ∧ with_hash ns = cim14_uri ++ u "#".
Definition detected_ns (m : list (pystr * pystr)) : pystr := with_hash (default [] (assoc (u "cim") m)).
Definition rdf_ns (m : list (pystr * pystr)) : pystr :=
  default (u "http://www.w3.org/1999/02/22-rdf-syntax-ns#") (assoc (u "rdf") m).
Lemma strip_with_hash s : strip_hash s ++ u "#" = with_hash s.
Proof.
  unfold strip_hash, with_hash. destruct (reverse s) as [|c r] eqn:E.
  - apply (f_equal reverse) in E. rewrite reverse_involutive in E. subst. done.
  - assert (s = reverse r ++ [c]) as ->. { apply (f_equal reverse) in E. by rewrite reverse_involutive, reverse_cons in E. }
    rewrite last_snoc. destruct (N.eq_dec c 35) as [->|Hn].
    + rewrite bool_decide_eq_true_2 by done. done.
    + rewrite bool_decide_eq_false_2 by congruence.
      destruct c as [|c]; [done|]. do 6 (destruct c as [c|c|]; try done).
Qed.
Lemma hash_inj (a b : pystr) : a ++ u "#" = b ++ u "#" ↔ a = b.
Proof. split; [apply (inj (λ x, x ++ u "#"))|by intros ->]. Qed.
Lemma cim_detect m : get_cim_ns cim14_uri m =
  (strip_hash (default [] (assoc (u "cim") m)), str_eqb (strip_hash (default [] (assoc (u "cim") m))) cim14_uri).
Proof. unfold get_cim_ns. by destruct (assoc (u "cim") m). Qed.
Theorem C23_cim14 fuel pf src sd h m : xmlns src = inl m → detects14 m →
  cimread fuel pf cim14_uri (cim14, cim14_map) (cim15, cim15_map) src None None sd h =
  read cim14 cim14_map fuel pf (u "{" ++ cim14_uri ++ u "#}") (rdf_ns m) src (default [] sd) h.
Proof.
  intros Hx (ns & Hns & Hh). unfold cimread. rewrite Hx. cbv beta iota zeta. cbn [Bool.eqb negb].
  rewrite <- strip_with_hash in Hh. apply (proj1 (hash_inj _ _)) in Hh.
  rewrite cim_detect, Hns. cbv beta iota zeta delta [default from_option id]. rewrite Hh, str_eqb_refl. done.
Qed.
Print Assumptions C23_cim14.
Theorem C23_cim15 fuel pf src sd h m : xmlns src = inl m → ¬ detects14 m →
  cimread fuel pf cim14_uri (cim14, cim14_map) (cim15, cim15_map) src None None sd h =
  read cim15 cim15_map fuel pf (u "{" ++ detected_ns m ++ u "}") (rdf_ns m) src (default [] sd) h.
Proof.
  intros Hx Hn. unfold cimread. rewrite Hx. cbv beta iota zeta. cbn [Bool.eqb negb].
  rewrite cim_detect. unfold detected_ns. rewrite <- strip_with_hash.
  destruct (str_eqb (strip_hash (default [] (assoc (u "cim") m))) cim14_uri) eqn:E.
  - apply str_eqb_eq in E. destruct Hn. destruct (assoc (u "cim") m) as [ns|] eqn:Ens.
    + exists ns. split; [done|]. rewrite <- strip_with_hash. change (strip_hash ns = cim14_uri) in E. by rewrite E.
    + exfalso. revert E. clear. by vm_compute.
  - rewrite <- (assoc_L (++)). done.
Qed.
Print Assumptions C23_cim15.
(** With explicit arguments. *)
Theorem C23_given fuel pf src sd h m t pm ns t14 t15 : xmlns src = inl m → pm ≠ [] → ns ≠ [] →
  cimread fuel pf cim14_uri t14 t15 src (Some (t, pm)) (Some ns) sd h =
  read t pm fuel pf (u "{" ++ ns ++ u "#}") (rdf_ns m) src (default [] sd) h.
Proof. intros Hx Hp Hns. unfold cimread. rewrite Hx. destruct pm; [done|]. by destruct ns. Qed.
Print Assumptions C23_given.
(** The namespace of CIM14 with and without the hash; that of CIM16. *)
Example C23_example :
  detects14 [(u "cim", cim14_uri)] ∧ detects14 [(u "cim", cim14_uri ++ u "#")] ∧
  ¬ detects14 [(u "cim", u "http://iec.ch/TC57/2013/CIM-schema-cim16#")] ∧ ¬ detects14 [] ∧ detected_ns [] = u "#".
Proof.
  split_and!.
  - eexists. split; [done|]. compute_now.
  - eexists. split; [done|]. compute_now.
  - intros (ns & [= <-] & H). revert H. by vm_compute.
  - by intros (ns & ? & _).
  - done.
Qed.

(** *** C24 *)
Theorem C24_keys t pm base rdf f pf err root evs d h d' h' : (t, pm) ∈ tables → Wf h → foreign_root base evs →
  reads base rdf t pm (S f) pf err root evs d h = (None, d', h') →
  map fst d' = add_keys (map fst d) (map fst (declared base rdf pm evs)) ∧
  ∀ id, id ∈ map fst d' ↔ id ∈ map fst d ∨ id ∈ map fst (declared base rdf pm evs).
Proof.
  intros Ht Hwf Hf. rewrite read_unfold. destruct (pass1 _ _ _ _ _ _ _ _ _ _) as [[[x|] d1] h1] eqn:E; [done|].
  destruct (pass2 _ _ _ _ _ _ _ _ _ _) as [x h2]. intros [= -> -> ->].
  pose proof (cr_keys _ _ _ _ _ _ (pass1_created t pm base rdf f err evs (tables_makes t pm Ht) Hf false d h d' h1 Hwf E)) as Hk.
  split; [exact Hk|]. clear -Hk. intros id. rewrite Hk. clear Hk. generalize (map fst d). induction (map fst (declared base rdf pm evs)) as [|k ks IH]; intros xs; cbn [add_keys].
  - set_solver.
  - rewrite IH. destruct (existsb (str_eqb k) xs) eqn:Ex; [apply ReaderFacts.existsb_str in Ex|]; set_solver.
Qed.
Print Assumptions C24_keys.

(** *** C25 *)
Lemma bview_uuid_made S pm tag k id : makes S pm → assoc tag pm = Some k → is_Some (blank_new S k [] (uuid_kw id)) →
  bview S k id (Pub (u "UUID")) = Some (OV (VStr id)).
Proof.
  intros Hm Ha [ws Hb]. destruct (Hm _ _ Ha) as [[ws' Hws]|Hr]; unfold bview in *.
  - rewrite Hws, last_write_app. cbn [last_write]. by rewrite decide_True.
  - assert (Wf heap_empty) as H0 by (split; intros *; unfold slot; simpl; by rewrite ?lookup_empty).
    destruct (construct_blank S 0 heap_empty k [] (uuid_kw id) ws H0 Hb) as (h' & E' & _).
    destruct (Hr 0%nat heap_empty id H0) as (h2 & E2 & _). congruence.
Qed.
Theorem C25_classes t pm base rdf f pf err root evs d h d' h' id k : (t, pm) ∈ tables → Wf h → foreign_root base evs →
  reads base rdf t pm (S f) pf err root evs d h = (None, d', h') →
  declared_class base rdf pm evs id = Some k →
  ∃ o, assoc id d' = Some (VRef o) ∧ cls_of h o = None ∧ cls_of h' o = Some k ∧
    ((∀ e, EEnd e ∈ evs → ¬ is_property base rdf e (u "UUID")) → view h' o (Pub (u "UUID")) = Some (OV (VStr id))).
Proof.
  intros Ht Hwf Hf. rewrite read_unfold. destruct (pass1 _ _ _ _ _ _ _ _ _ _) as [[[x|] d1] h1] eqn:E; [done|].
  rewrite pass2_run. intros E2 Hk.
  pose proof (pass1_created t pm base rdf f err evs (tables_makes t pm Ht) Hf false d h d1 h1 Hwf E) as HC.
  destruct (cr_new _ _ _ _ _ _ HC id k Hk) as (o & Ho & Hn & Hc & Hv).
  pose proof (run2_classes base rdf t (S f) pf d1 evs None h1 h1 (λ _ _, eq_refl)) as Hcl.
  pose proof (run2_pub base rdf t (S f) pf d1 evs None h1 h1 (u "UUID") (tables_uuid t pm Ht)) as Hpub.
  destruct (run2 base rdf t (S f) pf d1 evs None h1) as [[c|x] h2] eqn:Er; [|done].
  destruct err; [done|]. simplify_eq. cbn [snd] in Hcl, Hpub. exists o. split_and!; [done|done| |].
  - rewrite Hcl; [done|]. by rewrite Hc.
  - intros Hno. assert (view h1 o (Pub (u "UUID")) = Some (OV (VStr id))) as Hv1.
    { rewrite Hv. apply assoc_reverse_in in Hk. destruct (declared_map base rdf pm evs id k Hk) as [tag Htag].
      eapply bview_uuid_made; [by eapply tables_makes|exact Htag|]. by eapply (cr_made _ _ _ _ _ _ HC). }
    destruct (Hpub Hno) with (o := o) as [_ Hs].
    { intros o' Ho'. split; done. }
    { by rewrite Hc. }
    unfold view in *. rewrite Hs. destruct (slot h1 o (Pub (u "UUID"))) as [v|]; [|done]. cbn in *.
    destruct v; try done. by destruct (h_lists h1 !! l).
Qed.
Print Assumptions C25_classes.
(** Both theorems on the topology document, where c1, n1, n2 and t1 are new. *)
Example C24_C25_example :
  foreign_root Bt topo_doc ∧ fst (fst (reads Bt R topo topo_map 20 pf_demo false root topo_doc [] heap_empty)) = None ∧
  map fst (declared Bt R topo_map topo_doc) = [u "c1"; u "n1"; u "n2"; u "t1"] ∧
  declared_class Bt R topo_map topo_doc (u "t1") = Some n_CIM14_CPSM_Topology_Core_Terminal_Terminal ∧
  forallb (λ ev, match ev with EEnd e => negb (str_eqb (after_last_dot (local Bt e)) (u "UUID")) | _ => true end) topo_doc = true.
Proof. split; [apply foreign_b_ok; compute_now|]. split_and!; compute_now. Qed.

Definition private_b (k : option prop) : bool := match k with Some (PAlias _ _) | None => false | Some _ => true end.
Lemma shows_intro S h o a v ck : cls_of h o = Some ck → private_b (lookup_prop S ck a) = true → view h o (Priv a) = Some (OV v) → shows S h o a v.
Proof. intros Hc Hp Hv. exists ck. split; [done|]. by destruct (lookup_prop S ck a) as [[]|]. Qed.
Lemma plain_intro S h o a v ck : cls_of h o = Some ck → plain_b S ck a = true → view h o (Pub a) = Some (OV v) → plain_value S h o a v.
Proof. intros Hc (Hp & Hl & _)%plain_b_ok Hv. split; [done|]. by exists ck. Qed.

(** *** C26 *)
(** The reference may come before or after the element it refers to: the
    identifier has to be declared somewhere in the document. *)
Theorem C26_reference t pm base rdf f pf err root pre e rest d h o d' hk a id k : (t, pm) ∈ tables →
  Sound t h → dict_alive d h → foreign_root base (pre ++ EEnd e :: rest) →
  compatible_doc base rdf t pm (pre ++ EEnd e :: rest) d h →
  Reaches base rdf t pm (S (S f)) pf err root pre (EEnd e :: rest) d h (Some (VRef o)) d' hk →
  reference_elem base rdf e a id → key_of a = Pub a →
  declared_class base rdf pm (pre ++ EEnd e :: rest) id = Some k →
  ∃ ck y, cls_of hk o = Some ck ∧ assoc id d' = Some (VRef y) ∧ cls_of hk y = Some k ∧
  (match lookup_prop t ck a with
   | None => view hk o (Pub a) = Some (OV VNone)
   | Some PPrivate => view hk o (Priv a) = Some (OV VNone)
   | Some (PAlias p _) => view hk o (Priv p) = Some (OV VNone)
   | _ => True
   end →
   ∃ h', Reaches base rdf t pm (S (S f)) pf err root (pre ++ [EEnd e]) rest d h (Some (VRef o)) d' h' ∧
         same_classes hk h' ∧ Sound t h' ∧ ref_effect t hk h' o ck a y).
Proof. intros Ht. exact (Reaches_reference t pm Ht base rdf f pf err root pre e rest d h o d' hk a id k). Qed.
Print Assumptions C26_reference.
(** The first property of the topology document refers to the node declared
    after it. *)
Definition c1_ref : elem := pel_elem Bt (ref "ConnectivityNode.TopologicalNode" "#n1").
Lemma topo_compatible : compatible_doc Bt R topo topo_map topo_doc [] heap_empty.
Proof. apply compatible_doc_b_ok. compute_now. Qed.
Lemma topo_foreign : foreign_root Bt topo_doc.
Proof. apply foreign_b_ok. compute_now. Qed.
Example C26_example :
  Sound topo heap_empty ∧ dict_alive [] heap_empty ∧ foreign_root Bt topo_doc ∧ compatible_doc Bt R topo topo_map topo_doc [] heap_empty ∧
  topo_doc = take 2 topo_doc ++ EEnd c1_ref :: drop 3 topo_doc ∧
  reference_elem Bt R c1_ref (u "TopologicalNode") (u "n1") ∧
  declared_class Bt R topo_map topo_doc (u "n1") = Some n_CIM14_CPSM_Topology_Topology_TopologicalNode_TopologicalNode ∧
  declared Bt R topo_map (take 2 topo_doc) = [] ∧
  ∃ cur d' hk, Reaches Bt R topo topo_map 20 pf_demo false root (take 2 topo_doc) (drop 2 topo_doc) [] heap_empty cur d' hk ∧
    bool_decide (cur = Some (VRef 0)) && view_is hk 0 (Priv n_TopologicalNode) (OV VNone) && view_is hk 1 (Priv n_ConnectivityNodes) (OL []) = true.
Proof.
  split; [apply Sound_empty|]. split; [apply dict_alive_nil|]. split; [apply topo_foreign|]. split; [apply topo_compatible|].
  split; [compute_now|]. split; [repeat split; compute_now|]. split; [compute_now|]. split; [compute_now|].
  apply (reach_ex topo topo_map Bt 2 topo_doc [] heap_empty
    (λ cur d' hk, bool_decide (cur = Some (VRef 0)) && view_is hk 0 (Priv n_TopologicalNode) (OV VNone) && view_is hk 1 (Priv n_ConnectivityNodes) (OL []))).
  compute_now.
Qed.

(** *** C27 *)
Lemma Sound_Agree S h : Sound S h → Agree S h.
Proof.
  intros [[Hwf HL] _ _]. split.
  - intros x p t q w ys He Hx Ht. split.
    + intros ->. destruct (lk_single _ _ HL _ _ _ _ (proj1 He) Hx) as [|(t' & ys' & [= <-] & _ & Hv & Hin)]; [done|]. congruence.
    + intros Hin. destruct He as (He1 & p' & He2 & He3).
      destruct (lk_coll _ _ HL _ _ _ _ He2 Ht) as (? & [= <-] & _ & Hm).
      destruct (Hm _ Hin) as (x' & p2 & [= <-] & He' & Hv).
      assert (p2 = p) as ->; [|congruence]. destruct He' as (_ & p3 & E3 & Hr). rewrite He2 in E3. injection E3 as <-.
      destruct Hr as [[-> Hno]|[c Hr]], He3 as [[-> Hno']|[c' Hr']]; try done; try congruence.
  - intros t q p ys Hk Ht. destruct (lk_coll _ _ HL _ _ _ _ Hk Ht) as (? & [= <-] & ? & _). done.
  - intros x p y q v w [He1 He2] Hx Hy. split; intros ->.
    + destruct (lk_one_one _ _ HL _ _ _ _ He1 Hx) as [|(? & [= <-] & _ & ?)]; congruence.
    + destruct (lk_one_one _ _ HL _ _ _ _ He2 Hy) as [|(? & [= <-] & _ & ?)]; congruence.
  - intros x p y q ps qs [He1 He2] Hx Hy. split; intros Hin.
    + destruct (lk_many_many _ _ HL _ _ _ _ He1 Hx) as (? & [= <-] & Hm). destruct (Hm _ Hin) as (? & ? & [= <-] & _ & Hv & ?). congruence.
    + destruct (lk_many_many _ _ HL _ _ _ _ He2 Hy) as (? & [= <-] & Hm). destruct (Hm _ Hin) as (? & ? & [= <-] & _ & Hv & ?). congruence.
Qed.
(** [x ≠ Some TypeError]: no object is of an unconstructible class. *)
Theorem C27_consistent t pm base rdf f pf err root evs d h x d' h' : (t, pm) ∈ tables →
  Sound t h → dict_alive d h → foreign_root base evs → compatible_doc base rdf t pm evs d h →
  reads base rdf t pm (S (S f)) pf err root evs d h = (x, d', h') → x ≠ Some TypeError →
  Sound t h' ∧ Agree t h'.
Proof.
  intros Ht HS Hd Hf Hc Hr Hx. assert (Sound t h') as HS'; [|split; [done|by apply Sound_Agree]].
  exact (reads_sound t pm Ht base rdf f pf err root evs d h x d' h' HS Hd Hf Hc Hr Hx).
Qed.
Print Assumptions C27_consistent.
(** After reading the topology document the connectivity node is at n1 and the
    terminal is too. *)
Example C27_example :
  Sound topo heap_empty ∧ foreign_root Bt topo_doc ∧ compatible_doc Bt R topo topo_map topo_doc [] heap_empty ∧
  let '(x, d', h') := reads Bt R topo topo_map 20 pf_demo false root topo_doc [] heap_empty in
  x = None ∧ view h' 0 (Priv n_TopologicalNode) = Some (OV (VRef 1)) ∧ view h' 1 (Priv n_ConnectivityNodes) = Some (OL [VRef 0]) ∧
  view h' 1 (Priv n_Terminal) = Some (OL [VRef 3]) ∧ view h' 3 (Priv n_TopologicalNode) = Some (OV (VRef 1)) ∧
  view h' 2 (Priv n_ConnectivityNodes) = Some (OL []).
Proof.
  split; [apply Sound_empty|]. split; [apply topo_foreign|]. split; [apply topo_compatible|]. vm_compute. by split_and!.
Qed.

(** *** C28 *)
Theorem C28_first_wins t pm base rdf fuel pf err root pre e rest d h o d' hk a id z :
  Reaches base rdf t pm fuel pf err root pre (EEnd e :: rest) d h (Some (VRef o)) d' hk →
  reference_elem base rdf e a id → shows t hk o a (VRef z) →
  Reaches base rdf t pm fuel pf err root (pre ++ [EEnd e]) rest d h (Some (VRef o)) d' hk.
Proof.
  intros HR He Hs. eapply (Reaches_step base rdf); [exact HR|].
  rewrite (property_step base rdf t fuel pf d' o e a hk (proj1 He)), (reference_set base rdf t fuel pf d' o e a id hk He).
  unfold set_ref. rewrite (shows_found t hk o a (VRef z) Hs). by destruct (assoc id d').
Qed.
Print Assumptions C28_first_wins.
(** The second property of the topology document. *)
Example C28_example :
  topo_doc = take 4 topo_doc ++ EEnd (pel_elem Bt (ref "ConnectivityNode.TopologicalNode" "#n2")) :: drop 5 topo_doc ∧
  reference_elem Bt R (pel_elem Bt (ref "ConnectivityNode.TopologicalNode" "#n2")) n_TopologicalNode (u "n2") ∧
  ∃ cur d' hk, Reaches Bt R topo topo_map 20 pf_demo false root (take 4 topo_doc) (drop 4 topo_doc) [] heap_empty cur d' hk ∧
    cur = Some (VRef 0) ∧ shows topo hk 0 n_TopologicalNode (VRef 1) ∧ assoc (u "n2") d' = Some (VRef 2).
Proof.
  split; [compute_now|]. split; [repeat split; compute_now|].
  destruct (reach_ex topo topo_map Bt 4 topo_doc [] heap_empty (λ cur d' hk,
    bool_decide (cur = Some (VRef 0)) && view_is hk 0 (Priv n_TopologicalNode) (OV (VRef 1)) &&
    bool_decide (cls_of hk 0 = Some n_CIM14_CPSM_Topology_Core_ConnectivityNode_ConnectivityNode) &&
    bool_decide (assoc (u "n2") d' = Some (VRef 2)))) as (cur & d' & hk & HR & HP); [compute_now|].
  rewrite !andb_true_iff, !bool_decide_eq_true in HP. destruct HP as [[[? ?%view_is_ok] ?] ?].
  exists cur, d', hk. split; [exact HR|]. split; [assumption|]. split; [|assumption]. eapply shows_intro; [eassumption|compute_now|assumption].
Qed.

(** *** C29 *)
Theorem C29_conversion t pm base rdf f pf err root pre e rest d h o d' hk a text cur v :
  Reaches base rdf t pm (S f) pf err root pre (EEnd e :: rest) d h (Some (VRef o)) d' hk →
  attribute_elem base rdf e a (Some text) → plain_value t hk o a cur → converts pf cur text v →
  ∃ h', Reaches base rdf t pm (S f) pf err root (pre ++ [EEnd e]) rest d h (Some (VRef o)) d' h' ∧
        same_classes hk h' ∧ SetSlot (view hk) (view h') o (Pub a) v.
Proof.
  intros HR He Hp Hcv.
  assert (is_vlist v = false) as Hv by (by destruct Hcv).
  destruct (plain_write t hk o a cur v f Hp Hv) as (h' & E & Hsc & HE).
  exists h'. split_and!; [|done|done]. eapply (Reaches_step base rdf); [exact HR|].
  rewrite (property_step base rdf t (S f) pf d' o e a hk (proj1 He)), (attribute_set base rdf t (S f) pf d' o e a (Some text) hk He).
  unfold set_text. rewrite (shows_found t hk o a cur (plain_shows _ _ _ _ _ Hp)). unfold swallow_type, bind.
  rewrite (convert_spec t (S f) pf cur text v hk Hcv). by rewrite E.
Qed.
Print Assumptions C29_conversion.
(** Every text is converted, or the read fails (C31). *)
Theorem C29_total pf cur text : (∀ o, cur ≠ VRef o) → (∀ l, cur ≠ VList l) → cur ≠ VNone →
  (∃ v, converts pf cur text v) ∨
  match cur with VInt _ => ascii text = false ∨ ¬ ∃ z, int_literal text z | VFloat _ => pf text = None | _ => False end.
Proof.
  intros H1 H2 H3. destruct cur as [|b|z|r|s|o|l]; try done.
  - left. destruct (str_eqb (title text) (u "True")) eqn:E.
    + eexists. by apply cv_true, title_true.
    + eexists. apply cv_false. intros H%title_true. congruence.
  - destruct (ascii text) eqn:Ea; [|right; by left]. destruct (parse_int text) as [z'|] eqn:E.
    + left. eexists. apply cv_int; [done|by apply parse_int_iff].
    + right. right. intros [z' H%parse_int_iff]. congruence.
  - destruct (pf text) as [r'|] eqn:E; [left; eexists; by apply cv_float|by right].
  - left. eexists. apply cv_str.
  - by destruct (H1 o).
  - by destruct (H2 l).
Qed.
Print Assumptions C29_total.
(** An attribute that is None has no type to convert to. *)
Theorem C29_none t pm base rdf fuel pf err root pre e rest d h o d' hk a text :
  Reaches base rdf t pm fuel pf err root pre (EEnd e :: rest) d h (Some (VRef o)) d' hk →
  attribute_elem base rdf e a text → shows t hk o a VNone →
  Reaches base rdf t pm fuel pf err root (pre ++ [EEnd e]) rest d h (Some (VRef o)) d' hk.
Proof.
  intros HR He Hs. eapply (Reaches_step base rdf); [exact HR|].
  rewrite (property_step base rdf t fuel pf d' o e a hk (proj1 He)), (attribute_set base rdf t fuel pf d' o e a text hk He).
  unfold set_text. by rewrite (shows_found t hk o a VNone Hs).
Qed.
Print Assumptions C29_none.
(** The connected attribute of the terminal, the tap step, and an int literal. *)
Example C29_example :
  topo_doc = take 16 topo_doc ++ EEnd (pel_elem Bt (att "Terminal.connected" "tRUE")) :: drop 17 topo_doc ∧
  attribute_elem Bt R (pel_elem Bt (att "Terminal.connected" "tRUE")) n_connected (Some (u "tRUE")) ∧
  (∃ cur d' hk, Reaches Bt R topo topo_map 20 pf_demo false root (take 16 topo_doc) (drop 16 topo_doc) [] heap_empty cur d' hk ∧
    cur = Some (VRef 3) ∧ plain_value topo hk 3 n_connected (VBool false)) ∧
  converts pf_demo (VBool false) (u "tRUE") (VBool true) ∧
  converts pf_demo (VBool false) (u "yes") (VBool false) ∧ converts pf_demo (VInt 0) (u " -1_2 ") (VInt (-12)).
Proof.
  split; [compute_now|]. split; [repeat split; compute_now|]. split.
  { destruct (reach_ex topo topo_map Bt 16 topo_doc [] heap_empty (λ cur d' hk,
      bool_decide (cur = Some (VRef 3)) && view_is hk 3 (Pub n_connected) (OV (VBool false)) &&
      bool_decide (cls_of hk 3 = Some n_CIM14_CPSM_Topology_Core_Terminal_Terminal))) as (cur & d' & hk & HR & HP); [compute_now|].
    rewrite !andb_true_iff, !bool_decide_eq_true in HP. destruct HP as [[? ?%view_is_ok] ?].
    exists cur, d', hk. split; [exact HR|]. split; [assumption|]. eapply plain_intro; [eassumption|compute_now|assumption]. }
  split_and!.
  - apply cv_true, title_true. compute_now.
  - apply cv_false. intros H%title_true. revert H. by vm_compute.
  - apply cv_int; [compute_now|]. apply parse_int_iff. compute_now.
Qed.

(** *** C30 *)
Theorem C30_empty_exact t pm base rdf f pf err root pre e rest d h o d' hk a s :
  Reaches base rdf t pm (S f) pf err root pre (EEnd e :: rest) d h (Some (VRef o)) d' hk →
  attribute_elem base rdf e a None → plain_value t hk o a (VStr s) →
  ∃ h', Reaches base rdf t pm (S f) pf err root (pre ++ [EEnd e]) rest d h (Some (VRef o)) d' h' ∧
        same_classes hk h' ∧ SetSlot (view hk) (view h') o (Pub a) (VStr (u "None")).
Proof.
  intros HR He Hp. destruct (plain_write t hk o a (VStr s) (VStr (u "None")) f Hp) as (h' & E & Hsc & HE); [done|].
  exists h'. split_and!; [|done|done]. eapply (Reaches_step base rdf); [exact HR|].
  rewrite (property_step base rdf t (S f) pf d' o e a hk (proj1 He)), (attribute_set base rdf t (S f) pf d' o e a None hk He).
  unfold set_text. rewrite (shows_found t hk o a (VStr s) (plain_shows _ _ _ _ _ Hp)). unfold swallow_type, bind, convert. by rewrite E.
Qed.
Print Assumptions C30_empty_exact.
Theorem C30_empty_number t pm base rdf f pf err root pre e rest d h o d' hk a cur :
  Reaches base rdf t pm f pf err root pre (EEnd e :: rest) d h (Some (VRef o)) d' hk →
  attribute_elem base rdf e a None → shows t hk o a cur →
  match cur with VInt _ | VFloat _ | VBool _ => True | _ => False end →
  Reaches base rdf t pm f pf err root (pre ++ [EEnd e]) rest d h (Some (VRef o)) d' hk.
Proof.
  intros HR He Hs Hm. eapply (Reaches_step base rdf); [exact HR|].
  rewrite (property_step base rdf t f pf d' o e a hk (proj1 He)), (attribute_set base rdf t f pf d' o e a None hk He).
  unfold set_text. rewrite (shows_found t hk o a cur Hs). unfold swallow_type, bind, convert. by destruct cur.
Qed.
Print Assumptions C30_empty_number.
Definition empty_name : list event :=
  flat Bt [obj "Terminal" "t1" [Pel (u "IdentifiedObject.name") [] None]] ++ [EEnd root].
(** [<cim:Terminal rdf:ID="t1"><cim:IdentifiedObject.name/></cim:Terminal>] *)
Theorem C30_empty_string_refuted :
  let '(x, d', h') := reads Bt R topo topo_map 20 pf_demo false root empty_name [] heap_empty in
  x = None ∧ assoc (u "t1") d' = Some (VRef 0) ∧ view h' 0 (Pub n_name) = Some (OV (VStr (u "None"))).
Proof. vm_compute. by split_and!. Qed.
Print Assumptions C30_empty_string_refuted.
Example C30_example :
  attribute_elem Bt R (pel_elem Bt (Pel (u "IdentifiedObject.name") [] None)) n_name None ∧
  ∃ cur d' hk, Reaches Bt R topo topo_map 20 pf_demo false root (take 2 empty_name) (drop 2 empty_name) [] heap_empty cur d' hk ∧
    cur = Some (VRef 0) ∧ plain_value topo hk 0 n_name (VStr []).
Proof.
  split; [repeat split; compute_now|].
  destruct (reach_ex topo topo_map Bt 2 empty_name [] heap_empty (λ cur d' hk,
    bool_decide (cur = Some (VRef 0)) && view_is hk 0 (Pub n_name) (OV (VStr [])) &&
    bool_decide (cls_of hk 0 = Some n_CIM14_CPSM_Topology_Core_Terminal_Terminal))) as (cur & d' & hk & HR & HP); [compute_now|].
  rewrite !andb_true_iff, !bool_decide_eq_true in HP. destruct HP as [[? ?%view_is_ok] ?].
  exists cur, d', hk. split; [exact HR|]. split; [assumption|]. eapply plain_intro; [eassumption|compute_now|assumption].
Qed.

(** *** C31 *)
Theorem C31_malformed t pm base rdf f pf err root pre e rest d h o d' hk a text cur :
  Reaches base rdf t pm (S f) pf err root pre (EEnd e :: rest) d h (Some (VRef o)) d' hk →
  attribute_elem base rdf e a (Some text) → shows t hk o a cur →
  match cur with
  | VInt _ => ascii text = true ∧ ¬ ∃ z, int_literal text z
  | VFloat _ => pf text = None
  | _ => False
  end →
  reads base rdf t pm (S f) pf err root (pre ++ EEnd e :: rest) d h = (Some ValueError, d', hk).
Proof.
  intros HR He Hs Hm. eapply (Reaches_raise base rdf); [exact HR|].
  rewrite (property_step base rdf t (S f) pf d' o e a hk (proj1 He)), (attribute_set base rdf t (S f) pf d' o e a (Some text) hk He).
  unfold set_text. rewrite (shows_found t hk o a cur Hs). unfold swallow_type, bind, convert.
  destruct cur as [|b|z|r|s|o'|l]; try done.
  - destruct Hm as [-> Hn]. destruct (parse_int text) as [z'|] eqn:E; [|done]. destruct Hn. exists z'. by apply parse_int_iff.
  - by rewrite Hm.
Qed.
Print Assumptions C31_malformed.
Definition bad_doc : list event :=
  flat Bs [obj "SvTapStep" "s1" [att "SvTapStep.continuousPosition" "1.5"; att "SvTapStep.position" "1.5"; att "SvTapStep.position" "7"]] ++ [EEnd root].
Example C31_example :
  bad_doc = take 4 bad_doc ++ EEnd (pel_elem Bs (att "SvTapStep.position" "1.5")) :: drop 5 bad_doc ∧
  attribute_elem Bs R (pel_elem Bs (att "SvTapStep.position" "1.5")) n_position (Some (u "1.5")) ∧
  (ascii (u "1.5") = true ∧ ¬ ∃ z, int_literal (u "1.5") z) ∧
  ∃ cur d' hk, Reaches Bs R sv sv_map 20 pf_demo false root (take 4 bad_doc) (drop 4 bad_doc) [] heap_empty cur d' hk ∧
    cur = Some (VRef 0) ∧ shows sv hk 0 n_position (VInt 0).
Proof.
  split; [compute_now|]. split; [repeat split; compute_now|]. split.
  { split; [compute_now|]. intros [z H%parse_int_iff]. revert H. by vm_compute. }
  destruct (reach_ex sv sv_map Bs 4 bad_doc [] heap_empty (λ cur d' hk,
    bool_decide (cur = Some (VRef 0)) && view_is hk 0 (Pub n_position) (OV (VInt 0)) &&
    bool_decide (cls_of hk 0 = Some n_CIM14_CPSM_StateVariables_StateVariables_SvTapStep_SvTapStep))) as (cur & d' & hk & HR & HP); [compute_now|].
  rewrite !andb_true_iff, !bool_decide_eq_true in HP. destruct HP as [[? ?%view_is_ok] ?].
  exists cur, d', hk. split; [exact HR|]. split; [assumption|]. apply plain_shows. eapply plain_intro; [eassumption|compute_now|assumption].
Qed.

(** *** C32 *)
Theorem C32_dangling t pm base rdf fuel pf err root pre e a id rest d h :
  all_refs d → foreign_root base (pre ++ [EStart e; EEnd e] ++ rest) → reference_elem base rdf e a id →
  assoc id d = None → id ∉ map fst (declared base rdf pm (pre ++ rest)) →
  reads base rdf t pm fuel pf err root (pre ++ [EStart e; EEnd e] ++ rest) d h =
  reads base rdf t pm fuel pf err root (pre ++ rest) d h.
Proof. apply drop_dangling. Qed.
Print Assumptions C32_dangling.
(** [#n9] before the other properties of c1. *)
Definition c1_dangling : elem := pel_elem Bt (ref "ConnectivityNode.TopologicalNode" "#n9").
Example C32_example :
  all_refs [] ∧ foreign_root Bt (take 1 topo_doc ++ [EStart c1_dangling; EEnd c1_dangling] ++ drop 1 topo_doc) ∧
  reference_elem Bt R c1_dangling n_TopologicalNode (u "n9") ∧
  u "n9" ∉ map fst (declared Bt R topo_map (take 1 topo_doc ++ drop 1 topo_doc)).
Proof.
  split; [done|]. split; [apply foreign_b_ok; compute_now|]. split; [repeat split; compute_now|].
  rewrite <- ReaderFacts.existsb_str. assert (∀ b, b = false → b ≠ true) as Hb by (by intros b ->). apply Hb. compute_now.
Qed.

(** *** C33 *)
Theorem C33_unknown_class t pm base rdf fuel pf err root items d h :
  in_base base root = false → Forall (flat_ok base rdf) items →
  (∀ i id, i ∈ items → ¬ known_class pm i → uuid_of rdf (i_attrs i) = Some id →
     assoc id d = None ∧ id ∉ map fst (declared base rdf pm (flat base (filter (known_class pm) items)))) →
  reads base rdf t pm fuel pf err root (flat base items ++ [EEnd root]) d h =
  reads base rdf t pm fuel pf err root (flat base (filter (known_class pm) items) ++ [EEnd root]) d h.
Proof. apply read_flat. Qed.
Print Assumptions C33_unknown_class.
(** A substation, which the topology profile does not have, between the
    others. *)
Definition with_unknown : list item := take 2 topo_items ++ obj "Substation" "s1" [att "IdentifiedObject.name" "x"] :: drop 2 topo_items.
Lemma unknown_ids pm base rdf (items : list item) d :
  forallb (λ i, match assoc (i_tag i) pm, uuid_of rdf (i_attrs i) with
    | None, Some id => negb (existsb (str_eqb id) (map fst (d : dict) ++ map fst (declared base rdf pm (flat base (filter (known_class pm) items)))))
    | _, _ => true
    end) items = true →
  ∀ i id, i ∈ items → ¬ known_class pm i → uuid_of rdf (i_attrs i) = Some id →
     assoc id d = None ∧ id ∉ map fst (declared base rdf pm (flat base (filter (known_class pm) items))).
Proof.
  intros H i id Hi Hk Hid. rewrite forallb_forall in H. specialize (H i (proj1 (elem_of_list_In _ _) Hi)). unfold known_class in Hk.
  destruct (assoc (i_tag i) pm) eqn:Ea; [destruct Hk; eauto|]. rewrite Hid in H. apply negb_true_iff in H.
  assert (id ∉ map fst d ++ map fst (declared base rdf pm (flat base (filter (known_class pm) items)))) as Hn.
  { rewrite <- ReaderFacts.existsb_str. by rewrite H. }
  rewrite elem_of_app in Hn. split; [|tauto]. destruct (assoc id d) as [v|] eqn:E; [|done]. apply CreateFacts.assoc_in in E.
  destruct Hn. left. apply elem_of_list_fmap. by exists (id, v).
Qed.
Definition flat_ok_b (rdf : pystr) (i : item) : bool :=
  match uuid_of rdf (i_attrs i) with Some _ => true | None => false end &&
  forallb (λ p, match rdf_attr rdf "ID" (p_attrs p), rdf_attr rdf "about" (p_attrs p) with None, None => true | _, _ => false end) (i_props i).
Lemma flat_ok_b_ok base rdf items : forallb (flat_ok_b rdf) items = true → Forall (flat_ok base rdf) items.
Proof.
  intros H. apply Forall_forall. intros i Hi. rewrite forallb_forall in H. specialize (H i (proj1 (elem_of_list_In _ _) Hi)).
  unfold flat_ok_b in H. apply andb_true_iff in H as [H1 H2]. split; [destruct (uuid_of rdf (i_attrs i)); eauto; done|].
  intros p Hp. rewrite forallb_forall in H2. specialize (H2 p (proj1 (elem_of_list_In _ _) Hp)).
  by destruct (rdf_attr rdf "ID" (p_attrs p)), (rdf_attr rdf "about" (p_attrs p)).
Qed.
Example C33_example :
  in_base Bt root = false ∧ Forall (flat_ok Bt R) with_unknown ∧
  (∀ i id, i ∈ with_unknown → ¬ known_class topo_map i → uuid_of R (i_attrs i) = Some id →
     assoc id ([] : dict) = None ∧ id ∉ map fst (declared Bt R topo_map (flat Bt (filter (known_class topo_map) with_unknown)))) ∧
  map i_tag (filter (known_class topo_map) with_unknown) = map i_tag topo_items.
Proof.
  split; [compute_now|]. split; [apply flat_ok_b_ok; compute_now|]. split; [|compute_now].
  apply (unknown_ids topo_map Bt R with_unknown []). compute_now.
Qed.

(** *** C34 *)
Theorem C34_unknown_attribute t pm base rdf fuel pf err root pre e a rest d h o d' hk :
  is_property base rdf e a → foreign_root base (pre ++ [EStart e; EEnd e] ++ rest) →
  Reaches base rdf t pm fuel pf err root pre ([EStart e; EEnd e] ++ rest) d h (Some (VRef o)) d' hk →
  lacks t hk o a →
  reads base rdf t pm fuel pf err root (pre ++ [EStart e; EEnd e] ++ rest) d h =
  reads base rdf t pm fuel pf err root (pre ++ rest) d h.
Proof. intros Hp Hf HR Hl. eapply drop_at; [done|done|exact HR|]. by eapply lacks_noop. Qed.
Print Assumptions C34_unknown_attribute.
(** [<cim:ConnectivityNode.colour>] as the first property. *)
Definition c1_colour : elem := pel_elem Bt (att "ConnectivityNode.colour" "red").
Definition colour_doc : list event := take 1 topo_doc ++ [EStart c1_colour; EEnd c1_colour] ++ drop 1 topo_doc.
Lemma lacks_intro S h o a ck : cls_of h o = Some ck → special_name a = false → key_of a = Pub a → accessor_name S ck a = false →
  bool_decide (lookup_prop S ck a = None) = true → slot h o (Pub a) = None → lacks S h o a.
Proof.
  intros Hc Hs%not_special Hk Ha Hl%bool_decide_eq_true Hv. split; [done|]. exists ck. rewrite Hk. rewrite <- (accessor_method S ck a), Ha. done.
Qed.
Lemma method_intro S h o a ck : cls_of h o = Some ck → special_name a = false → key_of a = Pub a → accessor_name S ck a = true →
  bool_decide (lookup_prop S ck a = None) = true → slot h o (Pub a) = None → has_method S h o a.
Proof.
  intros Hc Hs%not_special Hk Ha Hl%bool_decide_eq_true Hv. split; [done|]. exists ck. rewrite Hk. by apply accessor_method in Ha.
Qed.
Example C34_example :
  is_property Bt R c1_colour (u "colour") ∧ foreign_root Bt colour_doc ∧
  ∃ cur d' hk, Reaches Bt R topo topo_map 20 pf_demo false root (take 1 colour_doc) (drop 1 colour_doc) [] heap_empty cur d' hk ∧
    cur = Some (VRef 0) ∧ lacks topo hk 0 (u "colour").
Proof.
  split; [repeat split; compute_now|]. split; [apply foreign_b_ok; compute_now|].
  destruct (reach_ex topo topo_map Bt 1 colour_doc [] heap_empty (λ cur d' hk,
    bool_decide (cur = Some (VRef 0)) && bool_decide (slot hk 0 (Pub (u "colour")) = None) &&
    bool_decide (cls_of hk 0 = Some n_CIM14_CPSM_Topology_Core_ConnectivityNode_ConnectivityNode))) as (cur & d' & hk & HR & HP); [compute_now|].
  rewrite !andb_true_iff, !bool_decide_eq_true in HP. destruct HP as [[? ?] ?].
  exists cur, d', hk. split; [exact HR|]. split; [assumption|]. eapply lacks_intro; [eassumption|compute_now..|assumption].
Qed.
(** An element with the name of a method, with text or a reference, changes
    nothing either. *)
Theorem C34_method t pm base rdf fuel pf err root pre e a rest d h o d' hk :
  is_property base rdf e a → foreign_root base (pre ++ [EStart e; EEnd e] ++ rest) →
  Reaches base rdf t pm fuel pf err root pre ([EStart e; EEnd e] ++ rest) d h (Some (VRef o)) d' hk →
  has_method t hk o a → resource rdf e = None ∨ (∃ id, resource rdf e = Some (u "#" ++ id)) →
  reads base rdf t pm fuel pf err root (pre ++ [EStart e; EEnd e] ++ rest) d h =
  reads base rdf t pm fuel pf err root (pre ++ rest) d h.
Proof. intros Hp Hf HR Hl Hr. eapply drop_at; [done|done|exact HR|]. by eapply method_noop. Qed.
Print Assumptions C34_method.
(** [<cim:ConnectivityNode.setTopologicalNode>] as the first property. *)
Definition c1_method : elem := pel_elem Bt (att "ConnectivityNode.setTopologicalNode" "n1").
Definition method_doc : list event := take 1 topo_doc ++ [EStart c1_method; EEnd c1_method] ++ drop 1 topo_doc.
Example C34_example_method :
  is_property Bt R c1_method (u "setTopologicalNode") ∧ foreign_root Bt method_doc ∧ resource R c1_method = None ∧
  ∃ cur d' hk, Reaches Bt R topo topo_map 20 pf_demo false root (take 1 method_doc) (drop 1 method_doc) [] heap_empty cur d' hk ∧
    cur = Some (VRef 0) ∧ has_method topo hk 0 (u "setTopologicalNode").
Proof.
  split; [repeat split; compute_now|]. split; [apply foreign_b_ok; compute_now|]. split; [compute_now|].
  destruct (reach_ex topo topo_map Bt 1 method_doc [] heap_empty (λ cur d' hk,
    bool_decide (cur = Some (VRef 0)) && bool_decide (slot hk 0 (Pub (u "setTopologicalNode")) = None) &&
    bool_decide (cls_of hk 0 = Some n_CIM14_CPSM_Topology_Core_ConnectivityNode_ConnectivityNode))) as (cur & d' & hk & HR & HP); [compute_now|].
  rewrite !andb_true_iff, !bool_decide_eq_true in HP. destruct HP as [[? ?] ?].
  exists cur, d', hk. split; [exact HR|]. split; [assumption|]. eapply method_intro; [eassumption|compute_now..|assumption].
Qed.

(** *** C35 *)
Definition cim_only (base : pystr) (ev : event) : Prop :=
  match ev with EStart e | EEnd e => has_prefix base (e_tag e) = true | ENs _ _ => True end.
Global Instance cim_only_dec base ev : Decision (cim_only base ev).
Proof. destruct ev; simpl; apply _. Defined.
Theorem C35_foreign t pm base rdf fuel pf err root evs d h : foreign_root base evs →
  reads base rdf t pm fuel pf err root evs d h = reads base rdf t pm fuel pf err root (filter (cim_only base) evs) d h.
Proof.
  intros Hf. rewrite (read_filter base rdf t pm fuel pf err root evs d h Hf). f_equal. apply list_filter_iff.
  intros [e|e|p v]; simpl; done.
Qed.
Print Assumptions C35_foreign.
(** A metadata element with a nested element between two objects, with an
    identifier of its own. *)
Definition meta (n : string) : elem := Elem (u "{http://example.org/meta}" ++ u n) (rid "c1") (Some (u "1.1")) false.
Definition meta_doc : list event :=
  EStart (meta "Model") :: EStart (meta "version") :: EEnd (meta "version") :: EEnd (meta "Model") :: topo_doc.
Example C35_example : foreign_root Bt meta_doc ∧ length meta_doc = 23 ∧ length (filter (cim_only Bt) meta_doc) = 18.
Proof. split; [apply foreign_b_ok; compute_now|]. split; compute_now. Qed.

(** *** C36 *)
Lemma dict_in_good h0 D d : dict_in d D → good_dict h0 D d.
Proof. intros Hd. apply Forall_forall. intros [k v] Hin. destruct (Hd k v Hin) as (o & -> & Ho). by left. Qed.
Lemma region_read t pm base rdf fuel pf src d h D o k : (t, pm) ∈ tables → Wf h → closed_region h D → dict_in d D →
  is_Some (cls_of h o) → ¬ D o →
  let h' := snd (read t pm fuel pf base rdf src d h) in cls_of h' o = cls_of h o ∧ view h' o k = view h o k.
Proof.
  intros Ht Hwf Hcl Hd Ho HD. apply (Inv_view h D Hwf); [|done|done].
  apply (Inv_read h D Hcl t (tables_plain t pm Ht) pm fuel pf base rdf src d). by apply dict_in_good.
Qed.
(** [D] is any set of objects that contains those of start_dict and is closed
    under references: the read changes nothing outside it, whether it succeeds
    or fails. *)
Theorem C36_others fuel pf src pm ns sd h D o k :
  match pm with Some m => m ∈ tables | None => True end →
  Wf h → closed_region h D → dict_in (default [] sd) D → is_Some (cls_of h o) → ¬ D o →
  let h' := snd (cimread fuel pf cim14_uri (cim14, cim14_map) (cim15, cim15_map) src pm ns sd h) in
  cls_of h' o = cls_of h o ∧ view h' o k = view h o k.
Proof.
  intros Hpm Hwf Hcl Hd Ho HD. unfold cimread. destruct (xmlns src) as [m|x]; [|done].
  generalize (default [] sd) Hd. clear Hd. intros d Hd.
  cbv beta zeta. set (rdf := get_rdf_ns m). clearbody rdf.
  destruct (negb _); [done|]. destruct ns as [n|], pm as [[t pm]|]; try done.
  - by eapply region_read.
  - destruct (get_cim_ns cim14_uri m) as [n b]. destruct b; (eapply region_read; [|done..]).
    + left.
    + right. left.
Qed.
Print Assumptions C36_others.
(** A graph with two nodes, one of them with a name; start_dict has the
    other. *)
Definition two_nodes : heap := snd ((
  let* a := construct topo 20 n_CIM14_CPSM_Topology_Topology_TopologicalNode_TopologicalNode [] [(n_name, VStr (u "left"))] in
  construct topo 20 n_CIM14_CPSM_Topology_Topology_TopologicalNode_TopologicalNode [] []) heap_empty).
Definition slots_of (h : heap) (o : nat) : list (key * val) := match h_objs h !! o with Some ob => map_to_list (o_dict ob) | None => [] end.
Lemma slots_of_ok h o k v : slot h o k = Some v → (k, v) ∈ slots_of h o.
Proof. unfold slot, slots_of. destruct (h_objs h !! o) as [ob|]; [|done]. simpl. intros E. by apply elem_of_map_to_list. Qed.
Lemma closed_one h o :
  forallb (λ '(_, v), match v with VRef y => bool_decide (y = o) | VList l => bool_decide (h_lists h !! l = Some []) | _ => true end) (slots_of h o) = true →
  closed_region h (λ x, x = o).
Proof.
  intros H o' k v -> Hs%slots_of_ok. rewrite forallb_forall in H. specialize (H _ (proj1 (elem_of_list_In _ _) Hs)). simpl in H.
  destruct v as [| | | | |y|l]; try done; rewrite bool_decide_eq_true in H; [done|]. intros xs v E. rewrite H in E. injection E as <-. by intros ?%elem_of_nil.
Qed.
Definition wf_b (h : heap) : bool :=
  let all := flat_map (λ o, omap (λ '(k, v), match v with VList l => Some (l, (o, k)) | _ => None end) (slots_of h o)) (map fst (map_to_list (h_objs h))) in
  bool_decide (NoDup (map fst all)) && forallb (λ '(l, _), match h_lists h !! l with Some _ => true | None => false end) all.
Lemma wf_b_ok h : wf_b h = true → Wf h.
Proof.
  unfold wf_b. set (all := flat_map _ _). rewrite andb_true_iff, bool_decide_eq_true. intros [Hn Hl].
  assert (∀ o k l, slot h o k = Some (VList l) → (l, (o, k)) ∈ all) as Hin.
  { intros o k l Hs. apply elem_of_list_In, in_flat_map. exists o. split.
    - unfold slot in Hs. destruct (h_objs h !! o) as [ob|] eqn:E; [|done]. apply elem_of_list_In, elem_of_list_fmap. exists (o, ob).
      split; [done|]. by apply elem_of_map_to_list.
    - apply elem_of_list_In, elem_of_list_omap. exists (k, VList l). split; [by apply slots_of_ok|done]. }
  split.
  - intros o k l Hs%Hin. rewrite forallb_forall in Hl. specialize (Hl _ (proj1 (elem_of_list_In _ _) Hs)). simpl in Hl.
    destruct (h_lists h !! l); [eauto|done].
  - intros o k o' k' l H1%Hin H2%Hin. apply elem_of_list_lookup in H1 as [i Hi], H2 as [j Hj].
    assert (i = j) as <-. { eapply (NoDup_lookup (map fst all) i j l); [done|by rewrite list_lookup_fmap, Hi|by rewrite list_lookup_fmap, Hj]. }
    rewrite Hi in Hj. by injection Hj as <- <-.
Qed.
Example C36_example :
  Wf two_nodes ∧ closed_region two_nodes (λ x, x = 1) ∧ dict_in [(u "n2", VRef 1)] (λ x, x = 1) ∧
  is_Some (cls_of two_nodes 0) ∧ view two_nodes 0 (Pub n_name) = Some (OV (VStr (u "left"))).
Proof.
  split; [apply wf_b_ok; compute_now|]. split; [apply closed_one; compute_now|]. split.
  { intros k v [[= -> ->]|?%elem_of_nil]%elem_of_cons; [|done]. eauto. }
  split; [|compute_now]. assert (∀ (x : option name) y, x = Some y → is_Some x) as Hs by (intros ? ? ->; eauto).
  apply (Hs _ n_CIM14_CPSM_Topology_Topology_TopologicalNode_TopologicalNode). compute_now.
Qed.

(** *** C37 *)
(** No reference property of any class has [a] as its other end. *)
Definition not_an_end (t : schema) (a : name) : Prop := ∀ c p k, lookup_prop t c p = Some k →
  match k with POneMany q | PManyOne q | POneOne q | PManyMany q | PManyOneDbl q | PAlias q _ => q ≠ a | PPrivate => True end.
(** An identifier that the document declares again gets a new object; what the
    document does not state is as in a newly constructed object. *)
Theorem C37_merge_exact t pm base rdf f pf err root evs d h d' h' id k v : (t, pm) ∈ tables → Wf h → dict_alive d h → foreign_root base evs →
  reads base rdf t pm (S f) pf err root evs d h = (None, d', h') →
  assoc id d = Some v → declared_class base rdf pm evs id = Some k →
  ∃ o, assoc id d' = Some (VRef o) ∧ VRef o ≠ v ∧ cls_of h o = None ∧
  ∀ a o0 h0 w, not_an_end t a → (∀ e, EEnd e ∈ evs → ¬ is_property base rdf e a) →
    construct t (S f) k [] [(u "UUID", VStr id)] heap_empty = (inl (VRef o0), h0) →
    view h0 o0 (Pub a) = Some (OV w) → view h' o (Pub a) = Some (OV w).
Proof.
  intros Ht Hwf Hda Hf. rewrite read_unfold. destruct (pass1 _ _ _ _ _ _ _ _ _ _) as [[[x|] d1] h1] eqn:E; [done|].
  rewrite pass2_run. intros E2 Hv Hk.
  pose proof (pass1_created t pm base rdf f err evs (tables_makes t pm Ht) Hf false d h d1 h1 Hwf E) as HC.
  destruct (cr_new _ _ _ _ _ _ HC id k Hk) as (o & Ho & Hn & Hc & Hw).
  destruct (run2 base rdf t (S f) pf d1 evs None h1) as [[c|x] h2] eqn:Er; [|done].
  destruct err; [done|]. simplify_eq. exists o. split_and!; [done| |done|].
  { destruct (Hda _ _ Hv) as (y & -> & [ck Hy]). intros [= ->]. congruence. }
  intros a o0 h0 w Hna Hno Hct Hw0.
  assert (view h1 o (Pub a) = Some (OV w)) as Hv1.
  { rewrite Hw. apply assoc_reverse_in in Hk. destruct (cr_made _ _ _ _ _ _ HC id k Hk) as [ws Hws].
    assert (Wf heap_empty) as H0 by (split; intros *; unfold slot; simpl; by rewrite ?lookup_empty).
    destruct (construct_blank t f heap_empty k [] (uuid_kw id) ws H0 Hws) as (h3 & E3 & _ & _ & _ & HV).
    change [(u "UUID", VStr id)] with (uuid_kw id) in Hct. rewrite E3 in Hct. injection Hct as <- <-.
    rewrite HV, apply_writes_self in Hw0. unfold bview. rewrite Hws. exact Hw0. }
  destruct (run2_pub base rdf t (S f) pf d' evs None h1 h1 a) with (o := o) as [_ Hs].
  { intros c0 p0 k0 q0 Hl Hq ->. specialize (Hna _ _ _ Hl). destruct k0; cbn [other_name] in Hq; congruence. }
  { exact Hno. }
  { intros o' Ho'. split; done. }
  { by rewrite Hc. }
  rewrite Er in Hs. cbn [snd] in Hs. apply view_val in Hv1 as Hsl.
  assert (∀ l, w ≠ VList l) as Hnl. { intros l ->. unfold view in Hv1. rewrite Hsl in Hv1. cbn in Hv1. by destruct (h_lists h1 !! l). }
  unfold view. rewrite Hs, Hsl. cbn. destruct w; try done. by destruct (Hnl l).
Qed.
Print Assumptions C37_merge_exact.
(** A terminal with a name; the second document adds to it. *)
Definition merge1 : list event := flat Bt [obj "Terminal" "t1" [att "IdentifiedObject.name" "one"]] ++ [EEnd root].
Definition merge2 : list event := flat Bt [Item (u "Terminal") (rabout "t1") None [att "Terminal.connected" "True"]] ++ [EEnd root].
Theorem C37_merge_refuted :
  let '(x1, d1, h1) := reads Bt R topo topo_map 20 pf_demo false root merge1 [] heap_empty in
  let '(x2, d2, h2) := reads Bt R topo topo_map 20 pf_demo false root merge2 d1 h1 in
  x1 = None ∧ x2 = None ∧ assoc (u "t1") d1 = Some (VRef 0) ∧ view h1 0 (Pub n_name) = Some (OV (VStr (u "one"))) ∧
  assoc (u "t1") d2 = Some (VRef 1) ∧ view h2 1 (Pub n_name) = Some (OV (VStr [])) ∧ view h2 1 (Pub n_connected) = Some (OV (VBool true)).
Proof. vm_compute. by split_and!. Qed.
Print Assumptions C37_merge_refuted.
Lemma not_an_end_b t a :
  forallb (λ c, forallb (λ '(_, k), match other_name k with Some q => negb (str_eqb q a) | None => true end) (c_props c)) (t : schema) = true → not_an_end t a.
Proof.
  intros H c p k (c' & Hc'%mro_sub & Hp)%lookup_in_props. rewrite forallb_forall in H. specialize (H c' (proj1 (elem_of_list_In _ _) Hc')).
  rewrite forallb_forall in H. specialize (H (p, k) (proj1 (elem_of_list_In _ _) Hp)). simpl in H.
  destruct k; cbn [other_name] in H; try done; intros ->; by rewrite str_eqb_refl in H.
Qed.
Example C37_example :
  declared_class Bt R topo_map merge2 (u "t1") = Some n_CIM14_CPSM_Topology_Core_Terminal_Terminal ∧ not_an_end topo n_name ∧ foreign_root Bt merge2 ∧
  forallb (λ ev, match ev with EEnd e => negb (str_eqb (after_last_dot (local Bt e)) n_name) | _ => true end) merge2 = true ∧
  let '(x1, d1, h1) := reads Bt R topo topo_map 20 pf_demo false root merge1 [] heap_empty in wf_b h1 = true ∧ cls_of h1 0 = Some n_CIM14_CPSM_Topology_Core_Terminal_Terminal.
Proof. split; [compute_now|]. split; [apply not_an_end_b; compute_now|]. split; [apply foreign_b_ok; compute_now|]. split; [compute_now|]. vm_compute. by split_and!. Qed.

(** *** C38 *)
(** The start of a nested element is passed over: properties inside it go to
    the enclosing object. *)
Theorem C38_inside t pm base rdf fuel pf err root pre e rest d h v d' hk :
  Reaches base rdf t pm fuel pf err root pre (EStart e :: rest) d h (Some v) d' hk →
  Reaches base rdf t pm fuel pf err root (pre ++ [EStart e]) rest d h (Some v) d' hk.
Proof. intros HR. by eapply (Reaches_step base rdf); [exact HR|]. Qed.
Print Assumptions C38_inside.
(** Its end ends the description of the enclosing object too: no property
    after it, up to the next start of an object, is assigned to anything. *)
Theorem C38_after_exact t pm base rdf fuel pf err root pre e id props rest d h v d' hk :
  Reaches base rdf t pm fuel pf err root pre (EEnd e :: flat_map (λ p, [EStart p; EEnd p]) props ++ rest) d h (Some v) d' hk →
  is_object base rdf e id → Forall (λ p, ∃ a, is_property base rdf p a) props →
  Reaches base rdf t pm fuel pf err root (pre ++ EEnd e :: flat_map (λ p, [EStart p; EEnd p]) props) rest d h None d' hk.
Proof.
  intros HR [Hb Hu] Hps.
  assert (Reaches base rdf t pm fuel pf err root (pre ++ [EEnd e]) (flat_map (λ p, [EStart p; EEnd p]) props ++ rest) d h None d' hk) as H1.
  { eapply (Reaches_step base rdf); [exact HR|]. unfold pass2_step. rewrite Hb. unfold uuid_of in Hu.
    destruct (rdf_attr rdf "ID" (e_attrs e)), (rdf_attr rdf "about" (e_attrs e)); done. }
  clear HR. rewrite cons_middle, (assoc_L (++)). revert H1. generalize (pre ++ [EEnd e]). intros pre1 H1. revert pre1 H1.
  induction Hps as [|p props [a Hp] Hps IH]; intros pre1 H1; cbn [flat_map app] in *.
  - by rewrite app_nil_r.
  - assert (Reaches base rdf t pm fuel pf err root ((pre1 ++ [EStart p]) ++ [EEnd p]) (flat_map (λ p, [EStart p; EEnd p]) props ++ rest) d h None d' hk) as H2.
    { assert (Reaches base rdf t pm fuel pf err root (pre1 ++ [EStart p]) (EEnd p :: flat_map (λ p, [EStart p; EEnd p]) props ++ rest) d h None d' hk) as H3.
      { eapply (Reaches_step base rdf); [exact H1|]. unfold pass2_step. rewrite (is_property_uuid base rdf _ _ Hp). by destruct (in_base base p). }
      by eapply (Reaches_step base rdf); [exact H3|]. }
    specialize (IH _ H2). revert IH. by rewrite <- !(assoc_L (++)).
Qed.
Print Assumptions C38_after_exact.
(** A node that contains its terminal; both have names. *)
Definition nested : list event :=
  let c := item_elem Bt (obj "ConnectivityNode" "c1" []) in let t := item_elem Bt (obj "Terminal" "t1" []) in
  EStart c :: EStart t :: pel_events Bt (att "IdentifiedObject.name" "inner") ++ EEnd t ::
  pel_events Bt (att "IdentifiedObject.name" "outer") ++ [EEnd c; EEnd root].
Theorem C38_nested_refuted :
  let '(x, d', h') := reads Bt R topo topo_map 20 pf_demo false root nested [] heap_empty in
  x = None ∧ assoc (u "c1") d' = Some (VRef 1) ∧ assoc (u "t1") d' = Some (VRef 0) ∧
  view h' 1 (Pub n_name) = Some (OV (VStr (u "inner"))) ∧ view h' 0 (Pub n_name) = Some (OV (VStr [])).
Proof. vm_compute. by split_and!. Qed.
Print Assumptions C38_nested_refuted.
Example C38_example :
  is_object Bt R (item_elem Bt (obj "Terminal" "t1" [])) (u "t1") ∧
  nested = take 4 nested ++ EEnd (item_elem Bt (obj "Terminal" "t1" [])) :: flat_map (λ p, [EStart p; EEnd p]) [pel_elem Bt (att "IdentifiedObject.name" "outer")] ++ drop 7 nested ∧
  is_property Bt R (pel_elem Bt (att "IdentifiedObject.name" "outer")) n_name ∧
  ∃ cur d' hk, Reaches Bt R topo topo_map 20 pf_demo false root (take 4 nested) (drop 4 nested) [] heap_empty cur d' hk ∧ cur = Some (VRef 1).
Proof.
  split; [repeat split; compute_now|]. split; [compute_now|]. split; [repeat split; compute_now|].
  destruct (reach_ex topo topo_map Bt 4 nested [] heap_empty (λ cur d' hk, bool_decide (cur = Some (VRef 1)))) as (cur & d' & hk & HR & HP); [compute_now|].
  rewrite !bool_decide_eq_true in HP. exists cur, d', hk. split; [exact HR|assumption].
Qed.

(** *** C39 *)
Theorem C39_enum t pm base rdf f pf err root pre e rest d h o d' hk a uri p s cur :
  Reaches base rdf t pm (S f) pf err root pre (EEnd e :: rest) d h (Some (VRef o)) d' hk →
  enum_elem base rdf e a uri → uri = p ++ u "." ++ s → 46%N ∉ s → plain_value t hk o a cur →
  ∃ h', Reaches base rdf t pm (S f) pf err root (pre ++ [EEnd e]) rest d h (Some (VRef o)) d' h' ∧
        same_classes hk h' ∧ SetSlot (view hk) (view h') o (Pub a) (VStr s).
Proof.
  intros HR He Hu Hd Hp. destruct (plain_write t hk o a cur (VStr s) f Hp) as (h' & E & Hsc & HE); [done|].
  exists h'. split_and!; [|done|done]. eapply (Reaches_step base rdf); [exact HR|].
  assert (∃ c r, uri = c :: r) as (c & r & Hcr). { rewrite Hu. destruct p; simpl; eauto. }
  rewrite Hcr in He. rewrite (property_step base rdf t (S f) pf d' o e a hk (proj1 He)), (enum_set base rdf t (S f) pf d' o e a c r hk He).
  rewrite <- Hcr. unfold set_enum. rewrite (shows_found t hk o a cur (plain_shows _ _ _ _ _ Hp)), Hu.
  change (p ++ u "." ++ s) with (p ++ 46%N :: s). rewrite (rsplit_dot p s Hd). by rewrite E.
Qed.
Print Assumptions C39_enum.
Theorem C39_no_dot t pm base rdf fuel pf err root pre e rest d h o d' hk a uri cur :
  Reaches base rdf t pm fuel pf err root pre (EEnd e :: rest) d h (Some (VRef o)) d' hk →
  enum_elem base rdf e a uri → 46%N ∉ uri → shows t hk o a cur →
  reads base rdf t pm fuel pf err root (pre ++ EEnd e :: rest) d h = (Some IndexError, d', hk).
Proof.
  intros HR He Hd Hs. eapply (Reaches_raise base rdf); [exact HR|].
  rewrite (property_step base rdf t fuel pf d' o e a hk (proj1 He)). destruct uri as [|c r].
  - destruct He as ((_ & _ & _ & <-) & Hr & _). unfold set_property. unfold resource in Hr. rewrite Hr. by rewrite (shows_found t hk o _ cur Hs).
  - rewrite (enum_set base rdf t fuel pf d' o e a c r hk He). unfold set_enum. rewrite (shows_found t hk o a cur Hs).
    by rewrite (rsplit_none _ Hd).
Qed.
Print Assumptions C39_no_dot.
(** The control source of a generating unit of the balanced profile. *)
Definition enum_doc : list event :=
  flat Bb [obj "GeneratingUnit" "g1" [ref "GeneratingUnit.genControlSource" "http://iec.ch/TC57/2010/CIM-schema-cim15#GeneratorControlSource.offAGC"; ref "GeneratingUnit.genControlSource" "ABC"]] ++ [EEnd root].
Example C39_example :
  let uri := "http://iec.ch/TC57/2010/CIM-schema-cim15#GeneratorControlSource.offAGC"%string in
  enum_elem Bb R (pel_elem Bb (ref "GeneratingUnit.genControlSource" uri)) n_genControlSource (u uri) ∧ enum_elem Bb R (pel_elem Bb (ref "GeneratingUnit.genControlSource" "ABC")) n_genControlSource (u "ABC") ∧
  u uri = u "http://iec.ch/TC57/2010/CIM-schema-cim15#GeneratorControlSource" ++ u "." ++ u "offAGC" ∧ 46%N ∉ u "offAGC" ∧ 46%N ∉ u "ABC" ∧
  (∃ cur d' hk, Reaches Bb R bal bal_map 20 pf_demo false root (take 2 enum_doc) (drop 2 enum_doc) [] heap_empty cur d' hk ∧ cur = Some (VRef 0) ∧
     plain_value bal hk 0 n_genControlSource (VStr (u "plantControl"))) ∧
  (∃ cur d' hk, Reaches Bb R bal bal_map 20 pf_demo false root (take 4 enum_doc) (drop 4 enum_doc) [] heap_empty cur d' hk ∧ cur = Some (VRef 0) ∧
     shows bal hk 0 n_genControlSource (VStr (u "offAGC"))).
Proof.
  cbv zeta. split; [repeat split; compute_now|]. split; [repeat split; compute_now|]. split; [compute_now|].
  split. { apply no_dot. compute_now. }
  split. { apply no_dot. compute_now. }
  split.
  - destruct (reach_ex bal bal_map Bb 2 enum_doc [] heap_empty (λ cur d' hk, bool_decide (cur = Some (VRef 0)) && view_is hk 0 (Pub n_genControlSource) (OV (VStr (u "plantControl"))) &&
      bool_decide (cls_of hk 0 = Some n_CIM15_CDPSM_Balanced_IEC61970_Generation_Production_GeneratingUnit_GeneratingUnit))) as (cur & d' & hk & HR & HP); [compute_now|].
    rewrite !andb_true_iff, !bool_decide_eq_true in HP. destruct HP as [[? ?%view_is_ok] ?].
    exists cur, d', hk. split; [exact HR|]. split; [assumption|]. eapply plain_intro; [eassumption|compute_now|assumption].
  - destruct (reach_ex bal bal_map Bb 4 enum_doc [] heap_empty (λ cur d' hk, bool_decide (cur = Some (VRef 0)) && view_is hk 0 (Pub n_genControlSource) (OV (VStr (u "offAGC"))) &&
      bool_decide (cls_of hk 0 = Some n_CIM15_CDPSM_Balanced_IEC61970_Generation_Production_GeneratingUnit_GeneratingUnit))) as (cur & d' & hk & HR & HP); [compute_now|].
    rewrite !andb_true_iff, !bool_decide_eq_true in HP. destruct HP as [[? ?%view_is_ok] ?].
    exists cur, d', hk. split; [exact HR|]. split; [assumption|]. apply plain_shows. eapply plain_intro; [eassumption|compute_now|assumption].
Qed.

(** *** C40 *)
(** A many-to-many reference is appended whatever the collection contains. *)
Theorem C40_twice_exact t pm base rdf f pf err root pre e rest d h o d' hk a id k ck q ps : (t, pm) ∈ tables →
  Sound t h → dict_alive d h → foreign_root base (pre ++ EEnd e :: rest) →
  compatible_doc base rdf t pm (pre ++ EEnd e :: rest) d h →
  Reaches base rdf t pm (S (S f)) pf err root pre (EEnd e :: rest) d h (Some (VRef o)) d' hk →
  reference_elem base rdf e a id → key_of a = Pub a →
  declared_class base rdf pm (pre ++ EEnd e :: rest) id = Some k →
  cls_of hk o = Some ck → lookup_prop t ck a = Some (PManyMany q) → view hk o (Priv a) = Some (OL ps) →
  ∃ y h', assoc id d' = Some (VRef y) ∧
    Reaches base rdf t pm (S (S f)) pf err root (pre ++ [EEnd e]) rest d h (Some (VRef o)) d' h' ∧
    view h' o (Priv a) = Some (OL (ps ++ [VRef y])) ∧
    (∀ qs, view hk y (Priv q) = Some (OL qs) → view h' y (Priv q) = Some (OL (if decide (VRef o ∈ qs) then qs else qs ++ [VRef o]))) ∧
    ∀ o' k', (o', k') ≠ (o, Priv a) → (o', k') ≠ (y, Priv q) → view h' o' k' = view hk o' k'.
Proof.
  intros Ht HS Hd Hf Hc HR He Hpub Hk Hck Hl Hv.
  destruct (Reaches_reference t pm Ht base rdf f pf err root pre e rest d h o d' hk a id k HS Hd Hf Hc HR He Hpub Hk)
    as (ck' & y & Hck' & Hy & _ & Hstep). rewrite Hck in Hck'. injection Hck' as <-. rewrite Hl in Hstep.
  destruct (Hstep I) as (h' & HR' & _ & _ & HE). unfold ref_effect in HE. rewrite Hl in HE. destruct HE as [H1 H2 H3].
  exists y, h'. split_and!; [done|done|by apply H1|done|done].
Qed.
Print Assumptions C40_twice_exact.
(** Both ends stated: the end read second has the other one twice. *)
Definition both_doc : list event :=
  flat Bb [obj "TransformerEnd" "e1" [ref "TransformerEnd.ToMeshImpedance" "#m1"];
           obj "TransformerMeshImpedance" "m1" [ref "TransformerMeshImpedance.ToTransformerEnd" "#e1"]] ++ [EEnd root].
Theorem C40_once_refuted :
  let '(x, d', h') := reads Bb R bal bal_map 20 pf_demo false root both_doc [] heap_empty in
  x = None ∧ assoc (u "e1") d' = Some (VRef 0) ∧ assoc (u "m1") d' = Some (VRef 1) ∧
  view h' 0 (Priv n_ToMeshImpedance) = Some (OL [VRef 1]) ∧ view h' 1 (Priv n_ToTransformerEnd) = Some (OL [VRef 0; VRef 0]).
Proof. vm_compute. by split_and!. Qed.
Print Assumptions C40_once_refuted.
Definition m1_ref : elem := pel_elem Bb (ref "TransformerMeshImpedance.ToTransformerEnd" "#e1").
Example C40_example :
  both_doc = take 6 both_doc ++ EEnd m1_ref :: drop 7 both_doc ∧ foreign_root Bb both_doc ∧ compatible_doc Bb R bal bal_map both_doc [] heap_empty ∧
  reference_elem Bb R m1_ref n_ToTransformerEnd (u "e1") ∧
  declared_class Bb R bal_map both_doc (u "e1") = Some n_CIM15_CDPSM_Balanced_IEC61970_Wires_TransformerEnd_TransformerEnd ∧
  lookup_prop bal n_CIM15_CDPSM_Balanced_IEC61970_Wires_TransformerMeshImpedance_TransformerMeshImpedance n_ToTransformerEnd = Some (PManyMany n_ToMeshImpedance) ∧
  ∃ cur d' hk, Reaches Bb R bal bal_map 20 pf_demo false root (take 6 both_doc) (drop 6 both_doc) [] heap_empty cur d' hk ∧
    bool_decide (cur = Some (VRef 1)) && view_is hk 1 (Priv n_ToTransformerEnd) (OL [VRef 0]) &&
    bool_decide (cls_of hk 1 = Some n_CIM15_CDPSM_Balanced_IEC61970_Wires_TransformerMeshImpedance_TransformerMeshImpedance) = true.
Proof.
  split; [compute_now|]. split; [apply foreign_b_ok; compute_now|]. split; [apply compatible_doc_b_ok; compute_now|].
  split; [repeat split; compute_now|]. split; [compute_now|]. split; [compute_now|].
  apply (reach_ex bal bal_map Bb 6 both_doc [] heap_empty (λ cur d' hk,
    bool_decide (cur = Some (VRef 1)) && view_is hk 1 (Priv n_ToTransformerEnd) (OL [VRef 0]) &&
    bool_decide (cls_of hk 1 = Some n_CIM15_CDPSM_Balanced_IEC61970_Wires_TransformerMeshImpedance_TransformerMeshImpedance))).
  compute_now.
Qed.
