(** A model in several files. *)
From Coq Require Import String.
From stdpp Require Import prelude gmap.
From Verif Require Import PyStr PyHeap Schema Assoc AssocSpec TableSpec HeapFacts Reader ReaderSpec ReaderFacts FrameFacts CreateFacts
  StatementFacts ReaderTabs CompatFacts ReadSound ReadStepFacts ReadDocFacts Names TabProfiles Tables DocSpec DocFacts RefFacts
  ReturnFacts OrderFacts ReadDemo DocDemo PropReader PropDoc PartsSpec PartsFacts.

Section whole.
Context (t : schema) (pm : list (name * name)) (Ht : (t, pm) ∈ tables) (base rdf : pystr) (f : nat) (pf : pystr → option pystr).
Notation F := (Datatypes.S (Datatypes.S f)).
Notation class_of := (class_of base rdf pm).
Notation told := (told base rdf pm).
Context (items : list item) (root : elem) (h : heap).
Notation whole := (flat base items ++ [EEnd root]).
Context (Hroot : in_base base root = false) (Hok : Forall (flat_ok base rdf) items) (Hdist : distinct_ids rdf items).
Lemma whole_class id : class_in base rdf pm whole [] h id = class_of items id.
Proof using Hroot. unfold class_in. rewrite class_root by done. by destruct (class_of items id). Qed.
Lemma whole_told : doc_statements base rdf pm whole [] = told items.
Proof using Hroot Hok Hdist. by apply statements_told. Qed.
Lemma whole_says x p y : doc_says base rdf t pm whole [] h x p y ↔ says base rdf t (class_of items) (told items) x p y.
Proof using Hroot Hok Hdist. unfold doc_says. rewrite whole_told. split; apply says_mono; try done; intros id k; by rewrite whole_class. Qed.
Lemma whole_compatible : compatible_doc base rdf t pm whole [] h →
  ∀ id e, (id, e) ∈ told items → ∃ ck, class_of items id = Some ck ∧ compatible base rdf t (class_of items) ck e.
Proof using Hroot Hok Hdist.
  intros Hc id e Hin. destruct (Hc id e) as (ck & Hck & Hco).
  { rewrite <- (doc_statements_class base rdf pm [] h whole) by done. by rewrite whole_told. }
  exists ck. rewrite whole_class in Hck. split; [done|]. intros a Ha. specialize (Hco a Ha). destruct (resource rdf e) as [[|c rr]|]; [done| |done].
  destruct c as [|c]; [done|]. do 6 (destruct c as [c|c|]; try done). intros tk Htk. apply Hco. by rewrite whole_class.
Qed.
Lemma whole_agree : coherent base rdf t pm whole [] h → agreeing base rdf t (class_of items) (told items).
Proof using Hroot Hok Hdist.
  intros [H _] x p y y' H1 H2. apply (H x p y y'); by apply whole_says.
Qed.
Lemma whole_plain : attributes_plain base rdf t pm whole [] →
  ∀ id k a e r, class_of items id = Some k → plain_attr t k a → e ∈ mine base id a (told items) → resource rdf e = Some r → has_prefix (u "#") r = false.
Proof using Hroot Hok Hdist.
  intros H id k a e r Hk Hpl Hin. apply (H id k a e r); [by rewrite class_root|done|]. unfold about. by rewrite whole_told.
Qed.
Lemma whole_made err d' h' : Sound t h → compatible_doc base rdf t pm whole [] h → coherent base rdf t pm whole [] h → attributes_plain base rdf t pm whole [] →
  reads base rdf t pm F pf err root whole [] h = (None, d', h') → Made t base rdf pf (class_of items) (told items) d' h'.
Proof using Ht Hroot Hok Hdist.
  intros Hs Hc Hco Hp Hr.
  assert (concat [items] = items) as E by apply app_nil_r.
  assert (Made t base rdf pf (class_of (concat ([] ++ [items]))) (told (concat ([] ++ [items]))) d' h') as HM; [|by rewrite (E : concat ([] ++ [items]) = items) in HM].
  eapply (one_read t pm Ht base rdf f pf [items]) with (l := []) (r := []) (h := h); try done; rewrite ?E; try done.
  - intros l part r Hl. destruct l as [|x [|? l]]; [|done..]. injection Hl as <- <-. cbn [app concat]. rewrite app_nil_r. split.
    + intros x a y (e & _ & _ & Hy). done.
    + intros x p y Hsay. eapply says_class in Hsay as [? _]; [done|]. intros id e. by apply told_subject.
  - by apply whole_compatible.
  - by apply whole_agree.
  - by apply whole_plain.
Qed.
End whole.

(** *** C92 *)
(** A model spread over any number of files, such that references lead to
    objects of the same file or an earlier one and each object is described
    in one file: reading the files one after the other into one dictionary
    gives what reading them as one file gives. *)
Theorem C92_parts t pm base rdf f pf root err parts h d1 h1 d2 h2 : (t, pm) ∈ tables → Sound t h → in_base base root = false →
  Forall (flat_ok base rdf) (concat parts) → distinct_ids rdf (concat parts) → in_turn base rdf pm t parts →
  let whole := flat base (concat parts) ++ [EEnd root] in
  compatible_doc base rdf t pm whole [] h → coherent base rdf t pm whole [] h → attributes_plain base rdf t pm whole [] →
  reads base rdf t pm (S (S f)) pf err root whole [] h = (None, d1, h1) →
  reads_parts base rdf pm t (S (S f)) pf parts [] h d2 h2 →
  alike t (class_of base rdf pm (concat parts)) d1 h1 d2 h2.
Proof.
  intros Ht Hs Hroot Hok Hdist Hturn whole Hc Hco Hp Hr1 Hr2.
  pose proof (whole_agree t pm base rdf _ root h Hroot Hok Hdist Hco) as Hag.
  eapply (Made_alike t base rdf pf _ (told base rdf pm (concat parts))); [done| |].
  - by eapply whole_made.
  - eapply (parts_made t pm Ht base rdf f pf parts Hok Hdist Hturn) with (l := []) (h := h); try done.
    + by eapply whole_compatible.
    + by eapply whole_plain.
    + by apply Made_start.
Qed.
Print Assumptions C92_parts.
(** If the one file is read without an exception, so are the parts. *)
Theorem C92_returns t pm base rdf f pf root err parts h d1 h1 : (t, pm) ∈ tables → Sound t h → in_base base root = false →
  Forall (flat_ok base rdf) (concat parts) → distinct_ids rdf (concat parts) → in_turn base rdf pm t parts →
  let whole := flat base (concat parts) ++ [EEnd root] in
  compatible_doc base rdf t pm whole [] h → coherent base rdf t pm whole [] h → attributes_plain base rdf t pm whole [] →
  refers_to_ends base rdf t pm whole [] h → instantiable base rdf pm whole →
  reads base rdf t pm (S (S f)) pf err root whole [] h = (None, d1, h1) →
  ∃ d2 h2, reads_parts base rdf pm t (S (S f)) pf parts [] h d2 h2.
Proof.
  intros Ht Hs Hroot Hok Hdist Hturn whole Hc Hco Hp He Hi Hr. subst whole.
  pose proof (whole_agree t pm base rdf _ root h Hroot Hok Hdist Hco) as Hag.
  pose proof (whole_compatible t pm base rdf _ root h Hroot Hok Hdist Hc) as Hcomp.
  pose proof (whole_plain t pm base rdf _ root Hroot Hok Hdist Hp) as Hpl.
  assert (∀ rest l d hk, parts = l ++ rest → Made t base rdf pf (class_of base rdf pm (concat l)) (told base rdf pm (concat l)) d hk →
    ∃ d2 h2, reads_parts base rdf pm t (S (S f)) pf rest d hk d2 h2) as Hgo; [|by apply (Hgo parts [] [] h); [|apply Made_start]].
  induction rest as [|part rest IH]; intros l d hk Hall HM; [by exists d, hk; constructor|].
  pose proof (one_ok base rdf parts Hok Hdist l part rest Hall) as (_ & _ & _ & _ & Hok2 & Hdist2).
  pose proof (one_cl pm base rdf parts Hok Hdist l part rest Hall root Hroot) as Hcl.
  pose proof (one_apart pm base rdf parts Hok Hdist l part rest Hall root Hroot) as Hap.
  pose proof (one_up pm base rdf parts Hok Hdist l part rest Hall) as Hup.
  pose proof (one_told pm base rdf parts l part rest Hall) as [Htold _].
  set (evs := flat base part ++ [EEnd root]) in *. set (cl := class_of base rdf pm (concat (l ++ [part]))) in *.
  assert (doc_statements base rdf pm evs d = told base rdf pm part) as Hsts.
  { apply (one_sts pm base rdf parts Hok Hdist l part rest Hall root Hroot). intros id Hn. rewrite (md_class _ _ _ _ _ _ _ _ HM) in Hn.
    destruct (assoc id d) as [v|] eqn:Ev; [|done]. destruct (md_alive _ _ _ _ _ _ _ _ HM _ _ Ev) as (o & -> & [k Hk]). cbn in Hn. congruence. }
  assert (∀ id, class_in base rdf pm evs d hk id = cl id) as Hcin.
  { intros id. eapply (step_cl t pm base rdf pf); [exact HM|exact Hcl|exact Hap]. }
  assert (∀ id k, declared_class base rdf pm evs id = Some k → class_of base rdf pm (concat parts) id = Some k) as Hdc.
  { intros id k Hk. apply Hup. rewrite Hcl, Hk. by rewrite (Hap id k). }
  assert (∀ id k a, declared_class base rdf pm evs id = Some k →
    mine base id a (told base rdf pm (concat parts)) = mine base id a (told base rdf pm part)) as Hmine.
  { intros id k a Hk. destruct (one_eq parts l part rest Hall) as [E _]. rewrite E, !told_app, !mine_app.
    assert (∀ x, x ∈ concat l ++ concat rest → uuid_of rdf (i_attrs x) ≠ Some id) as Hne.
    { unfold evs in Hk. rewrite class_root in Hk by done. destruct (class_in_items base rdf pm part id k Hok2 Hk) as (i & Hi' & Hid & _).
      pose proof Hdist as Hd'. rewrite E in Hd'. apply distinct_app in Hd' as (_ & Hd1 & Hd2). apply distinct_app in Hd1 as (_ & _ & Hd1).
      intros x [Hx|Hx]%elem_of_app Hidx; [|by eapply (Hd1 i x)]. eapply (Hd2 x i id); [done| |done|done]. apply elem_of_app. by left. }
    assert (∀ its, (∀ x, x ∈ its → uuid_of rdf (i_attrs x) ≠ Some id) → mine base id a (told base rdf pm its) = []) as Hnil.
    { intros its Hits. apply mine_nil. intros e Hin. apply elem_of_list_In, in_flat_map in Hin as (i & Hi'%elem_of_list_In & Hin%elem_of_list_In).
      destruct (uuid_of rdf (i_attrs i)) as [id'|] eqn:Eid; [|by apply elem_of_nil in Hin].
      destruct (assoc (i_tag i) pm); [|by apply elem_of_nil in Hin]. apply elem_of_list_fmap in Hin as (p & [= -> ->] & _). by apply (Hits i). }
    rewrite (Hnil (concat l)), (Hnil (concat rest)); [by rewrite app_nil_r|intros x Hx; apply Hne, elem_of_app; auto..]. }
  assert (∃ d' h', reads base rdf t pm (S (S f)) pf false root evs d hk = (None, d', h')) as (d' & h' & Hr').
  { pose proof (step_compatible t pm base rdf pf _ _ d hk HM evs (told base rdf pm part) cl Hcl Hap Hsts
      (one_comp t pm base rdf parts Hok Hdist Hcomp l part rest Hall root Hroot)) as Hcmp.
    apply (C90_returns t pm base rdf f pf root evs d hk Ht (md_sound _ _ _ _ _ _ _ _ HM) (md_alive _ _ _ _ _ _ _ _ HM)
      (flat_foreign base root part Hroot) Hcmp).
  + (* references are to ends *)
    intros x a y ck Href Hx. rewrite Hcin in Hx. rewrite Hsts in Href. apply (He x a y ck); [|rewrite whole_class by done; by apply Hup].
    rewrite (whole_told pm base rdf _ root Hroot Hok Hdist).
    eapply refers_mono; [|exact Htold|exact Href]. intros id k. rewrite Hcin, whole_class by done. apply Hup.
  + intros id e. rewrite Hsts. unfold evs. rewrite class_root by done. by apply told_subject.
  + intros id k a e r Hk Hpla. unfold about. rewrite Hsts. eapply (one_plain t pm base rdf parts Hok Hdist Hpl l part rest Hall root Hroot); done.
  + intros id k Hin. unfold evs in Hin. apply (Hi id k). destruct (one_eq parts l part rest Hall) as [E _]. rewrite E.
    rewrite declared_app in Hin |- *. rewrite !flat_app, !declared_app. rewrite !elem_of_app. apply elem_of_app in Hin as [Hin|Hin]; auto.
  + intros id k a Hk Hpla _. unfold about. rewrite Hsts.
    pose proof (Hdc _ _ Hk) as HkW.
    destruct (reads_attribute t pm Ht base rdf (S f) pf err root (flat base (concat parts) ++ [EEnd root]) [] h d1 h1 id k a (proj1 (so_consistent _ _ Hs))) as (o & v0 & v & _ & _ & H1 & H2 & _).
    * done.
    * by apply flat_foreign.
    * exact Hr.
    * by rewrite class_root.
    * exact Hpla.
    * intros e r. eapply Hp; [by rewrite class_root|done].
    * exists v0, v. split; [done|]. unfold about in H2. rewrite (whole_told pm base rdf _ root Hroot Hok Hdist) in H2.
      fold (mine base id a (told base rdf pm (concat parts))) in H2. by rewrite (Hmine id k a Hk) in H2. }
  destruct (IH (l ++ [part]) d' h') as (d2 & h2 & Hrest).
  - by rewrite <- app_assoc.
  - eapply (one_read t pm Ht base rdf f pf parts Hok Hdist Hturn Hcomp Hag Hpl l part rest Hall root Hroot); done.
  - exists d2, h2. eapply rp_cons; done.
Qed.
Print Assumptions C92_returns.

Section checks.
Context (base rdf : pystr) (T : schema) (cl : pystr → option name) (sts : list (pystr * elem)).
Definition refs_in : list (pystr * name * pystr) :=
  omap (λ st, match resource rdf st.2 with
              | Some (c :: y) => if (c =? 35)%N then match cl y with Some _ => Some (st.1, after_last_dot (local base st.2), y) | None => None end else None
              | _ => None
              end) sts.
Lemma refs_in_ok x a y : refers base rdf cl sts x a y → (x, a, y) ∈ refs_in.
Proof.
  intros (e & Hin & [(_ & _ & _ & <-) Hr] & [k Hk]). apply elem_of_list_omap. exists (x, e). split; [done|]. cbn [fst snd].
  rewrite Hr. change (u "#" ++ y) with (35%N :: y). cbn iota. by rewrite Hk.
Qed.
Definition said_in (r : pystr * name * pystr) : list (pystr * name * pystr) :=
  let '(x, a, y) := r in
  match cl x, cl y with
  | Some ck, Some tk =>
      match lookup_prop T ck a with
      | Some (POneMany _) => [(x, a, y)]
      | Some (PAlias p _) => [(x, p, y)]
      | Some (POneOne q) => [(x, a, y); (y, q, x)]
      | Some (PManyOne p') => (y, p', x) :: match lookup_prop T tk p' with Some (PAlias p _) => [(y, p, x)] | _ => [] end
      | _ => []
      end
  | _, _ => []
  end.
Lemma said_in_ok x p y : says base rdf T cl sts x p y → (x, p, y) ∈ flat_map said_in refs_in.
Proof.
  assert (∀ x a y r, refers base rdf cl sts x a y → r ∈ said_in (x, a, y) → r ∈ flat_map said_in refs_in) as Hin.
  { intros x0 a y0 r Hr%refs_in_ok Hs. apply elem_of_list_In, in_flat_map. exists (x0, a, y0). by rewrite <- !elem_of_list_In. }
  intros [x' p' y' ck q H1 H2 H3|x' a' p' y' ck c H1 H2 H3|x' p' p'' y' q ck tk H1 H2 H3 H4 [H5 H6]|x' p' y' ck q H1 H2 H3|x' p' y' tk q H1 H2 H3];
    pose proof H1 as (_ & _ & _ & [k Hk]); eapply Hin; try exact H1; unfold said_in.
  - rewrite H2, Hk, H3. set_solver.
  - rewrite H2, Hk, H3. set_solver.
  - rewrite H3, H2, H4. destruct H6 as [-> |[c H6]]; [set_solver|]. rewrite H6. set_solver.
  - rewrite H2, Hk, H3. set_solver.
  - rewrite H2, Hk, H3. set_solver.
Qed.
End checks.
Definition known {A} (o : option A) : bool := match o with Some _ => true | None => false end.
Lemma known_ok {A} (o : option A) : known o = true → is_Some o.
Proof. destruct o; [by eexists|done]. Qed.
Fixpoint in_turn_b base rdf pm T (all l parts : list (list item)) : bool :=
  match parts with
  | [] => true
  | part :: r =>
      let cl := class_of base rdf pm (concat all) in let sts := told base rdf pm part in
      forallb (λ '(x, a, y), known (class_of base rdf pm (concat (l ++ [part])) y)) (refs_in base rdf cl sts) &&
      forallb (λ '(x, p, y), known (class_of base rdf pm part x)) (flat_map (said_in T cl) (refs_in base rdf cl sts)) &&
      in_turn_b base rdf pm T all (l ++ [part]) r
  end.
Lemma in_turn_b_all base rdf pm T all parts : ∀ pre, in_turn_b base rdf pm T all pre parts = true → ∀ l part r, parts = l ++ part :: r →
  (∀ x a y, refers base rdf (class_of base rdf pm (concat all)) (told base rdf pm part) x a y → is_Some (class_of base rdf pm (concat ((pre ++ l) ++ [part])) y)) ∧
  (∀ x p y, says base rdf T (class_of base rdf pm (concat all)) (told base rdf pm part) x p y → is_Some (class_of base rdf pm part x)).
Proof.
  induction parts as [|p ps IH]; intros pre H l part r E; [by destruct l|].
  cbn [in_turn_b] in H. cbv zeta in H. apply andb_true_iff in H as [[H1 H2]%andb_true_iff H3]. rewrite forallb_forall in H1, H2.
  destruct l as [|p' l]; cbn [app] in E; injection E as -> ->.
  - rewrite app_nil_r. split.
    + intros x a y Hr%refs_in_ok%elem_of_list_In. apply known_ok. exact (H1 _ Hr).
    + intros x q y Hr%said_in_ok%elem_of_list_In. apply known_ok. exact (H2 _ Hr).
  - specialize (IH _ H3 l part r eq_refl). by rewrite <- (app_assoc pre [p'] l) in IH.
Qed.
Lemma in_turn_b_ok base rdf pm T parts : in_turn_b base rdf pm T parts [] parts = true → in_turn base rdf pm T parts.
Proof. intros H l part r E. by apply (in_turn_b_all base rdf pm T parts parts [] H l part r). Qed.

(** A topological node in one file, a terminal and a connectivity node that
    refer to it in the next. *)
Definition part1 : list item := [obj "TopologicalNode" "n1" [att "IdentifiedObject.name" "busbar"]].
Definition part2 : list item := [
  obj "Terminal" "t1" [ref "Terminal.TopologicalNode" "#n1"; att "Terminal.connected" "true"];
  obj "ConnectivityNode" "c1" [ref "ConnectivityNode.TopologicalNode" "#n1"; att "IdentifiedObject.name" "first"]].
Notation both := (flat Bt (concat [part1; part2]) ++ [EEnd root]).
Notation read1 := (reads Bt R topo topo_map 20 pf_demo false root (flat Bt part1 ++ [EEnd root]) [] heap_empty).
Example C92_example :
  Sound topo heap_empty ∧ in_base Bt root = false ∧ Forall (flat_ok Bt R) (concat [part1; part2]) ∧ distinct_ids R (concat [part1; part2]) ∧
  in_turn Bt R topo_map topo [part1; part2] ∧
  compatible_doc Bt R topo topo_map both [] heap_empty ∧ coherent Bt R topo topo_map both [] heap_empty ∧ attributes_plain Bt R topo topo_map both [] ∧
  refers_to_ends Bt R topo topo_map both [] heap_empty ∧ instantiable Bt R topo_map both ∧
  fst (fst (reads Bt R topo topo_map 20 pf_demo false root both [] heap_empty)) = None ∧
  (let '(x1, d1, h1) := read1 in
   let '(x2, d2, h2) := reads Bt R topo topo_map 20 pf_demo false root (flat Bt part2 ++ [EEnd root]) d1 h1 in
   x1 = None ∧ x2 = None ∧ map fst d2 = [u "n1"; u "t1"; u "c1"] ∧ view h2 1 (Priv n_TopologicalNode) = Some (OV (VRef 0)) ∧
   view h2 0 (Priv n_Terminal) = Some (OL [VRef 1]) ∧ view h2 0 (Priv n_ConnectivityNodes) = Some (OL [VRef 2])).
Proof.
  split; [apply Sound_empty|]. split; [compute_now|]. split; [apply flat_ok_b_ok; compute_now|].
  split; [apply (bool_decide_eq_true_1 (NoDup _)); compute_now|]. split; [apply in_turn_b_ok; compute_now|].
  split; [apply compatible_doc_b_ok; compute_now|]. split; [apply coherent_b_ok; compute_now|]. split; [apply plain_doc_b_ok; compute_now|].
  split; [apply ends_b_ok; compute_now|]. split; [apply instantiable_b_ok; compute_now|]. split; [compute_now|].
  vm_compute. by split_and!.
Qed.
(** The order of the files matters: read the other way round, the references
    are lost although every read returns and all the objects are there. *)
Theorem C92_order_refuted :
  let '(x1, d1, h1) := reads Bt R topo topo_map 20 pf_demo false root (flat Bt part2 ++ [EEnd root]) [] heap_empty in
  let '(x2, d2, h2) := reads Bt R topo topo_map 20 pf_demo false root (flat Bt part1 ++ [EEnd root]) d1 h1 in
  let '(x, d, h) := reads Bt R topo topo_map 20 pf_demo false root (flat Bt (part2 ++ part1) ++ [EEnd root]) [] heap_empty in
  x1 = None ∧ x2 = None ∧ x = None ∧ d2 = d ∧ map fst d = [u "t1"; u "c1"; u "n1"] ∧
  view h 0 (Priv n_TopologicalNode) = Some (OV (VRef 2)) ∧ view h2 0 (Priv n_TopologicalNode) = Some (OV VNone) ∧
  view h 2 (Priv n_Terminal) = Some (OL [VRef 0]) ∧ view h2 2 (Priv n_Terminal) = Some (OL []).
Proof. vm_compute. by split_and!. Qed.
Print Assumptions C92_order_refuted.
