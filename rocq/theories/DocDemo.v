(** Checks of the hypotheses about whole documents, and documents for the
    examples. *)
From Coq Require Import String.
From stdpp Require Import prelude gmap.
From Verif Require Import PyStr PyHeap Schema Assoc AssocSpec TableSpec HeapFacts Reader ReaderSpec ReaderFacts FrameFacts CreateFacts
  StatementFacts ReadSound ReadDocFacts Names TabProfiles Tables DocSpec DocFacts ReadDemo.

Section checks.
Context (base rdf : pystr) (S : schema) (pm : list (name * name)) (evs : list event) (d : dict) (h : heap).
Notation cl := (class_in base rdf pm evs d h).
Notation sts := (doc_statements base rdf pm evs d).
Definition refs : list (pystr * name * pystr) :=
  omap (λ st, match resource rdf st.2 with
              | Some (c :: y) => if (c =? 35)%N then match cl y with Some _ => Some (st.1, after_last_dot (local base st.2), y) | None => None end else None
              | _ => None
              end) sts.
Lemma refs_ok x a y : refers base rdf cl sts x a y → (x, a, y) ∈ refs.
Proof.
  intros (e & Hin & [(_ & _ & _ & <-) Hr] & [k Hk]). apply elem_of_list_omap. exists (x, e). split; [done|]. cbn [fst snd].
  rewrite Hr. change (u "#" ++ y) with (35%N :: y). cbn iota. by rewrite Hk.
Qed.
Definition said (r : pystr * name * pystr) : list (pystr * name * pystr) :=
  let '(x, a, y) := r in
  match cl x, cl y with
  | Some ck, Some tk =>
      match lookup_prop S ck a with
      | Some (POneMany _) => [(x, a, y)]
      | Some (PAlias p _) => [(x, p, y)]
      | Some (POneOne q) => [(x, a, y); (y, q, x)]
      | Some (PManyOne p') => (y, p', x) :: match lookup_prop S tk p' with Some (PAlias p _) => [(y, p, x)] | _ => [] end
      | _ => []
      end
  | _, _ => []
  end.
Lemma said_ok x p y : doc_says base rdf S pm evs d h x p y → (x, p, y) ∈ flat_map said refs.
Proof.
  assert (∀ x a y r, refers base rdf cl sts x a y → r ∈ said (x, a, y) → r ∈ flat_map said refs) as Hin.
  { intros x0 a y0 r Hr%refs_ok Hs. apply elem_of_list_In, in_flat_map. exists (x0, a, y0). by rewrite <- !elem_of_list_In. }
  intros [x' p' y' ck q H1 H2 H3|x' a' p' y' ck c H1 H2 H3|x' p' p'' y' q ck tk H1 H2 H3 H4 [H5 H6]|x' p' y' ck q H1 H2 H3|x' p' y' tk q H1 H2 H3];
    pose proof H1 as (_ & _ & _ & [k Hk]); eapply Hin; try exact H1; unfold said.
  - rewrite H2, Hk, H3. set_solver.
  - rewrite H2, Hk, H3. set_solver.
  - rewrite H3, H2, H4. destruct H6 as [-> |[c H6]]; [set_solver|]. rewrite H6. set_solver.
  - rewrite H2, Hk, H3. set_solver.
  - rewrite H2, Hk, H3. set_solver.
Qed.
Definition coherent_b : bool :=
  let l := flat_map said refs in
  forallb (λ '(x, p, y), match declared_class base rdf pm evs x with Some _ => true | None => false end &&
    forallb (λ '(x', p', y'), negb (str_eqb x x') || negb (str_eqb p p') || str_eqb y y') l) l.
Lemma coherent_b_ok : coherent_b = true → coherent base rdf S pm evs d h.
Proof.
  unfold coherent_b. cbv zeta. rewrite forallb_forall. intros H. split.
  - intros x p y y' Hy%said_ok%elem_of_list_In Hy'%said_ok%elem_of_list_In. specialize (H _ Hy). cbn beta iota in H.
    apply andb_true_iff in H as [_ H]. rewrite forallb_forall in H. specialize (H _ Hy'). cbn beta iota in H.
    rewrite !str_eqb_refl in H. cbn in H. by apply str_eqb_eq in H.
  - intros x p y Hy%said_ok%elem_of_list_In. specialize (H _ Hy). cbn beta iota in H. apply andb_true_iff in H as [H _].
    by destruct (declared_class base rdf pm evs x).
Qed.
Definition ends_b : bool := forallb (λ '(x, a, y),
  match cl x with
  | Some ck => pub_b a && match lookup_prop S ck a with Some (POneMany _ | PManyOne _ | POneOne _ | PManyMany _ | PAlias _ _) => true | _ => false end
  | None => true
  end) refs.
Lemma ends_b_ok : ends_b = true → refers_to_ends base rdf S pm evs d h.
Proof.
  unfold ends_b. rewrite forallb_forall. intros H x a y ck Hr%refs_ok%elem_of_list_In Hx. specialize (H _ Hr). cbn beta iota in H.
  rewrite Hx in H. apply andb_true_iff in H as [H1%pub_b_ok H2]. split; [done|]. destruct (lookup_prop S ck a) as [[]|]; done.
Qed.
Definition contained_b : bool := forallb (λ st, match declared_class base rdf pm evs st.1 with Some _ => true | None => false end) sts.
Lemma contained_b_ok : contained_b = true → self_contained base rdf pm evs d.
Proof.
  unfold contained_b. rewrite forallb_forall. intros H id e Hin%elem_of_list_In. specialize (H _ Hin). cbn in H.
  by destruct (declared_class base rdf pm evs id).
Qed.
Definition plain_doc_b : bool := forallb (λ st,
  match resource rdf st.2, declared_class base rdf pm evs st.1 with
  | Some r, Some k => negb (has_prefix (u "#") r) || match lookup_prop S k (after_last_dot (local base st.2)) with Some _ => true | None => false end
  | _, _ => true
  end) sts.
Lemma plain_doc_b_ok : plain_doc_b = true → attributes_plain base rdf S pm evs d.
Proof.
  unfold plain_doc_b. rewrite forallb_forall. intros H id k a e r Hk (_ & Hl & _) Hin Hr. unfold about in Hin.
  apply elem_of_list_omap in Hin as ([i e'] & Hin%elem_of_list_In & E). cbn [fst snd] in E. case_decide as Hd; [|done].
  destruct Hd as [-> Ha]. injection E as ->. specialize (H _ Hin). cbn [fst snd] in H. rewrite Hr, Hk, Ha, Hl in H.
  by destruct (has_prefix (u "#") r).
Qed.
Definition instantiable_b : bool := forallb (λ '(_, k), negb (existsb (str_eqb k) unconstructible)) (declared base rdf pm evs).
Lemma instantiable_b_ok : instantiable_b = true → instantiable base rdf pm evs.
Proof.
  unfold instantiable_b. rewrite forallb_forall. intros H id k Hin%elem_of_list_In Hk. specialize (H _ Hin). cbn beta iota in H.
  apply negb_true_iff in H. apply ReaderFacts.existsb_str in Hk. congruence.
Qed.
End checks.

Definition pel_name (p : pel) : name := after_last_dot (p_tag p).
Definition pel_eqb (p q : pel) : bool :=
  bool_decide (p_tag p = p_tag q) && bool_decide (p_attrs p = p_attrs q) && bool_decide (p_text p = p_text q).
Lemma pel_eqb_ok p q : pel_eqb p q = true → p = q.
Proof. unfold pel_eqb. rewrite !andb_true_iff, !bool_decide_eq_true. destruct p, q; cbn. by intros [[-> ->] ->]. Qed.
Fixpoint pels_eqb (ps qs : list pel) : bool :=
  match ps, qs with [], [] => true | p :: ps, q :: qs => pel_eqb p q && pels_eqb ps qs | _, _ => false end.
Lemma pels_eqb_ok ps : ∀ qs, pels_eqb ps qs = true → ps = qs.
Proof. induction ps as [|p ps IH]; intros [|q qs]; try done. cbn. rewrite andb_true_iff. by intros [->%pel_eqb_ok ->%IH]. Qed.
Definition same_item_b (i i' : item) : bool :=
  bool_decide (i_tag i = i_tag i') && bool_decide (i_attrs i = i_attrs i') &&
  forallb (λ a, pels_eqb (filter (λ p, after_last_dot (p_tag p) = a) (i_props i)) (filter (λ p, after_last_dot (p_tag p) = a) (i_props i')))
    (map pel_name (i_props i ++ i_props i')).
Lemma same_item_b_ok i i' : same_item_b i i' = true → same_item i i'.
Proof.
  unfold same_item_b. rewrite !andb_true_iff, !bool_decide_eq_true, forallb_forall. intros [[H1 H2] H3]. split_and!; [done..|].
  intros a. destruct (decide (a ∈ map pel_name (i_props i ++ i_props i'))) as [Hin|Hn]; [by apply pels_eqb_ok, H3, elem_of_list_In|].
  assert (∀ ps, (∀ p, p ∈ ps → p ∈ i_props i ++ i_props i') → filter (λ p, after_last_dot (p_tag p) = a) ps = []) as Hf.
  { intros ps Hp. induction ps as [|p ps IH]; [done|]. rewrite filter_cons, decide_False.
    - apply IH. intros. apply Hp. by right.
    - intros Ha. apply Hn, elem_of_list_fmap. exists p. split; [done|]. apply Hp. left. }
  rewrite !Hf; [done|intros p Hp; apply elem_of_app; by right|intros p Hp; apply elem_of_app; by left].
Qed.
Lemma rotate {A} (a b c : A) : [a; b; c] ≡ₚ [c; a; b].
Proof. exact (Permutation_app_comm [a; b] [c]). Qed.

(** *** Documents *)
Definition tied_items : list item := [
  obj "ConnectivityNode" "c1" [ref "ConnectivityNode.TopologicalNode" "#n1"; att "IdentifiedObject.name" "first"; att "IdentifiedObject.name" "second"];
  obj "TopologicalNode" "n1" [ref "TopologicalNode.Terminal" "#t1"];
  obj "Terminal" "t1" [att "Terminal.connected" "tRUE"; ref "Terminal.TopologicalNode" "#n1"]].
Definition tied_items' : list item := [
  obj "Terminal" "t1" [ref "Terminal.TopologicalNode" "#n1"; att "Terminal.connected" "tRUE"];
  obj "ConnectivityNode" "c1" [att "IdentifiedObject.name" "first"; ref "ConnectivityNode.TopologicalNode" "#n1"; att "IdentifiedObject.name" "second"];
  obj "TopologicalNode" "n1" [ref "TopologicalNode.Terminal" "#t1"]].
Definition tied_doc : list event := flat Bt tied_items ++ [EEnd root].
Definition tied_doc' : list event := flat Bt tied_items' ++ [EEnd root].
