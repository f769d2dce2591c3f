(** Documents used by the examples, over two of the smaller class tables, and
    boolean checks of the hypotheses. *)
From Coq Require Import String.
From stdpp Require Import prelude gmap.
From Verif Require Import PyStr PyHeap Schema Assoc AssocSpec HeapFacts Reader ReaderSpec ReaderFacts FrameFacts CreateFacts
  StatementFacts Names TabProfiles Tables.

(** *** Checks *)
Definition pub_b (a : name) : bool := match a with 95%N :: _ => false | _ => true end.
Lemma pub_b_ok a : pub_b a = true → key_of a = Pub a.
Proof. destruct a as [|c a]; [done|]. unfold pub_b, key_of. destruct c as [|c]; [done|]. do 7 (destruct c as [c|c|]; try done). Qed.
Definition prop_eqb (k k' : option prop) : bool := bool_decide (k = k').
Definition class_ends_b (S : schema) (ck p tk q : name) : bool :=
  bool_decide (lookup_prop S ck p = Some (POneMany q)) &&
  match lookup_prop S tk q with
  | Some (PManyOne p') => str_eqb p' p || match lookup_prop S ck p' with Some (PAlias p2 _) => str_eqb p2 p | _ => false end
  | _ => false
  end.
Lemma class_ends_b_ok S ck p tk q : class_ends_b S ck p tk q = true → class_ends S ck p tk q.
Proof.
  unfold class_ends_b, class_ends. rewrite andb_true_iff, bool_decide_eq_true. intros [H1 H2]. split; [done|].
  destruct (lookup_prop S tk q) as [[?|p'|?|?| |?|? ?]|]; try done. exists p'. split; [done|].
  apply orb_true_iff in H2 as [->%str_eqb_eq|H2]; [by left|]. right.
  destruct (lookup_prop S ck p') as [[?|?|?|?| |?|? ?]|]; try done. apply str_eqb_eq in H2 as ->. eauto.
Qed.
Definition links_b (S : schema) (ck a tk : name) : bool :=
  match lookup_prop S ck a with
  | None => pub_b a && negb (existsb (λ c, existsb (str_eqb a) (c_attrs c)) (mro S ck))
  | Some PPrivate => true
  | Some (POneMany q) => class_ends_b S ck a tk q
  | Some (PAlias p _) => match lookup_prop S ck p with Some (POneMany q) => class_ends_b S ck p tk q | _ => false end
  | Some (POneOne q) => bool_decide (lookup_prop S tk q = Some (POneOne a))
  | Some (PManyOne p') => class_ends_b S tk p' ck a
  | Some (PManyMany q) => bool_decide (lookup_prop S tk q = Some (PManyMany a))
  | Some (PManyOneDbl _) => false
  end.
Lemma links_b_ok S ck a tk : links_b S ck a tk = true → links_to S ck a tk.
Proof.
  unfold links_b, links_to. destruct (lookup_prop S ck a) as [[q|q|q|q| |q|p c]|] eqn:E.
  - apply class_ends_b_ok.
  - intros H%class_ends_b_ok. exists q. eauto.
  - by rewrite bool_decide_eq_true.
  - by rewrite bool_decide_eq_true.
  - done.
  - done.
  - destruct (lookup_prop S ck p) as [[]|]; try done. intros H%class_ends_b_ok. eauto.
  - rewrite andb_true_iff, negb_true_iff. intros [H1 H2]. split; [by apply pub_b_ok|]. intros c' Hc' Ha.
    assert (existsb (λ c, existsb (str_eqb a) (c_attrs c)) (mro S ck) = true); [|congruence].
    apply existsb_exists. exists c'. split; [by apply elem_of_list_In|]. by apply ReaderFacts.existsb_str.
Qed.
Definition plain_b (S : schema) (ck a : name) : bool :=
  pub_b a && bool_decide (lookup_prop S ck a = None) && existsb (λ c, existsb (str_eqb a) (c_attrs c)) (mro S ck).
Lemma plain_b_ok S ck a : plain_b S ck a = true → plain_attr S ck a.
Proof.
  unfold plain_b, plain_attr. rewrite !andb_true_iff, bool_decide_eq_true. intros [[H1%pub_b_ok H2] H3]. split_and!; [done..|].
  apply existsb_exists in H3 as (c & Hc%elem_of_list_In & Ha%ReaderFacts.existsb_str). eauto.
Qed.
Section checks.
Context (base rdf : pystr).
Definition compatible_b (S : schema) (cl : pystr → option name) (ck : name) (e : elem) : bool :=
  let a := after_last_dot (local base e) in
  match resource rdf e with
  | Some (c :: id) => if (c =? 35)%N then match cl id with Some tk => links_b S ck a tk | None => true end else plain_b S ck a
  | _ => plain_b S ck a
  end.
Lemma compatible_b_ok S cl ck e : compatible_b S cl ck e = true → compatible base rdf S cl ck e.
Proof.
  unfold compatible_b, compatible. intros H a (_ & _ & _ & <-). destruct (resource rdf e) as [[|c id]|].
  - by apply plain_b_ok.
  - destruct (N.eqb_spec c 35) as [->|Hn].
    + intros tk Htk. rewrite Htk in H. by apply links_b_ok.
    + destruct c as [|c]; [by apply plain_b_ok|]. do 6 (destruct c as [c|c|]; try by apply plain_b_ok). done.
  - by apply plain_b_ok.
Qed.
Definition compatible_doc_b (S : schema) (pm : list (name * name)) (evs : list event) (d : dict) (h : heap) : bool :=
  let cl := class_in base rdf pm evs d h in
  forallb (λ st, match cl st.1 with Some ck => compatible_b S cl ck st.2 | None => false end)
    (statements base rdf (λ id, match cl id with Some _ => true | None => false end) None evs).
Lemma compatible_doc_b_ok S pm evs d h : compatible_doc_b S pm evs d h = true → compatible_doc base rdf S pm evs d h.
Proof.
  unfold compatible_doc_b, compatible_doc. cbv zeta. rewrite forallb_forall. intros H id e He%elem_of_list_In.
  specialize (H _ He). cbn [fst snd] in H. destruct (class_in _ _ _ _ _ _ id) as [ck|]; [|done]. exists ck. split; [done|].
  by apply compatible_b_ok.
Qed.
Definition foreign_b (evs : list event) : bool :=
  forallb (λ ev, match ev with EStart e | EEnd e => negb (e_root e) || negb (in_base base e) | _ => true end) evs.
Lemma foreign_b_ok evs : foreign_b evs = true → foreign_root base evs.
Proof.
  unfold foreign_b. rewrite forallb_forall. intros H e [He|He] Hr; apply elem_of_list_In in He; specialize (H _ He); simpl in H;
    rewrite Hr in H; by destruct (in_base base e).
Qed.
Lemma property_b e : in_base base e = true → rdf_attr rdf "ID" (e_attrs e) = None → rdf_attr rdf "about" (e_attrs e) = None →
  is_property base rdf e (after_last_dot (local base e)).
Proof. done. Qed.
End checks.
Lemma Sound_empty S : Sound S heap_empty.
Proof.
  assert (∀ o, cls_of heap_empty o = None) as Hn by (intros o; unfold cls_of, heap_empty; cbn; by rewrite lookup_empty).
  assert (∀ o k, view heap_empty o k = None) as Hv. { intros o k. unfold view, slot, heap_empty. cbn. by rewrite lookup_empty. }
  assert (∀ o k, slot heap_empty o k = None) as Hs. { intros o k. unfold slot, heap_empty. cbn. by rewrite lookup_empty. }
  split.
  - split.
    + split; intros *; by rewrite Hs.
    + split; intros *; rewrite Hv; by intros.
  - intros o p k. unfold pkind. by rewrite Hn.
  - intros o ck a w. by rewrite Hn.
Qed.
Lemma dict_alive_nil h : dict_alive [] h.
Proof. by intros id v. Qed.

(** *** Building documents *)
Definition R : pystr := rdf_default.
Definition rid (id : string) : list (pystr * pystr) := [(u "{" ++ R ++ u "}" ++ u "ID", u id)].
Definition rabout (id : string) : list (pystr * pystr) := [(u "{" ++ R ++ u "}" ++ u "about", u "#" ++ u id)].
Definition rres (uri : string) : list (pystr * pystr) := [(u "{" ++ R ++ u "}" ++ u "resource", u uri)].
Definition obj (tag id : string) (ps : list pel) : item := Item (u tag) (rid id) None ps.
Definition att (tag text : string) : pel := Pel (u tag) [] (Some (u text)).
Definition ref (tag uri : string) : pel := Pel (u tag) (rres uri) None.
Definition root : elem := Elem (u "{" ++ R ++ u "}RDF") [] None true.
(** An example of [float]: accepts digits and dots. *)
Definition pf_demo (t : pystr) : option pystr :=
  if forallb (λ c, is_digit c || (c =? 46)%N) t && negb (bool_decide (t = [])) then Some t else None.

(** *** The topology profile of CIM14 *)
Definition topo : schema := cim14_cpsm_topology.
Definition topo_map : list (name * name) := cim14_cpsm_topology_map.
Definition Bt : pystr := u "{" ++ cim14_cpsm_topology_uri ++ u "#}".
Lemma topo_in : (topo, topo_map) ∈ tables.
Proof. do 7 right. left. Qed.
Definition topo_items : list item := [
  obj "ConnectivityNode" "c1" [ref "ConnectivityNode.TopologicalNode" "#n1"; ref "ConnectivityNode.TopologicalNode" "#n2";
                               att "IdentifiedObject.name" "first"];
  obj "TopologicalNode" "n1" [ref "TopologicalNode.Terminal" "#t1"];
  obj "TopologicalNode" "n2" [];
  obj "Terminal" "t1" [att "Terminal.connected" "tRUE"]].
Definition topo_doc : list event := flat Bt topo_items ++ [EEnd root].

(** *** The state variables profile of CIM14 *)
Definition sv : schema := cim14_cpsm_statevariables.
Definition sv_map : list (name * name) := cim14_cpsm_statevariables_map.
Definition Bs : pystr := u "{" ++ cim14_cpsm_statevariables_uri ++ u "#}".
Lemma sv_in : (sv, sv_map) ∈ tables.
Proof. do 6 right. left. Qed.

(** *** The balanced profile of CIM15 *)
Definition bal : schema := cim15_cdpsm_balanced.
Definition bal_map : list (name * name) := cim15_cdpsm_balanced_map.
Definition Bb : pystr := u "{" ++ cim15_cdpsm_balanced_uri ++ u "#}".
Lemma bal_in : (bal, bal_map) ∈ tables.
Proof. do 13 right. left. Qed.
