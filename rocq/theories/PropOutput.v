(** What cimwrite takes from the objects, and what it leaves behind when it
    raises (PyCIM/RDFXMLWriter.py). *)
From Coq Require Import String ZArith.
From stdpp Require Import prelude gmap.
From Verif Require Import PyStr PyHeap Schema Assoc AssocSpec Reader ReaderSpec XmlWriter XmlSpec XmlCalls.
From Verif Require Import HeapFacts LiveFacts XmlDocFacts WriteSpec CimWriter WriteFacts WriteDocFacts WriteTables OutputFacts Names TabCIM14 TabCIM15 Tables ReadDemo PropWriter Demo PropAssoc PropIter.

(** *** C79 *)
(** Two heaps with the same objects, but other contents of the lists. *)
Section blind.
Context (t : schema) (fint : pystr → option Z) (nsURI pre : pystr).
Definition agree {A} (x y : A * heap * writer) : Prop := fst (fst x) = fst (fst y) ∧ h_objs (snd (fst x)) = h_objs (snd (fst y)) ∧ snd x = snd y.
Definition blind {A} (m : WM A) : Prop := ∀ h h' w, h_objs h = h_objs h' → agree (m h w) (m h' w).
Lemma blind_ret {A} (a : A) : blind (wret a).
Proof. by intros h h' w E. Qed.
Lemma blind_raise {A} e : blind (wraise (A:=A) e).
Proof. by intros h h' w E. Qed.
Lemma blind_bind {A B} (m : WM A) (f : A → WM B) : blind m → (∀ a, blind (f a)) → blind (wbind m f).
Proof.
  intros Hm Hf h h' w E. unfold wbind. specialize (Hm h h' w E). destruct (m h w) as [[[a|e] h1] w1], (m h' w) as [[[a'|e'] h1'] w1'];
    destruct Hm as (H1 & H2 & H3); cbn [fst snd] in H1, H2, H3; simplify_eq; [by apply Hf|done].
Qed.
Lemma blind_for {A} (xs : list A) body : (∀ x, blind (body x)) → blind (wfor xs body).
Proof. intros Hb. induction xs as [|x xs IH]; cbn [wfor]; [apply blind_ret|]. by apply blind_bind. Qed.
Lemma blind_writer {A} (m : writer → (A + exn) * writer) : blind (on_writer m).
Proof. intros h h' w E. unfold on_writer. by destruct (m w). Qed.
Lemma cls_objs h h' o : h_objs h = h_objs h' → cls_of h o = cls_of h' o.
Proof. unfold cls_of. by intros ->. Qed.
Lemma val_cls_objs h h' v : h_objs h = h_objs h' → val_cls h v = val_cls h' v.
Proof. intros E. destruct v; try done. by apply cls_objs. Qed.
Lemma read_objs h h' v k : h_objs h = h_objs h' → fst (read_key v k h) = fst (read_key v k h').
Proof. intros E. unfold read_key. destruct v; try done. rewrite (slot_objs h' h) by done. by destruct (slot h' o k). Qed.
Lemma getattr_objs h h' v a : h_objs h = h_objs h' → fst (getattr t v a h) = fst (getattr t v a h').
Proof.
  intros E. unfold getattr. destruct v; try done.
  assert (obj_prop t h o a = obj_prop t h' o a) as -> by (unfold obj_prop; by rewrite (cls_objs h h')).
  destruct (obj_prop t h' o a) as [[]|]; try (by apply read_objs). unfold bind, read_key. rewrite (slot_objs h' h) by done.
  destruct (slot h' o (Priv target)); [|done]. rewrite (val_cls_objs h h') by done. by case_decide.
Qed.
Lemma blind_get v a : blind (on_heap (getattr t v a)).
Proof.
  intros h h' w E. unfold on_heap. pose proof (getattr_objs h h' v a E). pose proof (getattr_heap t v a h). pose proof (getattr_heap t v a h').
  destruct (getattr t v a h), (getattr t v a h'). cbn [fst snd] in *. by subst.
Qed.
Lemma blind_show v : blind (show v).
Proof. unfold show. destruct (py_str v); [apply blind_ret|apply blind_raise]. Qed.
Lemma blind_attr v c a : blind (write_attr t fint pre v c a).
Proof.
  unfold write_attr. destruct (is_enum c a); [apply blind_ret|]. apply blind_bind; [apply blind_get|intros x].
  destruct (assoc a (c_defaults c)); [|apply blind_raise]. destruct (py_eq fint x v0); [apply blind_ret|].
  apply blind_bind; [apply blind_show|intros s]. apply blind_writer.
Qed.
Lemma blind_enum v c a : blind (write_enum t nsURI pre v c a).
Proof.
  unfold write_enum. destruct (assoc a (c_enums c)); [|apply blind_ret]. apply blind_bind; [apply blind_get|intros x].
  apply blind_bind; [apply blind_show|intros s]. apply blind_writer.
Qed.
Lemma blind_ref v c a : blind (write_ref t pre v c a).
Proof.
  unfold write_ref. destruct (existsb _ _); [apply blind_ret|]. apply blind_bind; [apply blind_get|intros x].
  case_decide; [apply blind_ret|]. apply blind_bind; [apply blind_get|intros i].
  apply blind_bind; [apply blind_show|intros s]. apply blind_writer.
Qed.
Lemma blind_entry v : blind (write_entry t fint nsURI pre v).
Proof.
  unfold write_entry. apply blind_bind; [apply blind_get|intros i]. intros h h' w E. cbv beta. rewrite (val_cls_objs h h') by done.
  destruct (ck ← val_cls h' v; find_cls t ck) as [k|]; [|done].
  destruct i; try done. revert h h' w E. change (blind (wbind (on_writer (λ w, let '(n, w') := w_start (pre ++ u ":" ++ c_name k) [(rdf_prefix ++ u ":ID", s)] [] w in (inl n, w'))) (λ _,
    let cs := below_element t (c_key k) in
    wbind (wfor cs (λ c, wfor (c_attrs c) (write_attr t fint pre v c))) (λ _,
    wbind (wfor cs (λ c, wfor (c_attrs c) (write_enum t nsURI pre v c))) (λ _,
    wbind (wfor cs (λ c, wfor (c_refs c) (write_ref t pre v c))) (λ _,
    on_writer (w_end None))))))).
  apply blind_bind; [apply blind_writer|intros _]. cbv zeta.
  apply blind_bind; [apply blind_for; intros; apply blind_for; intros; apply blind_attr|intros _].
  apply blind_bind; [apply blind_for; intros; apply blind_for; intros; apply blind_enum|intros _].
  apply blind_bind; [apply blind_for; intros; apply blind_for; intros; apply blind_ref|intros _]. apply blind_writer.
Qed.
Lemma blind_cimwrite d enc h h' : h_objs h = h_objs h' → agree (cimwrite t fint nsURI pre d enc h) (cimwrite t fint nsURI pre d enc h').
Proof.
  intros E. unfold cimwrite, cimwrite_body. apply blind_bind; [apply blind_writer|intros _|done].
  apply blind_bind; [apply blind_writer|intros n]. apply blind_bind; [apply blind_for; intros; apply blind_entry|intros _]. apply blind_writer.
Qed.
End blind.

(** The file and the outcome, in all cases. *)
Notation outcome x := (fst (fst x), w_out (snd x)).
Theorem C79_lists t fint d enc h h' : h_objs h = h_objs h' →
  outcome (writes_to t fint d enc h) = outcome (writes_to t fint d enc h').
Proof. intros E. destruct (blind_cimwrite t fint cim15_uri cim15_prefix d enc h h' E) as (H1 & _ & H3). unfold writes_to. by rewrite H1, H3. Qed.
Print Assumptions C79_lists.
(** Hence adding to a many-to-many collection, or removing from it, does not
    change what is written. *)
Theorem C79_add t f fint d enc h x p q ys : pkind t h x p = Some (PManyMany q) →
  outcome (writes_to t fint d enc (snd (add t f (VRef x) p ys h))) = outcome (writes_to t fint d enc h).
Proof. intros Hk. apply C79_lists. by eapply static_add_many. Qed.
Print Assumptions C79_add.
Theorem C79_remove t f fint d enc h x p q ys : pkind t h x p = Some (PManyMany q) →
  outcome (writes_to t fint d enc (snd (remove t f (VRef x) p ys h))) = outcome (writes_to t fint d enc h).
Proof. intros Hk. apply C79_lists. by eapply static_remove_many. Qed.
Print Assumptions C79_remove.
(** Only the values of the dictionary count. *)
Theorem C79_keys t fint d d' enc h : map snd d = map snd d' → writes_to t fint d enc h = writes_to t fint d' enc h.
Proof.
  intros E. unfold writes_to, cimwrite, cimwrite_body.
  assert (∀ h w, wfor d (λ kv : pystr * val, write_entry t fint cim15_uri cim15_prefix (snd kv)) h w =
                 wfor d' (λ kv, write_entry t fint cim15_uri cim15_prefix (snd kv)) h w) as Hw.
  { clear h. revert d' E. induction d as [|[k v] d IH]; intros [|[k' v'] d'] E h w; try done. cbn [map snd] in E. injection E as -> E.
    cbn [wfor snd]. unfold wbind. destruct (write_entry t fint cim15_uri cim15_prefix v' h w) as [[[[]|] h1] w1]; [|done]. by apply IH. }
  unfold wbind, on_writer. destruct (w_start _ _ _ _) as [n w1]. cbn iota beta. by rewrite Hw.
Qed.
Print Assumptions C79_keys.
(** Two states in which the objects have the same classes and the same attributes
    and references (collections aside) give the same document. *)
Lemma listed_mono {A B} (P Q : A → list B → Prop) l r : (∀ x r, P x r → Q x r) → listed P l r → listed Q l r.
Proof. intros H. induction 1; constructor; eauto. Qed.
Theorem C79_seen t fint d enc h h' : (∀ o, cls_of h o = cls_of h' o) → (∀ o a v, sees t h o a v ↔ sees t h' o a v) →
  ∀ w, writes_to t fint d enc h = (inl tt, h, w) ↔ writes_to t fint d enc h' = (inl tt, h', w).
Proof.
  assert (∀ h h' o e, (∀ o, cls_of h o = cls_of h' o) → (∀ o a v, sees t h o a v ↔ sees t h' o a v) →
    Writes t fint cim_ns h o e → Writes t fint cim_ns h' o e) as Hw.
  { clear h h'. intros h h' o e Hc Hs (k & top & below & as_ & es & rs & H1 & H2 & H3 & H4 & H5 & H6 & H7 & H8 & H9).
    exists k, top, below, as_, es, rs. rewrite <- Hc, <- Hs. split_and!; try done.
    - eapply listed_mono; [|exact H6]. intros c r. apply listed_mono. intros a r' [?|(? & v & dv & Hv & ?)]; [by left|].
      right. split; [done|]. exists v, dv. by rewrite <- Hs.
    - eapply listed_mono; [|exact H7]. intros c r. apply listed_mono. intros a r' [?|(dt & v & s & ? & Hv & ?)]; [by left|].
      right. exists dt, v, s. by rewrite <- Hs.
    - eapply listed_mono; [|exact H8]. intros c r. apply listed_mono. intros a r' [?|(? & [[? ?]|(x & i & s & ? & ? & ?)])]; [by left| |];
        (right; split; [done|]); [left|right; exists x, i, s]; by rewrite <- ?Hs. }
  intros Hc Hs w. rewrite !writes_spec. split; intros [_ (es & Hes & Ed)]; (split; [done|]); exists es; (split; [|done]);
    (eapply Forall2_impl; [exact Hes|]); intros kv e (o & Eo & Ho); exists o; (split; [done|]).
  - by apply (Hw h h').
  - apply (Hw h' h); [by intros; rewrite Hc|by intros; rewrite Hs|done].
Qed.
Print Assumptions C79_seen.

Lemma sees_objs t h h' : h_objs h = h_objs h' → ∀ o a v, sees t h o a v → sees t h' o a v.
Proof.
  intros E o a v H. assert (∀ l, v ≠ VList l) as Hv by (intros l ->; by eapply sees_not_list).
  apply getattr_sees; [done|]. apply getattr_sees in H; [|done]. by rewrite <- (getattr_objs t h h').
Qed.
(** A communication link with two remote units, and without one of them: the link
    and its units can be written, and the file says nothing of their links. *)
Notation two_objs := [(u "a", VRef 6); (u "b", VRef 7)].
Notation one_unit := (snd (remove cim14 20 (VRef 6) n_RemoteUnits [VRef 8] two_units)).
Example C79_example :
  pkind cim14 two_units 6 n_RemoteUnits = Some (PManyMany n_CommunicationLinks) ∧
  view two_units 6 (Priv n_RemoteUnits) = Some (OL [VRef 7; VRef 8]) ∧ view one_unit 6 (Priv n_RemoteUnits) = Some (OL [VRef 7]) ∧
  h_objs one_unit = h_objs two_units ∧
  (∀ o, cls_of one_unit o = cls_of two_units o) ∧ (∀ o a v, sees cim14 one_unit o a v ↔ sees cim14 two_units o a v) ∧
  fst (fst (writes_to cim14 fint_demo two_objs (u "utf-8") two_units)) = inl tt ∧
  map snd two_objs = map snd [(u "x", VRef 6); (u "x", VRef 7)].
Proof.
  assert (pkind cim14 two_units 6 n_RemoteUnits = Some (PManyMany n_CommunicationLinks)) as Hk by compute_now.
  pose proof (static_remove_many cim14 20 6 n_RemoteUnits n_CommunicationLinks [VRef 8] two_units Hk) as Ho.
  split; [exact Hk|]. split; [compute_now|]. split; [compute_now|]. split; [exact Ho|].
  split; [intros o; exact (cls_objs _ _ o Ho)|].
  split; [intros o a v; split; [exact (sees_objs _ _ _ Ho o a v)|exact (sees_objs _ _ _ (eq_sym Ho) o a v)]|].
  split; [compute_now|reflexivity].
Qed.

(** *** C80 *)
(** When cimwrite raises, what has been written up to then is not an XML document. *)
Theorem C80_unfinished t pm fint d enc h e h' w : (t, pm) ∈ tables → enc_ok enc →
  writes_to t fint d enc h = (inr e, h', w) → parse (w_out w) = None ∧ parse_ns (w_out w) = None.
Proof.
  intros Ht Henc H. assert (parse (w_out w) = None) as Hp by (eapply cimwrite_fails; [done..|exact H]).
  split; [done|]. unfold parse_ns. by rewrite Hp.
Qed.
Print Assumptions C80_unfinished.
(** Together with C52: what is written is an XML document exactly when cimwrite
    returns and all strings consist of XML characters. *)
Theorem C80_well_formed_iff t pm fint d enc h r h' w : (t, pm) ∈ tables → enc_ok enc →
  writes_to t fint d enc h = (r, h', w) →
  (∃ n, parse (w_out w) = Some n) ↔
  r = inl tt ∧ ∃ es, Writes_all t fint cim_ns h d es ∧ ∀ e, e ∈ es → chars_ok xml_char xml_char e.
Proof.
  intros Ht Henc H. destruct r as [[]|e].
  - destruct (C52_well_formed_exact _ _ _ _ _ _ _ _ Ht Henc H) as (es & Hes & _ & Hp & _). rewrite Hp. split; [eauto|].
    intros (_ & es' & Hes' & Hc). by rewrite (C51_unique _ _ _ _ _ _ _ Hes Hes').
  - destruct (C80_unfinished _ _ _ _ _ _ _ _ _ Ht Henc H) as [-> _]. split; [by intros [? ?]|by intros [? _]].
Qed.
Print Assumptions C80_well_formed_iff.
(** A dictionary value that is not a CIM object; an identifier that is not a
    string, after the first element. *)
Example C80_example :
  let '(x, d', h') := reads Bb R bal bal_map 20 pf_demo false root (plant (u "A<B")) [] heap_empty in
  (let '(r, h2, w) := writes_to bal fint_demo [(u "a", VInt 3)] (u "utf-8") h' in r = inr AttributeError ∧
     w_out w = u "<?xml version='1.0'?>" ++ [10%N] ++
       u "<rdf:RDF xmlns:cim=""http://iec.ch/TC57/2010/CIM-schema-cim15#"" xmlns:rdf=""http://www.w3.org/1999/02/22-rdf-syntax-ns#""") ∧
  (let '(r, h2, w) := writes_to bal fint_demo d' (u "utf-8") (snd (setattr bal 20 (VRef 1) (u "UUID") (VInt 3) h')) in
     r = inr AttributeError ∧ length (w_out w) = 465).
Proof. vm_compute. by split_and!. Qed.
