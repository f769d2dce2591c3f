(** cimwrite, related to the elements that are to be written. *)
From Coq Require Import String ZArith Lia.
From stdpp Require Import prelude gmap.
From Verif Require Import PyStr PyHeap Schema Assoc AssocSpec Reader ReaderSpec XmlWriter XmlSpec XmlCalls XmlWriterFacts XmlDocFacts.
From Verif Require Import WriteSpec CimWriter.

(** *** Values *)
Lemma getattr_heap S v a h : snd (getattr S v a h) = h.
Proof.
  unfold getattr. destruct v; try done. destruct (obj_prop S h o a) as [[]|]; unfold bind, read_key; repeat case_match; simplify_eq; done.
Qed.
Lemma read_key_inv o k h v : (∀ l, v ≠ VList l) → (fst (read_key (VRef o) k h) = inl v ↔ view h o k = Some (OV v)).
Proof.
  intros Hv. unfold read_key, view. destruct (slot h o k) as [w|]; cbn [fst mbind option_bind]; [|done].
  split; [intros [= ->]; destruct v; try done; by destruct (Hv l)|]. destruct w; try (intros [= ->]; done).
  by destruct (h_lists h !! l).
Qed.
Lemma read_key_eq v k h : read_key v k h = (fst (read_key v k h), h).
Proof. unfold read_key. repeat case_match; done. Qed.
Lemma slot_cls h o k v : slot h o k = Some v → ∃ ck, cls_of h o = Some ck.
Proof. unfold slot, cls_of. destruct (h_objs h !! o); [eauto|done]. Qed.
Lemma getattr_sees S o a h v : (∀ l, v ≠ VList l) → (fst (getattr S (VRef o) a h) = inl v ↔ sees S h o a v).
Proof.
  intros Hv. unfold sees, getattr, obj_prop.
  destruct (cls_of h o) as [ck|] eqn:Ec; cbn [mbind option_bind].
  2:{ split; [|by intros (ck & ? & _)]. unfold read_key, slot. unfold cls_of in Ec.
      destruct (h_objs h !! o); done. }
  split.
  - intros H. exists ck. split; [done|]. destruct (lookup_prop S ck a) as [[]|]; try by apply read_key_inv.
    unfold bind, read_key in H. destruct (slot h o (Priv target)) as [w|]; [|done]. exists w. split; [done|].
    case_decide; cbn [fst] in H; [left|right]; split; try done; congruence.
  - intros (ck' & [= <-] & H). destruct (lookup_prop S ck a) as [[]|]; try by apply read_key_inv.
    destruct H as (w & E & H). unfold bind, read_key. rewrite E. destruct H as [[H ->]|[H ->]].
    + by rewrite decide_True.
    + by rewrite decide_False.
Qed.
Lemma sees_not_list S h o a l : ¬ sees S h o a (VList l).
Proof.
  intros (ck & _ & H).
  assert (∀ k, view h o k ≠ Some (OV (VList l))) as Hv.
  { intros k. unfold view. destruct (slot h o k) as [[]|]; cbn [mbind option_bind]; try done. by destruct (h_lists h !! _). }
  destruct (lookup_prop S ck a) as [[]|]; try by eapply Hv. destruct H as (w & _ & [[? <-]|[_ ?]]); done.
Qed.
(** [sees] is a function. *)
Lemma sees_det S h o a v v' : sees S h o a v → sees S h o a v' → v = v'.
Proof.
  intros H H'. assert (∀ l, v ≠ VList l) as H1 by (intros l ->; by eapply sees_not_list).
  assert (∀ l, v' ≠ VList l) as H2 by (intros l ->; by eapply sees_not_list).
  apply getattr_sees in H, H'; try done. congruence.
Qed.
Lemma getattr_cases S o a h : (∃ v, getattr S (VRef o) a h = (inl v, h) ∧ ((∃ l, v = VList l) ∨ sees S h o a v)) ∨
  ∃ e, getattr S (VRef o) a h = (inr e, h) ∧ ∀ v, ¬ sees S h o a v.
Proof.
  pose proof (getattr_heap S (VRef o) a h) as Hh. destruct (getattr S (VRef o) a h) as [[v|e] h'] eqn:E; cbn [snd] in Hh; subst h'.
  - left. exists v. split; [done|]. destruct v; try (right; apply getattr_sees; [done|by rewrite E]). left. eauto.
  - right. exists e. split; [done|]. intros v Hv. pose proof (getattr_sees S o a h v) as Hg.
    rewrite E in Hg. cbn [fst] in Hg. apply Hg in Hv; [done|]. intros l ->. by eapply sees_not_list.
Qed.
Lemma py_str_text v s : py_str v = Some s ↔ text_of v s.
Proof.
  split.
  - destruct v as [|[]| | | | |]; try done; intros [= <-]; constructor.
  - by intros [].
Qed.
Lemma text_of_det v s s' : text_of v s → text_of v s' → s = s'.
Proof. rewrite <- !py_str_text. congruence. Qed.
Lemma py_num_number fint v z : py_num fint v = Some z ↔ number fint v z.
Proof.
  split.
  - destruct v as [|[]| | | | |]; try done; cbn; try (intros [= <-]; constructor). by constructor.
  - by intros [].
Qed.
Lemma py_zero_in r : py_zero r = true ↔ r ∈ [u "0.0"; u "-0.0"].
Proof. unfold py_zero. rewrite orb_true_iff, !str_eqb_eq, !elem_of_cons, elem_of_nil. tauto. Qed.
Lemma py_eq_equal fint a b : py_eq fint a b = true ↔ equal fint a b.
Proof.
  assert (∀ a b, (∀ r r', a = VFloat r → b ≠ VFloat r') →
    match py_num fint a, py_num fint b with Some x, Some y => Z.eqb x y | _, _ => false end = true → equal fint a b) as Hn.
  { intros a' b' Hf E. destruct (py_num fint a') as [x|] eqn:Ea; [|done]. destruct (py_num fint b') as [y|] eqn:Eb; [|done].
    apply Z.eqb_eq in E as ->. apply py_num_number in Ea, Eb. by econstructor. }
  split.
  - destruct a, b; cbn [py_eq]; try done; try (apply Hn; congruence).
    + constructor.
    + rewrite orb_true_iff, !andb_true_iff, negb_true_iff, str_eqb_eq. intros [[-> E]|[E1 E2]].
      * constructor. intros ->. by rewrite str_eqb_refl in E.
      * constructor; by apply py_zero_in.
    + intros ->%str_eqb_eq. constructor.
  - assert (∀ z, Z.eqb z z = true) as Hz by (intros; by apply Z.eqb_refl). intros [].
    + done.
    + cbn [py_eq]. apply str_eqb_refl.
    + cbn [py_eq]. rewrite str_eqb_refl. destruct (str_eqb r (u "nan")) eqn:E; [|done]. by apply str_eqb_eq in E.
    + cbn [py_eq]. apply py_zero_in in H, H0. rewrite H, H0. by rewrite orb_true_r.
    + apply py_num_number in H, H0. destruct a0, b0; try done; cbn [py_eq]; try (rewrite H, H0; apply Hz). by destruct (H1 r r0).
Qed.

(** *** The calls that write the elements *)
Section calls.
Context (S : schema) (fint : pystr → option Z) (nsURI nsPrefix : pystr).
Notation cim := (ns_cim nsURI).
Definition pelem_call (p : pelem) : call :=
  match p with
  | PText tag s => CElement (nsPrefix ++ u ":" ++ tag) (Some s) []
  | PResource tag uri => CElement (nsPrefix ++ u ":" ++ tag) None [(u "rdf:resource", uri)]
  end.
Definition entry_call (e : entry) : call :=
  CElem (nsPrefix ++ u ":" ++ en_class e) [(u "rdf:ID", en_id e)] (map pelem_call (en_props e)) false.
Definition root_call (es : list entry) : call :=
  CElem (u "rdf:RDF") [(u "xmlns:rdf", rdf_uri); (u "xmlns:" ++ nsPrefix, cim)] (map entry_call es) false.

Lemma run_calls_app l l' w : run_calls (l ++ l') w = XmlCalls.wbind (run_calls l w) (run_calls l').
Proof.
  revert w. induction l as [|c l IH]; intros w; [done|]. cbn [app run_calls].
  destruct (run_call c w) as [[]  w']; cbn [XmlCalls.wbind]; [apply IH|done].
Qed.
Lemma run_calls_ok l w : ∃ w', run_calls l w = (inl tt, w').
Proof.
  revert w. induction l as [|c l IH]; intros w; [by eexists|]. cbn [run_calls].
  destruct (run_call_writes c w) as (w1 & -> & _). cbn [XmlCalls.wbind]. apply IH.
Qed.
Lemma run_elem tag a body named w : run_call (CElem tag a body named) w =
  XmlCalls.wbind (run_calls body (snd (w_start tag a [] w))) (w_end (if named then Some tag else None)).
Proof. done. Qed.

(** [m] writes the elements [P] allows, and fails if there are none. *)
Definition outs (m : WM unit) (h : heap) (P : list pelem → Prop) : Prop :=
  ∀ w h' w', m h w = (inl tt, h', w') ↔ h' = h ∧ ∃ r, P r ∧ run_calls (map pelem_call r) w = (inl tt, w').
Lemma outs_none h (P : list pelem → Prop) : P [] → (∀ r, P r → r = []) → outs (wret tt) h P.
Proof.
  intros HP Hr w h' w'. unfold wret. split.
  - intros [= <- <-]. split; [done|]. by exists [].
  - intros (-> & r & H%Hr & E). subst r. cbn in E. congruence.
Qed.
Lemma outs_one h (P : list pelem → Prop) m p : P [p] → (∀ r, P r → r = [p]) →
  (∀ w, m h w = let '(r, w') := run_call (pelem_call p) w in (r, h, w')) → outs m h P.
Proof.
  intros HP Hr Hm w h' w'. rewrite Hm. destruct (run_call_writes (pelem_call p) w) as (w1 & E1 & _). rewrite E1. split.
  - intros [= <- <-]. split; [done|]. exists [p]. split; [done|]. cbn [map run_calls]. by rewrite E1.
  - intros (-> & r & H%Hr & E). subst r. cbn [map run_calls] in E. rewrite E1 in E. cbn in E. congruence.
Qed.
Lemma outs_fail h (P : list pelem → Prop) m : (∀ r, ¬ P r) → (∀ w, ∃ e h' w', m h w = (inr e, h', w')) → outs m h P.
Proof.
  intros HP Hm w h' w'. destruct (Hm w) as (e & h1 & w1 & ->). split; [done|]. intros (_ & r & H & _). by apply HP in H.
Qed.
Lemma outs_for {A} (xs : list A) body h (P : A → list pelem → Prop) :
  (∀ x, x ∈ xs → outs (body x) h (P x)) → outs (wfor xs body) h (listed P xs).
Proof.
  induction xs as [|x xs IH]; intros Hb.
  - apply outs_none; [constructor|]. by inversion 1.
  - intros w h' w'. cbn [wfor]. unfold wbind. split.
    + destruct (body x h w) as [[[[]|] h1] w1] eqn:E; [|done]. intros H.
      apply Hb in E as (-> & r & Hr & Er); [|left]. apply IH in H as (-> & r' & Hr' & Er'); [|intros ? ?; apply Hb; by right].
      split; [done|]. exists (r ++ r'). split; [by constructor|]. by rewrite map_app, run_calls_app, Er.
    + intros (-> & r & Hr & E). inversion Hr as [|? ? r1 r2 H1 H2]; subst. rewrite map_app, run_calls_app in E.
      destruct (run_calls_ok (map pelem_call r1) w) as (w1 & E1). rewrite E1 in E. cbn [XmlCalls.wbind] in E.
      rewrite (proj2 (Hb x ltac:(left) w h w1)) by eauto.
      apply IH; [intros ? ?; apply Hb; by right|]. eauto.
Qed.

Lemma elem_of_existsb (p : name) l : existsb (str_eqb p) l = true ↔ p ∈ l.
Proof.
  rewrite existsb_exists. split.
  - intros (x & Hx & ->%str_eqb_eq). by apply elem_of_list_In.
  - intros H. exists p. split; [by apply elem_of_list_In|apply str_eqb_refl].
Qed.

Context (h : heap) (o : nat).
Lemma write_attr_outs c a : outs (write_attr S fint nsPrefix (VRef o) c a) h (attr_out S fint h o c a).
Proof.
  unfold write_attr, is_enum, attr_out. destruct (assoc a (c_enums c)) as [dt|].
  { apply outs_none; [by left|]. intros r [[_ ->]|[? _]]; done. }
  destruct (getattr_cases S o a h) as [(v & Eg & Hv)|(e & Eg & Hv)].
  2:{ apply outs_fail.
      - intros r [[? _]|(_ & v & d & Hs & _)]; [done|]. by eapply Hv.
      - intros w. unfold wbind, on_heap. rewrite Eg. eauto. }
  destruct (assoc a (c_defaults c)) as [d|] eqn:Ed.
  2:{ apply outs_fail.
      - intros r [[? _]|(_ & v' & d & Hs & ? & _)]; done.
      - intros w. unfold wbind, on_heap. rewrite Eg. unfold wraise. eauto. }
  destruct Hv as [[l ->]|Hv].
  { apply outs_fail.
    - intros r [[? _]|(_ & v' & d' & Hs & _ & Hr)]; [done|].
      apply getattr_sees in Hs; [rewrite Eg in Hs; cbn in Hs; injection Hs as <-|intros l' ->; by eapply sees_not_list].
      destruct Hr as [[Hq _]|(_ & s & Ht & _)]; [apply py_eq_equal in Hq; by destruct d'|inversion Ht].
    - intros w. unfold wbind, on_heap. rewrite Eg. destruct d; unfold show, wraise; cbn; eauto. }
  assert (∀ v', sees S h o a v' → v' = v) as Hd by (intros; by eapply sees_det).
  destruct (py_eq fint v d) eqn:Eq.
  - pose proof Eq as Hq. apply py_eq_equal in Hq. intros w h' w'. unfold wbind, on_heap. rewrite Eg, Eq. revert w h' w'.
    apply (outs_none h); [|].
    + right. split; [done|]. exists v, d. eauto 10.
    + intros r [[? _]|(_ & v' & d' & Hs & [= ->] & [[_ ->]|[Hn _]])]; [done..|]. apply Hd in Hs as ->. done.
  - assert (¬ equal fint v d) as Hq by (rewrite <- py_eq_equal; congruence).
    destruct (py_str v) as [s|] eqn:Es.
    + apply (outs_one _ _ _ (PText (ptag c a) s)).
      * right. split; [done|]. exists v, d. split_and!; [done..|]. right. split; [done|]. exists s. split; [by apply py_str_text|done].
      * intros r [[? _]|(_ & v' & d' & Hs & [= ->] & [[Hn _]|(_ & s' & Ht & ->)])]; [done|by apply Hd in Hs as ->|].
        apply Hd in Hs as ->. apply py_str_text in Ht. congruence.
      * intros w. unfold wbind, on_heap. rewrite Eg, Eq. unfold show. rewrite Es. done.
    + apply outs_fail.
      * intros r [[? _]|(_ & v' & d' & Hs & [= ->] & [[Hn _]|(_ & s' & Ht & ->)])]; [done|by apply Hd in Hs as ->|].
        apply Hd in Hs as ->. apply py_str_text in Ht. congruence.
      * intros w. unfold wbind, on_heap. rewrite Eg, Eq. unfold show. rewrite Es. unfold wraise. eauto.
Qed.
Lemma write_enum_outs c a : outs (write_enum S nsURI nsPrefix (VRef o) c a) h (enum_out S cim h o c a).
Proof.
  unfold write_enum, enum_out. destruct (assoc a (c_enums c)) as [dt|].
  2:{ apply outs_none; [by left|]. intros r [[_ ->]|(? & ? & ? & ? & _)]; done. }
  destruct (getattr_cases S o a h) as [(v & Eg & Hv)|(e & Eg & Hv)].
  2:{ apply outs_fail.
      - intros r [[? _]|(? & v & d & ? & Hs & _)]; [done|]. by eapply Hv.
      - intros w. unfold wbind, on_heap. rewrite Eg. eauto. }
  assert (∀ v', sees S h o a v' → v' = v) as Hd.
  { intros v' Hs. apply getattr_sees in Hs; [|intros l' ->; by eapply sees_not_list]. rewrite Eg in Hs. cbn in Hs. congruence. }
  destruct (py_str v) as [s|] eqn:Es.
  - destruct Hv as [[l ->]|Hv]; [done|].
    apply (outs_one _ _ _ (PResource (ptag c a) (cim ++ dt ++ u "." ++ s))).
    + right. exists dt, v, s. split_and!; try done. by apply py_str_text.
    + intros r [[? _]|(dt' & v' & s' & [= <-] & ->%Hd & Ht & ->)]; [done|]. apply py_str_text in Ht. congruence.
    + intros w. unfold wbind, on_heap. rewrite Eg. unfold show. rewrite Es. done.
  - apply outs_fail.
    + intros r [[? _]|(dt' & v' & s' & [= <-] & ->%Hd & Ht & ->)]; [done|]. apply py_str_text in Ht. congruence.
    + intros w. unfold wbind, on_heap. rewrite Eg. unfold show. rewrite Es. unfold wraise. eauto.
Qed.
Lemma write_ref_outs c p : outs (write_ref S nsPrefix (VRef o) c p) h (ref_out S h o c p).
Proof.
  unfold write_ref, ref_out. destruct (existsb (str_eqb p) (c_many c)) eqn:Em.
  { apply elem_of_existsb in Em. apply outs_none; [by left|]. intros r [[_ ->]|[? _]]; done. }
  assert (p ∉ c_many c) as Hm by (rewrite <- elem_of_existsb; congruence).
  destruct (getattr_cases S o p h) as [(v & Eg & Hv)|(e & Eg & Hv)].
  2:{ apply outs_fail.
      - intros r [[? _]|(_ & [[Hs _]|(t & i & s & Hs & _)])]; [done|by eapply Hv..].
      - intros w. unfold wbind, on_heap. rewrite Eg. eauto. }
  assert (∀ v', sees S h o p v' → v' = v) as Hd.
  { intros v' Hs. apply getattr_sees in Hs; [|intros l' ->; by eapply sees_not_list]. rewrite Eg in Hs. cbn in Hs. congruence. }
  destruct (decide (v = VNone)) as [->|Hne].
  { intros w h' w'. unfold wbind, on_heap. rewrite Eg, decide_True by done. revert w h' w'. apply (outs_none h).
    - right. split; [done|]. left. split; [|done]. destruct Hv as [[? ?]|?]; done.
    - intros r [[? _]|(_ & [[_ ->]|(t & i & s & Hs & _)])]; [done..|]. by apply Hd in Hs. }
  assert ((∃ t, v = VRef t) ∨ ∀ t, v ≠ VRef t) as [[t ->]|Hnr] by (destruct v; eauto).
  2:{ apply outs_fail.
      - intros r [[? _]|(_ & [[Hs _]|(t & i & s & Hs & _)])]; [done| |]; apply Hd in Hs; [done|]. by apply (Hnr t).
      - intros w. unfold wbind, on_heap. rewrite Eg, decide_False by done.
        destruct v; try done; [cbn; eauto..|by destruct (Hnr o0)|cbn; eauto]. }
  assert (sees S h o p (VRef t)) as Hst by (destruct Hv as [[? ?]|?]; done).
  destruct (getattr_cases S t (u "UUID") h) as [(i & Ei & Hi)|(e & Ei & Hi)].
  2:{ apply outs_fail.
      - intros r [[? _]|(_ & [[Hs _]|(t' & i & s & Hs & Hu & _)])]; [done|by apply Hd in Hs|]. apply Hd in Hs as [= ->]. by eapply Hi.
      - intros w. unfold wbind, on_heap. rewrite Eg, decide_False by done. rewrite Ei. eauto. }
  assert (∀ v', sees S h t (u "UUID") v' → v' = i) as Hdi.
  { intros v' Hs. apply getattr_sees in Hs; [|intros l' ->; by eapply sees_not_list]. rewrite Ei in Hs. cbn in Hs. congruence. }
  destruct (py_str i) as [s|] eqn:Es.
  - destruct Hi as [[l ->]|Hi]; [done|].
    apply (outs_one _ _ _ (PResource (ptag c p) (u "#" ++ s))).
    + right. split; [done|]. right. exists t, i, s. split_and!; try done. by apply py_str_text.
    + intros r [[? _]|(_ & [[Hs _]|(t' & i' & s' & Hs & Hu & Ht & ->)])]; [done|by apply Hd in Hs|].
      apply Hd in Hs as [= ->]. apply Hdi in Hu as ->. apply py_str_text in Ht. congruence.
    + intros w. unfold wbind, on_heap. rewrite Eg, decide_False by done. rewrite Ei. unfold show. rewrite Es. done.
  - apply outs_fail.
    + intros r [[? _]|(_ & [[Hs _]|(t' & i' & s' & Hs & Hu & Ht & ->)])]; [done|by apply Hd in Hs|].
      apply Hd in Hs as [= ->]. apply Hdi in Hu as ->. apply py_str_text in Ht. congruence.
    + intros w. unfold wbind, on_heap. rewrite Eg, decide_False by done. rewrite Ei. unfold show. rewrite Es. unfold wraise. eauto.
Qed.
End calls.

Section documents.
Context (S : schema) (fint : pystr → option Z) (nsURI nsPrefix : pystr).
Notation cim := (ns_cim nsURI).
Notation pelem_call := (pelem_call nsPrefix).
Notation entry_call := (entry_call nsPrefix).
Notation root_call := (root_call nsURI nsPrefix).

Lemma find_cls_key k c : find_cls S k = Some c → c_key c = k.
Proof. clear. induction S as [|c' S' IH]; cbn [find_cls]; [done|]. destruct (str_eqb k (c_key c')) eqn:E; [|done]. intros [= ->]. by apply str_eqb_eq in E. Qed.
Lemma mro_snoc k c : find_cls S k = Some c → ∃ below top, mro S k = below ++ [top].
Proof.
  intros E. assert (mro S k ≠ []) as Hne.
  { unfold mro. destruct S as [|c' S']; [done|]. cbn [length mro_fuel]. by rewrite E. }
  destruct (mro S k) as [|x l] using rev_ind; [done|]. eauto.
Qed.
Lemma outs_bind h m m' (P P' : list pelem → Prop) : outs nsPrefix m h P → outs nsPrefix m' h P' →
  outs nsPrefix (wbind m (λ _, m')) h (λ r, ∃ r1 r2, P r1 ∧ P' r2 ∧ r = r1 ++ r2).
Proof.
  intros Hm Hm' w h' w'. unfold wbind. split.
  - destruct (m h w) as [[[[]|] h1] w1] eqn:E; [|done]. intros H. apply Hm in E as (-> & r1 & Hr1 & E1).
    apply Hm' in H as (-> & r2 & Hr2 & E2). split; [done|]. exists (r1 ++ r2). split; [eauto 10|].
    by rewrite map_app, run_calls_app, E1.
  - intros (-> & r & (r1 & r2 & H1 & H2 & ->) & E). rewrite map_app, run_calls_app in E.
    destruct (run_calls_ok (map pelem_call r1) w) as (w1 & E1). rewrite E1 in E. cbn [XmlCalls.wbind] in E.
    rewrite (proj2 (Hm w h w1)) by eauto. apply Hm'. eauto.
Qed.

Lemma write_entry_spec h o w h' w' :
  write_entry S fint nsURI nsPrefix (VRef o) h w = (inl tt, h', w') ↔
  h' = h ∧ ∃ e, Writes S fint cim h o e ∧ run_call (entry_call e) w = (inl tt, w').
Proof.
  set (cs k := below_element S (c_key k)).
  set (body k := wbind (wfor (cs k) (λ c, wfor (c_attrs c) (write_attr S fint nsPrefix (VRef o) c))) (λ _,
          wbind (wfor (cs k) (λ c, wfor (c_attrs c) (write_enum S nsURI nsPrefix (VRef o) c))) (λ _,
          wfor (cs k) (λ c, wfor (c_refs c) (write_ref S nsPrefix (VRef o) c))))).
  assert (∀ k, outs nsPrefix (body k) h (λ r, ∃ as_ r', listed (λ c, listed (attr_out S fint h o c) (c_attrs c)) (cs k) as_ ∧
    (∃ es rs, listed (λ c, listed (enum_out S cim h o c) (c_attrs c)) (cs k) es ∧
       listed (λ c, listed (ref_out S h o c) (c_refs c)) (cs k) rs ∧ r' = es ++ rs) ∧ r = as_ ++ r')) as Hbody.
  { intros k. apply outs_bind; [|apply outs_bind]; apply outs_for; intros c _; apply outs_for; intros a _.
    - apply write_attr_outs. - apply write_enum_outs. - apply write_ref_outs. }
  assert (∀ k below top, mro S (c_key k) = below ++ [top] → cs k = reverse below) as Hcs.
  { intros k below top E. unfold cs, below_element. by rewrite E, reverse_app. }
  unfold write_entry. unfold wbind at 1, on_heap.
  destruct (getattr_cases S o (u "UUID") h) as [(i & Ei & Hi)|(e & Ei & Hi)].
  2:{ rewrite Ei. split; [done|]. intros (_ & e' & (k & top & below & ? & ? & ? & _ & _ & _ & _ & Hs & _) & _). by destruct (Hi _ Hs). }
  rewrite Ei. cbn [val_cls].
  destruct (cls_of h o) as [ck|] eqn:Ec; cbn [mbind option_bind].
  2:{ split; [done|]. intros (_ & e' & (k & top & below & ? & ? & ? & Hk & _) & _). congruence. }
  destruct (find_cls S ck) as [k|] eqn:Ek.
  2:{ split; [done|]. intros (_ & e' & (k & top & below & ? & ? & ? & Hk & Hf & _) & _). congruence. }
  pose proof (find_cls_key _ _ Ek) as <-.
  assert (∀ v, sees S h o (u "UUID") v → v = i) as Hdi.
  { intros v' Hs. apply getattr_sees in Hs; [|intros l' ->; by eapply sees_not_list]. rewrite Ei in Hs. cbn in Hs. congruence. }
  assert ((∃ s, i = VStr s) ∨ ∀ s, i ≠ VStr s) as [[s ->]|Hns] by (destruct i; eauto).
  2:{ destruct i; try by destruct (Hns s). all: split; [done|].
      all: intros (_ & e' & (k' & top & below & ? & ? & ? & _ & _ & _ & _ & Hs & _) & _); apply Hdi in Hs; done. }
  assert (∀ w, (wbind (on_writer (λ w, let '(n, w') := w_start (nsPrefix ++ u ":" ++ c_name k) [(rdf_prefix ++ u ":ID", s)] [] w in (inl n, w'))) (λ _,
          wbind (wfor (cs k) (λ c, wfor (c_attrs c) (write_attr S fint nsPrefix (VRef o) c))) (λ _,
          wbind (wfor (cs k) (λ c, wfor (c_attrs c) (write_enum S nsURI nsPrefix (VRef o) c))) (λ _,
          wbind (wfor (cs k) (λ c, wfor (c_refs c) (write_ref S nsPrefix (VRef o) c))) (λ _,
          on_writer (w_end None)))))) h w =
    wbind (body k) (λ _, on_writer (w_end None)) h (snd (w_start (nsPrefix ++ u ":" ++ c_name k) [(rdf_prefix ++ u ":ID", s)] [] w))) as ->.
  { intros w0. unfold body, wbind, on_writer. destruct (w_start _ _ _ _) as [n w1]. cbn [snd].
    destruct (wfor (cs k) _ h w1) as [[[[]|] h1] w2]; [|done].
    destruct (wfor (cs k) _ h1 w2) as [[[[]|] h2] w3]; done. }
  unfold wbind. split.
  - destruct (body k h _) as [[[[]|] h1] w1] eqn:Eb; [|done].
    apply Hbody in Eb as (-> & r & (as_ & r' & H1 & (es & rs & H2 & H3 & ->) & ->) & Er).
    unfold on_writer. destruct (w_end None w1) as [x w2] eqn:Ew. intros [= -> -> ->]. split; [done|].
    exists (Entry (c_name k) s (as_ ++ es ++ rs)). split.
    + destruct (mro_snoc _ _ Ek) as (below & top & Em). rewrite (Hcs _ _ _ Em) in H1, H2, H3.
      exists k, top, below, as_, es, rs. split_and!; try done. by destruct Hi as [[? ?]|?].
    + change (XmlCalls.wbind (run_calls (map pelem_call (as_ ++ es ++ rs))
        (snd (w_start (nsPrefix ++ u ":" ++ c_name k) [(rdf_prefix ++ u ":ID", s)] [] w))) (w_end None) = (inl tt, w')).
      rewrite Er. exact Ew.
  - intros (-> & e & (k' & top & below & as_ & es & rs & Hc & Hf & Em & Hn & Hs & H1 & H2 & H3 & Hp) & Er).
    assert (k' = k) as -> by congruence. apply Hdi in Hs as [= <-].
    rewrite <- (Hcs _ _ _ Em) in H1, H2, H3. unfold WriteFacts.entry_call in Er. rewrite run_elem, Hn in Er.
    change (XmlCalls.wbind (run_calls (map pelem_call (en_props e))
        (snd (w_start (nsPrefix ++ u ":" ++ c_name k) [(rdf_prefix ++ u ":ID", en_id e)] [] w))) (w_end None) = (inl tt, w')) in Er.
    destruct (run_calls_ok (map pelem_call (en_props e)) (snd (w_start (nsPrefix ++ u ":" ++ c_name k) [(rdf_prefix ++ u ":ID", en_id e)] [] w))) as (w1 & E1).
    rewrite E1 in Er. cbn [XmlCalls.wbind] in Er.
    rewrite (proj2 (Hbody k _ h w1)).
    + unfold on_writer. by rewrite Er.
    + split; [done|]. exists (en_props e). rewrite Hp in *. split; [eauto 15|done].
Qed.
Lemma write_entry_other h v w : (∀ o, v ≠ VRef o) → ∃ e, write_entry S fint nsURI nsPrefix v h w = (inr e, h, w).
Proof. intros Hv. unfold write_entry, wbind, on_heap. destruct v; try (cbn; eauto). by destruct (Hv o). Qed.

Lemma write_entries_spec d h w h' w' :
  wfor d (λ kv, write_entry S fint nsURI nsPrefix (snd kv)) h w = (inl tt, h', w') ↔
  h' = h ∧ ∃ es, Writes_all S fint cim h d es ∧ run_calls (map entry_call es) w = (inl tt, w').
Proof.
  revert w. induction d as [|kv d IH]; intros w; cbn [wfor].
  - unfold wret. split; [intros [= <- <-]|].
    + split; [done|]. exists []. split; [constructor|done].
    + intros (-> & es & Hes & E). inversion Hes; subst. cbn in E. congruence.
  - unfold wbind. split.
    + destruct (write_entry S fint nsURI nsPrefix kv.2 h w) as [[[[]|] h1] w1] eqn:E; [|done]. intros H.
      assert (∃ o, kv.2 = VRef o) as [o Eo].
      { destruct (kv.2) eqn:Ev; try (destruct (write_entry_other h (kv.2) w) as [e He]; [by rewrite Ev|rewrite Ev in He; congruence]). eauto. }
      rewrite Eo in E. apply write_entry_spec in E as (-> & e & He & Ee). apply IH in H as (-> & es & Hes & Ees). split; [done|].
      exists (e :: es). split; [constructor; [eauto|done]|]. cbn [map run_calls]. by rewrite Ee.
    + intros (-> & es & Hes & E). apply Forall2_cons_inv_l in Hes as (e & es' & (o & Eo & He) & Hes & ->). cbn [map run_calls] in E.
      destruct (run_call_writes (entry_call e) w) as (w1 & E1 & _). rewrite E1 in E. cbn [XmlCalls.wbind] in E.
      rewrite Eo, (proj2 (write_entry_spec h o w h w1)) by eauto. apply IH. eauto.
Qed.
Lemma run_calls_tags l w w' : run_calls l w = (inl tt, w') → w_tags w' = w_tags w.
Proof.
  revert w. induction l as [|c l IH]; intros w; [by intros [= ->]|]. cbn [run_calls].
  destruct (run_call_writes c w) as (w1 & -> & _ & Ht & _). cbn [XmlCalls.wbind]. intros H. rewrite <- Ht. by apply IH.
Qed.
Lemma cimwrite_spec d enc h h' w' :
  cimwrite S fint nsURI nsPrefix d enc h = (inl tt, h', w') ↔
  h' = h ∧ ∃ es, Writes_all S fint cim h d es ∧ document true enc (root_call es) = (inl tt, w').
Proof.
  unfold cimwrite, cimwrite_body. unfold wbind at 1, on_writer at 1. cbn iota beta.
  set (w0 := w_declaration (w_init enc)).
  assert (w_tags w0 = []) as Ht0 by (unfold w0, w_declaration; by destruct (_ || _)).
  unfold wbind at 1, on_writer at 1. rewrite w_start_spec. cbn iota beta. rewrite Ht0. cbn [length].
  set (w1 := Writer _ _ _ _ _).
  assert (∀ es, document true enc (root_call es) = XmlCalls.wbind (run_calls (map entry_call es) w1) (w_end None)) as Hdoc.
  { intros es. unfold document, root_call. rewrite run_elem. fold w0. rewrite w_start_spec. cbn [snd]. by rewrite Ht0. }
  assert (∀ l w, run_calls l w1 = (inl tt, w) → w_close 0 w = w_end None w ∧ ∃ w'', w_end None w = (inl tt, w'')) as Hclose.
  { intros l w Hl. apply run_calls_tags in Hl. unfold w1 in Hl. cbn [w_tags] in Hl. unfold w_close. rewrite Hl. cbn [length w_close_loop].
    rewrite Hl. cbn [length Nat.ltb Nat.leb]. rewrite (w_end_spec None _ _ w Hl ltac:(by left)). rewrite w_pop_spec. cbn [w_tags length]. eauto. }
  unfold wbind. split.
  - destruct (wfor d _ h w1) as [[[[]|] h1] w2] eqn:E; [|done]. apply write_entries_spec in E as (-> & es & Hes & Ees).
    unfold on_writer. destruct (Hclose _ _ Ees) as (-> & w3 & E3). rewrite E3. intros [= <- <-]. split; [done|]. exists es. split; [done|].
    by rewrite Hdoc, Ees.
  - intros (-> & es & Hes & E). rewrite Hdoc in E. destruct (run_calls_ok (map entry_call es) w1) as (w2 & E2).
    rewrite E2 in E. cbn [XmlCalls.wbind] in E. rewrite (proj2 (write_entries_spec d h w1 h w2)) by eauto.
    unfold on_writer. destruct (Hclose _ _ E2) as (-> & _). by rewrite E.
Qed.

(** *** The heap is not changed *)
Definition keeps {A} (m : WM A) : Prop := ∀ h w, snd (fst (m h w)) = h.
Lemma keeps_ret {A} (a : A) : keeps (wret a).
Proof. by intros h w. Qed.
Lemma keeps_raise {A} e : keeps (wraise (A:=A) e).
Proof. by intros h w. Qed.
Lemma keeps_bind {A B} (m : WM A) (f : A → WM B) : keeps m → (∀ a, keeps (f a)) → keeps (wbind m f).
Proof.
  intros Hm Hf h w. unfold wbind. specialize (Hm h w). destruct (m h w) as [[[a|e] h1] w1]; cbn [fst snd] in Hm; subst h1; [apply Hf|done].
Qed.
Lemma keeps_for {A} (xs : list A) body : (∀ x, keeps (body x)) → keeps (wfor xs body).
Proof. intros Hb. induction xs as [|x xs IH]; cbn [wfor]; [apply keeps_ret|]. by apply keeps_bind. Qed.
Lemma keeps_get v a : keeps (on_heap (getattr S v a)).
Proof. intros h w. unfold on_heap. pose proof (getattr_heap S v a h). by destruct (getattr S v a h). Qed.
Lemma keeps_writer {A} (m : writer → (A + exn) * writer) : keeps (on_writer m).
Proof. intros h w. unfold on_writer. by destruct (m w). Qed.
Lemma keeps_show v : keeps (show v).
Proof. unfold show. destruct (py_str v); [apply keeps_ret|apply keeps_raise]. Qed.
Lemma keeps_attr v c a : keeps (write_attr S fint nsPrefix v c a).
Proof.
  unfold write_attr. destruct (is_enum c a); [apply keeps_ret|]. apply keeps_bind; [apply keeps_get|]. intros x.
  destruct (assoc a (c_defaults c)); [|apply keeps_raise]. destruct (py_eq fint x v0); [apply keeps_ret|].
  apply keeps_bind; [apply keeps_show|]. intros s. apply keeps_writer.
Qed.
Lemma keeps_enum v c a : keeps (write_enum S nsURI nsPrefix v c a).
Proof.
  unfold write_enum. destruct (assoc a (c_enums c)); [|apply keeps_ret]. apply keeps_bind; [apply keeps_get|]. intros x.
  apply keeps_bind; [apply keeps_show|]. intros s. apply keeps_writer.
Qed.
Lemma keeps_ref v c p : keeps (write_ref S nsPrefix v c p).
Proof.
  unfold write_ref. destruct (existsb _ _); [apply keeps_ret|]. apply keeps_bind; [apply keeps_get|]. intros x.
  case_decide; [apply keeps_ret|]. apply keeps_bind; [apply keeps_get|]. intros i. apply keeps_bind; [apply keeps_show|]. intros s. apply keeps_writer.
Qed.
Lemma keeps_entry v : keeps (write_entry S fint nsURI nsPrefix v).
Proof.
  unfold write_entry. apply keeps_bind; [apply keeps_get|]. intros i h w.
  destruct (val_cls h v) as [ck|]; cbn [mbind option_bind]; [|done]. destruct (find_cls S ck) as [k|]; [|done].
  destruct i; try done. repeat first
    [ apply keeps_bind; [|intros ?] | apply keeps_writer | apply keeps_for; intros ? | apply keeps_attr | apply keeps_enum | apply keeps_ref ].
Qed.
Lemma cimwrite_keeps d enc h : snd (fst (cimwrite S fint nsURI nsPrefix d enc h)) = h.
Proof.
  unfold cimwrite. generalize (w_init enc). intros w. revert h w. change (keeps (cimwrite_body S fint nsURI nsPrefix d)). unfold cimwrite_body.
  repeat first [ apply keeps_entry | apply keeps_bind; [|intros ?] | apply keeps_writer | apply keeps_for; intros ? ].
Qed.
End documents.
