(** Facts about the reader that hold for every class table. *)
From Coq Require Import String.
From stdpp Require Import prelude gmap.
From Verif Require Import PyStr PyHeap Schema Assoc AssocSpec HeapFacts AssocFacts CtorFacts Reader ReaderSpec.

(** *** Dictionaries *)
Lemma assoc_dset k v d k' : assoc k' (dset k v d) = if str_eqb k' k then Some v else assoc k' d.
Proof.
  induction d as [|[k1 v1] d IH]; cbn [dset assoc].
  { done. }
  destruct (str_eqb k k1) eqn:E1; cbn [assoc].
  - apply str_eqb_eq in E1 as ->. by destruct (str_eqb k' k1).
  - rewrite IH. destruct (str_eqb k' k1) eqn:E2; [|done]. destruct (str_eqb k' k) eqn:E3; [|done].
    apply str_eqb_eq in E2 as ->, E3 as ->. by rewrite str_eqb_refl in E1.
Qed.
Lemma keys_dset k v d : map fst (dset k v d) = if existsb (str_eqb k) (map fst d) then map fst d else map fst d ++ [k].
Proof.
  induction d as [|[k1 v1] d IH]; [done|]. cbn [dset map fst existsb].
  destruct (str_eqb k k1) eqn:E1; cbn [map fst orb].
  - by apply str_eqb_eq in E1 as ->.
  - rewrite IH. by destruct (existsb _ _).
Qed.
Lemma existsb_str k xs : existsb (str_eqb k) xs = true ↔ k ∈ xs.
Proof.
  rewrite existsb_exists. split.
  - intros (x & Hx & ->%str_eqb_eq). by apply elem_of_list_In.
  - intros Hx. exists k. split; [by apply elem_of_list_In|]. apply str_eqb_refl.
Qed.
Lemma assoc_nsset k v m k' : assoc k' (nsset k v m) = if str_eqb k' k then Some v else assoc k' m.
Proof.
  induction m as [|[k1 v1] d IH]; cbn [nsset assoc].
  { done. }
  destruct (str_eqb k k1) eqn:E1; cbn [assoc].
  - apply str_eqb_eq in E1 as ->. by destruct (str_eqb k' k1).
  - rewrite IH. destruct (str_eqb k' k1) eqn:E2; [|done]. destruct (str_eqb k' k) eqn:E3; [|done].
    apply str_eqb_eq in E2 as ->, E3 as ->. by rewrite str_eqb_refl in E1.
Qed.

(** *** Namespaces *)
Lemma xmlns_from_assoc err evs : ∀ m m', xmlns_from err evs m = inl m' →
  ∀ p, assoc p m' = match assoc p (reverse (decls evs)) with Some v => Some v | None => assoc p m end.
Proof.
  assert (∀ (a b : list (pystr * pystr)) p, assoc p (a ++ b) = match assoc p a with Some v => Some v | None => assoc p b end) as Happ.
  { induction a as [|[k v] a IH]; intros b p; [done|]. cbn [app assoc]. destruct (str_eqb p k); [done|apply IH]. }
  induction evs as [|[e|e|p0 v0] evs IH]; intros m m'; cbn [xmlns_from decls].
  - destruct err; [done|]. by intros [= <-].
  - apply IH.
  - by intros [= <-].
  - intros E p. rewrite (IH _ _ E p), reverse_cons, Happ, assoc_nsset.
    destruct (assoc p (reverse (decls evs))); [done|]. cbn [assoc]. by destruct (str_eqb p p0).
Qed.

(** *** The second pass as a run over events *)
Section facts.
Context (base rdf : pystr) (S : schema) (pm : list (name * name)) (fuel : nat) (pf : pystr → option pystr).
Notation pass1 := (pass1 S pm fuel base rdf).
Notation pass2 := (pass2 S fuel pf base rdf).
Notation pass2_step := (pass2_step S fuel pf base rdf).
Notation run2 := (run2 base rdf S fuel pf).
Notation Reaches := (Reaches base rdf S pm fuel pf).
Notation reads := (reads base rdf S pm fuel pf).

Lemma pass2_run d err evs : ∀ cur h, pass2 d err evs cur h =
  match run2 d evs cur h with
  | (inl _, h') => (if err then Some ParseError else None, h')
  | (inr e, h') => (Some e, h')
  end.
Proof.
  induction evs as [|ev evs IH]; intros cur h; cbn [Reader.pass2 ReaderSpec.run2]; [done|].
  unfold bind. destruct (pass2_step d cur ev h) as [[c|e] h']; [apply IH|done].
Qed.
Lemma run2_app d a b : ∀ cur h, run2 d (a ++ b) cur h = (let* c := run2 d a cur in run2 d b c) h.
Proof.
  induction a as [|ev a IH]; intros cur h; [done|]. cbn [app ReaderSpec.run2]. unfold bind at 1 2 3.
  destruct (pass2_step d cur ev h) as [[c|e] h']; [|done]. by rewrite IH.
Qed.
Lemma read_unfold err root evs d h : reads err root evs d h =
  match pass1 err evs false d h with
  | (None, d', h') => let '(x, h2) := pass2 d' err evs None h' in (x, d', h2)
  | r => r
  end.
Proof. done. Qed.

(** Reading continues from a reached state. *)
Lemma Reaches_read err root pre rest d h cur d' hk :
  Reaches err root pre rest d h cur d' hk →
  reads err root (pre ++ rest) d h = let '(x, h2) := pass2 d' err rest cur hk in (x, d', h2).
Proof.
  intros (h1 & E1 & E2). rewrite read_unfold, E1. rewrite !pass2_run, run2_app. unfold bind. rewrite E2.
  done.
Qed.
Lemma Reaches_step err root pre ev rest d h cur d' hk cur' hk' :
  Reaches err root pre (ev :: rest) d h cur d' hk → pass2_step d' cur ev hk = (inl cur', hk') →
  Reaches err root (pre ++ [ev]) rest d h cur' d' hk'.
Proof.
  intros (h1 & E1 & E2) E. exists h1. rewrite <- app_assoc. split; [done|].
  rewrite run2_app. unfold bind. rewrite E2. cbn [ReaderSpec.run2]. unfold bind. by rewrite E.
Qed.
Lemma Reaches_raise err root pre ev rest d h cur d' hk x hk' :
  Reaches err root pre (ev :: rest) d h cur d' hk → pass2_step d' cur ev hk = (inr x, hk') →
  reads err root (pre ++ ev :: rest) d h = (Some x, d', hk').
Proof. intros H E. rewrite (Reaches_read _ _ _ _ _ _ _ _ _ H). cbn [Reader.pass2]. by rewrite E. Qed.

(** A property element inside an object. *)
Lemma property_step d o e a h : is_property base rdf e a →
  pass2_step d (Some (VRef o)) (EEnd e) h =
  match set_property S fuel pf base rdf d o e h with
  | (inl _, h') => (inl (Some (VRef o)), h')
  | (inr x, h') => (inr x, h')
  end.
Proof.
  intros (Hb & Hi & Ha & _). unfold Reader.pass2_step. rewrite Hb, Hi, Ha. unfold bind.
  by destruct (set_property _ _ _ _ _ _ _ _ _) as [[]].
Qed.
Lemma attribute_set d o e a t h : attribute_elem base rdf e a t →
  set_property S fuel pf base rdf d o e h = set_text S fuel pf o a t h.
Proof. intros ((_ & _ & _ & <-) & Hr & <-). unfold set_property, resource in *. by rewrite Hr. Qed.
Lemma reference_set d o e a id h : reference_elem base rdf e a id →
  set_property S fuel pf base rdf d o e h = set_ref S fuel d o a id h.
Proof. intros ((_ & _ & _ & <-) & Hr). unfold set_property, resource in *. by rewrite Hr. Qed.
Lemma enum_set d o e a c r h : enum_elem base rdf e a (c :: r) →
  set_property S fuel pf base rdf d o e h = set_enum S fuel o a (c :: r) h.
Proof.
  intros ((_ & _ & _ & <-) & Hr & Hp). unfold set_property, resource in *. rewrite Hr.
  destruct (N.eqb_spec c 35) as [->|]; [|done]. unfold has_prefix in Hp. simpl in Hp. by rewrite take_0 in Hp.
Qed.
Lemma find_attr_found o a h v : fst (getattr S (VRef o) a h) = inl v → find_attr S o a h = Found v.
Proof. unfold find_attr. by intros ->. Qed.

(** *** Pass 1 *)
Lemma pass1_cleared err evs : foreign_root base evs → ∀ c d h, pass1 err evs c d h = pass1 err evs true d h.
Proof.
  induction evs as [|ev evs IH]; intros Hf c d h; [done|].
  assert (foreign_root base evs) as Hf' by (intros e He; apply Hf; destruct He; [left|right]; by right).
  assert (pass1_step S pm fuel base rdf c ev d h = pass1_step S pm fuel base rdf true ev d h) as E.
  { destruct ev as [e|e|]; [done| |done]. unfold pass1_step. destruct (in_base base e) eqn:Eb; [|done].
    destruct (e_root e) eqn:Er; [|done]. rewrite (Hf e) in Eb; [done|right; left|done]. }
  destruct ev as [e|e|p v]; cbn [Reader.pass1]; [by rewrite E..|by apply IH].
Qed.

(** Removing the elements of other namespaces. *)
Definition cim_event (ev : event) : bool :=
  match ev with EStart e | EEnd e => in_base base e | ENs _ _ => true end.
Lemma foreign_filter evs : foreign_root base evs → foreign_root base (filter (λ ev, cim_event ev = true) evs).
Proof. intros Hf e He. apply Hf. destruct He as [He|He]; apply elem_of_list_filter in He as [_ He]; auto. Qed.
Lemma pass1_filter err evs : ∀ d h,
  pass1 err evs true d h = pass1 err (filter (λ ev, cim_event ev = true) evs) true d h.
Proof.
  induction evs as [|ev evs IH]; intros d h; [done|]. rewrite filter_cons.
  destruct (decide (cim_event ev = true)) as [E|E].
  - destruct ev as [e|e|p v]; cbn [Reader.pass1].
    + apply IH.
    + destruct (pass1_step _ _ _ _ _ _ _ _) as [[]]; [apply IH|done].
    + apply IH.
  - destruct ev as [e|e|p v]; cbn [Reader.pass1]; [apply IH| |done].
    unfold pass1_step. cbn [cim_event] in E. destruct (in_base base e); [done|]. apply IH.
Qed.
Lemma pass2_filter d err evs : ∀ cur h,
  pass2 d err evs cur h = pass2 d err (filter (λ ev, cim_event ev = true) evs) cur h.
Proof.
  induction evs as [|ev evs IH]; intros cur h; [done|]. rewrite filter_cons.
  destruct (decide (cim_event ev = true)) as [E|E]; cbn [Reader.pass2].
  - destruct (pass2_step d cur ev h) as [[]]; [apply IH|done].
  - destruct ev as [e|e|p v]; [| |done]; cbn [cim_event] in E; unfold Reader.pass2_step;
      destruct (in_base base e); try done; destruct cur; apply IH.
Qed.
Lemma read_filter err root evs d h : foreign_root base evs →
  reads err root evs d h = reads err root (filter (λ ev, cim_event ev = true) evs) d h.
Proof.
  intros Hf. rewrite !read_unfold, (pass1_cleared _ _ Hf), (pass1_cleared _ _ (foreign_filter _ Hf)).
  rewrite <- pass1_filter. destruct (pass1 err evs true d h) as [[[] d'] h']; [done|]. by rewrite <- pass2_filter.
Qed.

(** Events that the first pass skips. *)
Lemma pass1_app err a b : ∀ c d h, pass1 err (a ++ b) c d h =
  match pass1 false a c d h with
  | (None, d', h') => pass1 err b (if existsb (λ ev, match ev with ENs _ _ => false | _ => true end) a then true else c) d' h'
  | r => r
  end.
Proof.
  induction a as [|ev a IH]; intros c d h; [done|]. cbn [app Reader.pass1].
  destruct ev as [e|e|p v]; cbn [existsb orb].
  - destruct (pass1_step _ _ _ _ _ _ _ _) as [[d1|x] h1]; [|done]. rewrite IH.
    destruct (pass1 false a true d1 h1) as [[[] ?] ?]; [done|]. by destruct (existsb _ a).
  - destruct (pass1_step _ _ _ _ _ _ _ _) as [[d1|x] h1]; [|done]. rewrite IH.
    destruct (pass1 false a true d1 h1) as [[[] ?] ?]; [done|]. by destruct (existsb _ a).
  - apply IH.
Qed.
End facts.
