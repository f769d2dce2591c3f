(** Exporting what was read (PyCIM/RDFXMLReader.py, PyCIM/RDFXMLWriter.py). *)
From Coq Require Import String ZArith.
From stdpp Require Import prelude gmap.
From Verif Require Import PyStr PyHeap Schema Assoc AssocSpec TableSpec HeapFacts Reader ReaderSpec ReaderFacts FrameFacts CreateFacts
  StatementFacts ReaderTabs CompatFacts ReadSound ReadStepFacts ReadDocFacts Names TabProfiles Tables DocSpec DocFacts RefFacts
  ReturnFacts OrderFacts ReadDemo DocDemo PropReader PropDoc PartsSpec PartsFacts PropParts ExportSpec.
From Verif Require Import XmlWriter XmlCalls XmlSpec XmlDocFacts WriteSpec CimWriter WriteFacts WriteDocFacts WriteTables PropWriter.
From Verif Require BlankFacts RoundTables RoundFacts AgainFacts PropOutput.

Lemma listed_impl {A B} (P Q : A → list B → Prop) l r : (∀ x r, x ∈ l → P x r → Q x r) → listed P l r → listed Q l r.
Proof.
  intros H. induction 1 as [|x l r r' Hx Hl IH]; constructor; [apply H; [by left|done]|]. apply IH. intros y s Hy. apply H. by right.
Qed.
Lemma twins_sym d1 d2 v1 v2 : twins d1 d2 v1 v2 → twins d2 d1 v2 v1.
Proof. intros [[? ?]|(id & ? & ?)]; [by left|right; eauto]. Qed.
Lemma alike_sym T cl d1 h1 d2 h2 : alike T cl d1 h1 d2 h2 → alike T cl d2 h2 d1 h1.
Proof.
  intros [Hk H]. split; [intros id; by rewrite Hk|]. intros id k Hid.
  destruct (H id k Hid) as (o1 & o2 & E1 & E2 & C1 & C2 & Ha & Hp & Hm). exists o2, o1. split_and!; try done.
  - intros a Hpl. destruct (Ha a Hpl) as (v & ? & ?). eauto.
  - intros p kk Hl Hkk. destruct (Hp p kk Hl Hkk) as (v1 & v2 & ? & ? & ?). exists v2, v1. split_and!; try done. by apply twins_sym.
  - intros p kk Hl Hkk. destruct (Hm p kk Hl Hkk) as (y1 & y2 & ? & ? & H1 & H2). exists y2, y1. split_and!; try done.
    + intros v Hv. destruct (H2 v Hv) as (w & ? & ?). exists w. split; [done|]. by apply twins_sym.
    + intros v Hv. destruct (H1 v Hv) as (w & ? & ?). exists w. split; [done|]. by apply twins_sym.
Qed.

Section alike.
Context (t : schema) (pm : list (name * name)) (Ht : (t, pm) ∈ tables) (fint : pystr → option Z) (cim : pystr).
Context (cl : pystr → option name) (Hcl : ∀ id k, cl id = Some k → exports t pm k).
Lemma plain_sees h o k a v : cls_of h o = Some k → lookup_prop t k a = None → sees t h o a v ↔ shows t h o a v.
Proof. intros Hc Hl. unfold sees, shows. split; intros (ck & Hck & H); exists ck; (split; [done|]); assert (ck = k) as -> by congruence; by rewrite Hl in H |- *. Qed.
Lemma end_sees h o k p kk v : cls_of h o = Some k → lookup_prop t k p = Some kk → match kk with POneMany _ | POneOne _ => True | _ => False end →
  sees t h o p v ↔ shows t h o p v.
Proof. intros Hc Hl Hkk. unfold sees, shows. split; intros (ck & Hck & H); exists ck; (split; [done|]); assert (ck = k) as -> by congruence; rewrite Hl in H |- *; by destruct kk. Qed.
Lemma uuid_attr k : exports t pm k → plain_attr t k (u "UUID").
Proof using Ht.
  intros ([tag Htag] & Hu & _). pose proof Htag as Hin%assoc_in. destruct (BlankFacts.map_class t pm tag k Ht Hin) as (c & Hc & _).
  split; [done|]. split; [by eapply RoundTables.blank_uuid|]. by eapply AgainFacts.uuid_ok.
Qed.
Lemma shows_det h o k p v v' : cls_of h o = Some k → (∀ q c, lookup_prop t k p ≠ Some (PAlias q c)) → shows t h o p v → shows t h o p v' → v = v'.
Proof.
  intros Hc Hl (k1 & E1 & H1) (k2 & E2 & H2). assert (k1 = k) as -> by congruence. assert (k2 = k) as -> by congruence.
  destruct (lookup_prop t k p) as [[]|]; try congruence. by edestruct Hl.
Qed.
Section one.
Context (d1 : dict) (h1 : heap) (d2 : dict) (h2 : heap) (Ha : alike t cl d1 h1 d2 h2) (Hdom : ∀ id v, assoc id d1 = Some v → is_Some (cl id)).
Lemma target_text o o2 i s : twins d1 d2 (VRef o) o2 → sees t h1 o (u "UUID") i → text_of i s →
  ∃ x2, o2 = VRef x2 ∧ sees t h2 x2 (u "UUID") i ∧ ∀ c, cls_of h1 o = Some c → cls_of h2 x2 = Some c.
Proof using Ha Hcl Hdom Ht.
  intros [[? _]|(id & E1 & E2)] Hi Hs; [done|]. destruct (Hdom _ _ E1) as [k Hk].
  destruct (proj2 Ha id k Hk) as (p1 & p2 & F1 & F2 & C1 & C2 & Hat & _). rewrite E1 in F1. injection F1 as <-. rewrite E2 in F2. injection F2 as ->.
  exists p2. split; [done|]. pose proof (uuid_attr k (Hcl _ _ Hk)) as Hu. destruct (Hat _ Hu) as (v & S1 & S2). destruct Hu as (_ & Hl & _).
  split; [|intros c Hc; congruence]. apply (plain_sees _ _ k) in S1, S2; [|done..]. by rewrite (sees_det _ _ _ _ _ _ Hi S1).
Qed.
Lemma alike_writes id k o1 o2 e : cl id = Some k → assoc id d1 = Some (VRef o1) → assoc id d2 = Some (VRef o2) →
  Writes t fint cim h1 o1 e → Writes t fint cim h2 o2 e.
Proof using Ha Hcl Hdom Ht.
  intros Hk Ho1 Ho2 (k0 & top & below & as_ & es & rs & Hc & Hf & Em & Hn & Hs & H1 & H2 & H3 & Hp).
  destruct (proj2 Ha id k Hk) as (p1 & p2 & F1 & F2 & C1 & C2 & Hat & Hen & _). rewrite Ho1 in F1. injection F1 as <-. rewrite Ho2 in F2. injection F2 as <-.
  assert (k = c_key k0) as -> by congruence. destruct (Hcl _ _ Hk) as (Htag & Hun & Hoe). pose proof (RoundTables.round_ok t pm _ _ Ht Hf Hun) as Hrc.
  assert (∀ a v, plain_attr t (c_key k0) a → sees t h1 o1 a v → sees t h2 o2 a v) as Hpl.
  { intros a v Hpa Hv. destruct (Hat a Hpa) as (v0 & S1 & S2). destruct Hpa as (_ & Hl & _).
    apply (plain_sees _ _ _ _ _ C1 Hl) in S1. apply (plain_sees _ _ _ _ _ C2 Hl) in S2. by rewrite (sees_det _ _ _ _ _ _ Hv S1). }
  assert (∀ c, c ∈ reverse below → c ∈ mro t (c_key k0) ∧ ∀ a, a ∈ c_attrs c → plain_attr t (c_key k0) a) as Hb.
  { intros c Hin. rewrite elem_of_reverse in Hin. assert (c ∈ mro t (c_key k0)) as Hm by (rewrite Em; apply elem_of_app; by left).
    split; [done|]. intros a Haa. destruct (RoundTables.round_split _ _ Hrc below top Em) as (_ & _ & Hnu).
    by apply (RoundTables.round_attr_ok _ _ Hrc c a Hm Haa), (Hnu c). }
  assert (∀ v1 v2, twins d1 d2 v1 v2 → v1 = VNone ∨ ∃ x, v1 = VRef x) as Htw.
  { intros v1 v2 [[-> _]|(id' & E1 & _)]; [by left|right]. destruct (Hdom _ _ E1) as [k' Hk']. destruct (proj2 Ha id' k' Hk') as (q1 & _ & F1 & _).
    exists q1. congruence. }
  assert (∀ v2, twins d1 d2 VNone v2 → v2 = VNone) as Htn.
  { intros v2 [[_ ->]|(id' & E1 & _)]; [done|]. destruct (Hdom _ _ E1) as [k' Hk']. destruct (proj2 Ha id' k' Hk') as (q1 & _ & F1 & _). congruence. }
  exists k0, top, below, as_, es, rs. split_and!; try done.
  - apply Hpl; [|done]. apply uuid_attr. by eapply Hcl.
  - eapply listed_impl; [|exact H1]. intros c r [Hm Hca]%Hb. apply listed_impl. intros a r' Haa [?|(? & v & dv & Hv & ?)]; [by left|].
    right. split; [done|]. exists v, dv. split; [|done]. apply Hpl; [by apply Hca|done].
  - eapply listed_impl; [|exact H2]. intros c r [Hm Hca]%Hb. apply listed_impl. intros a r' Haa [?|(dt & v & s & ? & Hv & ?)]; [by left|].
    right. exists dt, v, s. split; [done|]. split; [|done]. apply Hpl; [by apply Hca|done].
  - eapply listed_impl; [|exact H3]. intros c r [Hm Hca]%Hb. apply listed_impl. intros p r' Hpp [?|(Hnm & Ho)]; [by left|]. right. split; [done|].
    pose proof (Hoe c p Hm Hpp Hnm) as Hkind. pose proof (RoundTables.round_ref_ok _ _ Hrc c p Hm Hpp Hnm) as [_ Hrk].
    destruct (lookup_prop t (c_key k0) p) as [kk|] eqn:El; [|done].
    assert (∀ p kk, lookup_prop t (c_key k0) p = Some kk → match kk with POneMany _ | POneOne _ => True | _ => False end →
      ∃ v1 v2, sees t h1 o1 p v1 ∧ sees t h2 o2 p v2 ∧ twins d1 d2 v1 v2) as Hen2.
    { intros p' kk' Hl' Hkk'. destruct (Hen p' kk' Hl' Hkk') as (v1 & v2 & S1 & S2 & Htwin). exists v1, v2.
      split; [by apply (end_sees _ _ _ _ _ _ C1 Hl' Hkk')|]. split; [by apply (end_sees _ _ _ _ _ _ C2 Hl' Hkk')|done]. }
    assert ((∃ q c0, kk = PAlias q c0) ∨ ¬ ∃ q c0, kk = PAlias q c0) as [(target & c0 & ->)|Hna].
    { destruct kk; eauto; right; by intros (? & ? & ?). }
    + destruct Hrk as [q Hq]. destruct (Hen2 target _ Hq I) as (v1 & v2 & S1 & S2 & Htwin).
      assert (∀ h o v, cls_of h o = Some (c_key k0) → sees t h o target v → slot h o (Priv target) = Some v) as Hslot.
      { intros h o v Hco (ck & Hck & Hvw). assert (ck = c_key k0) as -> by congruence. rewrite Hq in Hvw. unfold view in Hvw.
        destruct (slot h o (Priv target)) as [w|]; [|done]. cbn in Hvw. destruct w; try congruence. by destruct (h_lists h !! l). }
      assert (∀ h o v w, cls_of h o = Some (c_key k0) → sees t h o target w → sees t h o p v ↔ (val_cls h w = Some c0 ∧ v = w ∨ val_cls h w ≠ Some c0 ∧ v = VNone)) as Hal.
      { intros h o v w Hco Hw. unfold sees. rewrite Hco. split.
        - intros (ck & [= <-] & Hv). rewrite El in Hv. destruct Hv as (w' & Hw' & Hv). rewrite (Hslot _ _ _ Hco Hw) in Hw'. by injection Hw' as <-.
        - intros Hv. exists (c_key k0). split; [done|]. rewrite El. exists w. split; [by apply Hslot|done]. }
      destruct Ho as [[Hv ->]|(x & i & s & Hv & Hi & Hs' & ->)]; apply (Hal _ _ _ _ C1 S1) in Hv.
      * left. split; [|done]. apply (Hal _ _ _ _ C2 S2). right. split; [|done]. destruct (Htw _ _ Htwin) as [-> |[x ->]].
        { by rewrite (Htn _ Htwin). }
        destruct Hv as [[_ ?]|[Hv _]]; [done|]. destruct Htwin as [[? _]|(id' & E1 & E2)]; [done|]. destruct (Hdom _ _ E1) as [k' Hk'].
        destruct (proj2 Ha id' k' Hk') as (q1 & q2 & F1 & F2 & D1 & D2 & _). rewrite E1 in F1. injection F1 as <-. rewrite E2 in F2. injection F2 as ->.
        cbn in Hv |- *. congruence.
      * right. destruct Hv as [[Hv <-]|[_ ?]]; [|done]. destruct (target_text _ _ _ _ Htwin Hi Hs') as (x2 & -> & Hi2 & Hx2). exists x2, i, s.
        split_and!; try done. apply (Hal _ _ _ _ C2 S2). left. split; [|done]. cbn in Hv |- *. by apply Hx2.
    + assert (match kk with POneMany _ | POneOne _ => True | _ => False end) as Hkk by (destruct kk; try done; destruct Hna; eauto).
      destruct (Hen2 p _ El Hkk) as (v1 & v2 & S1 & S2 & Htwin).
      destruct Ho as [[Hv ->]|(x & i & s & Hv & Hi & Hs' & ->)]; rewrite (sees_det _ _ _ _ _ _ S1 Hv) in Htwin.
      * left. split; [|done]. by rewrite <- (Htn _ Htwin).
      * right. destruct (target_text _ _ _ _ Htwin Hi Hs') as (x2 & -> & Hi2 & _). exists x2, i, s. by split_and!.
Qed.
End one.
Lemma Forall2_perm {A B} (P : A → B → Prop) l l' k : l ≡ₚ l' → Forall2 P l k → ∃ k', k ≡ₚ k' ∧ Forall2 P l' k'.
Proof.
  intros Hp. revert k. induction Hp as [|x l l' Hp IH|x y l|l l' l'' H1 IH1 H2 IH2]; intros k Hk.
  - exists k. by split.
  - inversion Hk as [|? z ? k0 Hx Hr]; subst. destruct (IH _ Hr) as (k' & ? & ?). exists (z :: k'). split; [by constructor|by constructor].
  - inversion Hk as [|? z ? k0 Hx Hr]; subst. inversion Hr as [|? z' ? k1 Hy Hr']; subst. exists (z' :: z :: k1). split; [constructor|by repeat constructor].
  - destruct (IH1 _ Hk) as (k' & ? & Hk'). destruct (IH2 _ Hk') as (k'' & ? & ?). exists k''. split; [by etrans|done].
Qed.
Lemma alike_entries d1 h1 d2 h2 es : alike t cl d1 h1 d2 h2 → (∀ id v, assoc id d1 = Some v → is_Some (cl id)) →
  NoDup (map fst d1) → NoDup (map fst d2) → Writes_all t fint cim h1 d1 es → ∃ es', es ≡ₚ es' ∧ Writes_all t fint cim h2 d2 es'.
Proof using Hcl Ht.
  intros Ha Hdom Hn1 Hn2 Hw.
  assert (∀ (d : dict) id, id ∈ map fst d ↔ is_Some (assoc id d)) as Hkey.
  { intros d id. split.
    - intros Hin. destruct (assoc id d) eqn:E; [by eexists|]. by apply BlankFacts.assoc_None in E.
    - intros [v Hv%assoc_in]. apply elem_of_list_fmap. by exists (id, v). }
  set (Q := λ id e, ∃ o, assoc id d1 = Some (VRef o) ∧ Writes t fint cim h1 o e).
  assert (Forall2 Q (map fst d1) es) as HQ.
  { apply Forall2_fmap_l. unfold Writes_all in Hw.
    apply Forall2_same_length_lookup. apply Forall2_same_length_lookup in Hw as [Hlen Hw]. split; [done|].
    intros i [id v] e Hi He. destruct (Hw i _ _ Hi He) as (o & Eo & Ho). exists o. cbn [fst snd] in *. split; [|done]. rewrite <- Eo.
    apply RoundFacts.assoc_NoDup; [done|]. by eapply elem_of_list_lookup_2. }
  destruct (Forall2_perm Q (map fst d1) (map fst d2) es) as (es' & Hp & HQ'); [|done|].
  { apply NoDup_Permutation; [done..|]. intros id. by rewrite !Hkey, (proj1 Ha). }
  exists es'. split; [done|]. unfold Writes_all. rewrite Forall2_fmap_l in HQ'.
  apply Forall2_same_length_lookup. apply Forall2_same_length_lookup in HQ' as [Hlen HQ']. split; [done|].
  intros i [id v] e Hi He. destruct (HQ' i _ _ Hi He) as (o1 & Ho1 & Hwr). cbn [fst snd] in *.
  destruct (Hdom _ _ Ho1) as [k Hk]. destruct (proj2 Ha id k Hk) as (p1 & p2 & F1 & F2 & _). rewrite Ho1 in F1. injection F1 as <-.
  exists p2. split.
  - assert (assoc id d2 = Some v) as E by (apply RoundFacts.assoc_NoDup; [done|by eapply elem_of_list_lookup_2]). congruence.
  - by eapply (alike_writes d1 h1 d2 h2 Ha Hdom id k o1 p2).
Qed.
End alike.

(** Reading keeps the keys of a dictionary distinct. *)
Lemma dset_nodup id v (d : dict) : NoDup (map fst d) → NoDup (map fst (dset id v d)).
Proof.
  intros H. rewrite keys_dset. destruct (existsb _ _) eqn:E; [done|]. apply NoDup_app. split; [done|]. split; [|apply NoDup_singleton].
  intros x Hx ->%elem_of_list_singleton. apply BlankFacts.existsb_str in Hx. congruence.
Qed.
Lemma pass1_nodup base rdf t pm fuel err evs : ∀ c d h x d' h', NoDup (map fst d) → pass1 t pm fuel base rdf err evs c d h = (x, d', h') → NoDup (map fst d').
Proof.
  induction evs as [|ev evs IH]; intros c d h x d' h' Hn; cbn [pass1]; [by intros [= _ <- _]|].
  destruct (match ev with ENs _ _ => true | _ => false end) eqn:Ens; [destruct ev; try done; by apply IH|].
  assert (∀ (r : res), match ev with ENs _ _ => r | _ => match pass1_step t pm fuel base rdf c ev d h with
    | (inl d0, h0) => pass1 t pm fuel base rdf err evs true d0 h0 | (inr e, h0) => (Some e, d, h0) end end =
    match pass1_step t pm fuel base rdf c ev d h with (inl d0, h0) => pass1 t pm fuel base rdf err evs true d0 h0 | (inr e, h0) => (Some e, d, h0) end) as ->.
  { intros r. by destruct ev. }
  destruct (pass1_step t pm fuel base rdf c ev d h) as [[d1|e] h1] eqn:E; [|by intros [= _ <- _]]. apply IH. revert E.
  unfold pass1_step. destruct ev as [e|e|]; try (by intros [= <- _]). destruct (in_base base e); [|by intros [= <- _]].
  destruct (uuid_of rdf _); [|by intros [= <- _]]. destruct (assoc _ pm); [|by intros [= <- _]]. unfold bind.
  destruct (construct _ _ _ _ _ _) as [[o|] h2]; [|done]. intros [= <- _]. by apply dset_nodup.
Qed.
Lemma reads_nodup base rdf t pm fuel pf err root evs d h x d' h' : NoDup (map fst d) → reads base rdf t pm fuel pf err root evs d h = (x, d', h') → NoDup (map fst d').
Proof.
  intros Hn. rewrite read_unfold. destruct (pass1 _ _ _ _ _ _ _ _ _ _) as [[[e|] d1] h1] eqn:E; [intros [= _ <- _]; by eapply pass1_nodup|].
  destruct (pass2 _ _ _ _ _ _ _ _ _ _) as [y h2]. intros [= _ <- _]. by eapply pass1_nodup.
Qed.
Lemma parts_nodup base rdf t pm fuel pf parts d h d' h' : reads_parts base rdf pm t fuel pf parts d h d' h' → NoDup (map fst d) → NoDup (map fst d').
Proof. induction 1 as [|root items rest d h d1 h1 d2 h2 H1 H2 H3 IH]; [done|]. intros Hn. apply IH. by eapply reads_nodup. Qed.
Lemma declared_tag base rdf pm evs id k : declared_class base rdf pm evs id = Some k → ∃ tag, assoc tag pm = Some k.
Proof.
  unfold declared_class. intros H%assoc_in. rewrite elem_of_reverse in H. apply elem_of_list_omap in H as (ev & _ & H).
  destruct ev as [|e|]; try done. destruct (in_base base e); [|done]. destruct (uuid_of rdf _); [|done]. cbn in H.
  destruct (assoc (local base e) pm) as [k'|] eqn:E; [|done]. injection H as _ <-. eauto.
Qed.

Lemma declared_in base rdf pm evs id k : declared_class base rdf pm evs id = Some k → (id, k) ∈ declared base rdf pm evs.
Proof. unfold declared_class. intros H%assoc_in. by rewrite elem_of_reverse in H. Qed.

(** *** C94 *)
Notation both_exports t fint enc d1 h1 d2 h2 w1 := (∃ es1 es2 w2, es1 ≡ₚ es2 ∧
  writes_to t fint d2 enc h2 = (inl tt, h2, w2) ∧ Writes_all t fint cim_ns h1 d1 es1 ∧ Writes_all t fint cim_ns h2 d2 es2 ∧
  ((∀ e, e ∈ es1 → chars_ok data_char attr_char e) →
    parse_ns (w_out w1) = Some (doc_tree cim_ns rdf_ns cim_decls es1) ∧ parse_ns (w_out w2) = Some (doc_tree cim_ns rdf_ns cim_decls es2))).
(** Dictionaries with corresponding objects are exported with the same
    descriptions, in the order of the dictionaries. *)
Theorem C94_alike t pm cl fint enc d1 h1 d2 h2 h' w1 : (t, pm) ∈ tables → enc_ok enc → alike t cl d1 h1 d2 h2 →
  (∀ id v, assoc id d1 = Some v → is_Some (cl id)) → (∀ id k, cl id = Some k → exports t pm k) →
  NoDup (map fst d1) → NoDup (map fst d2) → writes_to t fint d1 enc h1 = (inl tt, h', w1) →
  both_exports t fint enc d1 h1 d2 h2 w1.
Proof.
  intros Ht He Ha Hdom Hcl Hn1 Hn2 Hw. destruct (C51_document _ _ _ _ _ _ _ _ Ht He Hw) as (es1 & Hes1 & Hp1).
  destruct (alike_entries t pm Ht fint cim_ns cl Hcl d1 h1 d2 h2 es1 Ha Hdom Hn1 Hn2 Hes1) as (es2 & Hperm & Hes2).
  destruct (proj2 (C51_returns t fint d2 enc h2)) as (h2' & w2 & Hw2); [eauto|].
  assert (h2' = h2) as -> by (by apply writes_spec in Hw2 as [-> _]).
  destruct (C51_document _ _ _ _ _ _ _ _ Ht He Hw2) as (es3 & Hes3 & Hp2). rewrite (C51_unique _ _ _ _ _ _ _ Hes3 Hes2) in Hp2.
  exists es1, es2, w2. split_and!; try done. intros Hc. split; [by apply Hp1|]. apply Hp2. intros e Hin. apply Hc. by rewrite Hperm.
Qed.
Print Assumptions C94_alike.
(** Hence what is exported after reading a document does not depend on the order
    of the document, except for the order of the descriptions... *)
Theorem C94_order t pm base rdf f pf err1 err2 root1 root2 evs1 evs2 h d1 h1 d2 h2 fint enc h' w1 : (t, pm) ∈ tables → enc_ok enc →
  Sound t h → foreign_root base evs1 → foreign_root base evs2 →
  same_doc base rdf pm [] evs1 evs2 → compatible_doc base rdf t pm evs1 [] h → coherent base rdf t pm evs1 [] h → attributes_plain base rdf t pm evs1 [] →
  instantiable base rdf pm evs1 → (∀ id k, declared_class base rdf pm evs1 id = Some k → only_ends t k) →
  reads base rdf t pm (S (S f)) pf err1 root1 evs1 [] h = (None, d1, h1) →
  reads base rdf t pm (S (S f)) pf err2 root2 evs2 [] h = (None, d2, h2) →
  writes_to t fint d1 enc h1 = (inl tt, h', w1) → both_exports t fint enc d1 h1 d2 h2 w1.
Proof.
  intros Ht He Hs Hf1 Hf2 Hsd Hc Hco Hp Hi Hex Hr1 Hr2 Hw.
  eapply (C94_alike t pm (declared_class base rdf pm evs1)); try done.
  - exact (C89_order t pm base rdf f pf [] h err1 err2 root1 root2 evs1 evs2 d1 d2 h1 h2 Ht Hs (dict_alive_nil _) Hf1 Hf2 Hsd Hc Hco Hp Hr1 Hr2).
  - intros id v Hv. destruct (reads_inv t pm Ht base rdf f pf err1 root1 evs1 [] h d1 h1 Hs (dict_alive_nil _) Hf1 Hc Hco Hr1) as (g1 & _ & Hd1 & Hcl1 & _).
    specialize (Hcl1 id). rewrite Hv in Hcl1. destruct (Hd1 _ _ Hv) as (o & -> & [k Hk]). unfold class_in in Hcl1.
    destruct (declared_class base rdf pm evs1 id); [by eexists|]. cbn in Hcl1. congruence.
  - intros id k Hk. split; [by eapply declared_tag|]. split; [eapply Hi, declared_in, Hk|exact (Hex id k Hk)].
  - eapply reads_nodup; [|exact Hr1]. constructor.
  - eapply reads_nodup; [|exact Hr2]. constructor.
Qed.
Print Assumptions C94_order.
(** ... nor on the way it is cut into files. *)
Theorem C94_parts t pm base rdf f pf root err parts h d1 h1 d2 h2 fint enc h' w1 : (t, pm) ∈ tables → enc_ok enc → Sound t h → in_base base root = false →
  Forall (flat_ok base rdf) (concat parts) → distinct_ids rdf (concat parts) → in_turn base rdf pm t parts →
  let whole := flat base (concat parts) ++ [EEnd root] in
  compatible_doc base rdf t pm whole [] h → coherent base rdf t pm whole [] h → attributes_plain base rdf t pm whole [] →
  instantiable base rdf pm whole → (∀ id k, class_of base rdf pm (concat parts) id = Some k → only_ends t k) →
  reads base rdf t pm (S (S f)) pf err root whole [] h = (None, d1, h1) →
  reads_parts base rdf pm t (S (S f)) pf parts [] h d2 h2 →
  writes_to t fint d1 enc h1 = (inl tt, h', w1) → both_exports t fint enc d1 h1 d2 h2 w1.
Proof.
  intros Ht He Hs Hroot Hok Hdist Hturn whole Hc Hco Hp Hi Hex Hr1 Hr2 Hw.
  pose proof (flat_foreign base root (concat parts) Hroot) as Hf1.
  eapply (C94_alike t pm (class_of base rdf pm (concat parts))); try done.
  - by eapply (C92_parts t pm base rdf f pf root err parts h).
  - intros id v Hv. destruct (reads_inv t pm Ht base rdf f pf err root whole [] h d1 h1 Hs (dict_alive_nil _) Hf1 Hc Hco Hr1) as (g1 & _ & Hd1 & Hcl1 & _).
    specialize (Hcl1 id). rewrite Hv in Hcl1. destruct (Hd1 _ _ Hv) as (o & -> & [k Hk]). unfold class_in in Hcl1.
    rewrite <- (class_root base rdf pm (concat parts) root id) by done. fold whole.
    destruct (declared_class base rdf pm whole id); [by eexists|]. cbn in Hcl1. congruence.
  - intros id k Hk. split; [by eapply declared_tag|]. split; [|exact (Hex id k Hk)].
    rewrite <- (class_root base rdf pm (concat parts) root id) in Hk by done. eapply Hi, declared_in, Hk.
  - eapply reads_nodup; [|exact Hr1]. constructor.
  - eapply parts_nodup; [exact Hr2|]. constructor.
Qed.
Print Assumptions C94_parts.

(** In the fourteen profiles every reference is an end. *)
Definition only_ends_b (S : schema) (k : name) : bool := forallb (λ c, forallb (λ r, existsb (str_eqb r) (c_many c) ||
  match lookup_prop S k r with Some (POneMany _ | POneOne _ | PAlias _ _) => true | _ => false end) (c_refs c)) (mro S k).
Lemma only_ends_b_ok S k : only_ends_b S k = true → only_ends S k.
Proof.
  unfold only_ends_b. rewrite forallb_forall. intros H c r Hc Hr Hm. specialize (H c (proj1 (elem_of_list_In _ _) Hc)). rewrite forallb_forall in H.
  specialize (H r (proj1 (elem_of_list_In _ _) Hr)). apply orb_true_iff in H as [H%BlankFacts.existsb_str|H]; [done|].
  destruct (lookup_prop S k r) as [[]|]; done.
Qed.
Lemma profiles_ends_b : forallb (λ t, forallb (λ tk, only_ends_b t.1 tk.2) t.2) profiles = true.
Proof. vm_compute. reflexivity. Qed.
Theorem C94_profiles t pm tag k : (t, pm) ∈ profiles → assoc tag pm = Some k → only_ends t k.
Proof.
  intros Ht Hk%assoc_in. apply only_ends_b_ok. pose proof profiles_ends_b as H. rewrite forallb_forall in H.
  specialize (H _ (proj1 (elem_of_list_In _ _) Ht)). rewrite forallb_forall in H. exact (H _ (proj1 (elem_of_list_In _ _) Hk)).
Qed.
Print Assumptions C94_profiles.

Notation tied_r := (reads Bt R topo topo_map 20 pf_demo false root tied_doc [] heap_empty).
Notation tied_r' := (reads Bt R topo topo_map 20 pf_demo false root tied_doc' [] heap_empty).
Notation tied_out r := (writes_to topo fint_demo (snd (fst r)) (u "utf-8") (snd r)).
Lemma topo_profile : (topo, topo_map) ∈ profiles.
Proof. unfold profiles. repeat first [by left | right]. Qed.
Example C94_example :
  instantiable Bt R topo_map tied_doc ∧ (∀ id k, declared_class Bt R topo_map tied_doc id = Some k → only_ends topo k) ∧ enc_ok (u "utf-8") ∧
  same_doc Bt R topo_map [] tied_doc tied_doc' ∧ fst (fst tied_r) = None ∧ fst (fst tied_r') = None ∧ fst (fst (tied_out tied_r)) = inl tt.
Proof.
  split; [exact tied_instantiable|]. split.
  { intros id k Hk. destruct (declared_tag _ _ _ _ _ _ Hk) as [tag Ht]. exact (C94_profiles _ _ _ _ topo_profile Ht). }
  split; [right; by left|]. split; [|split; [compute_now|split; compute_now]].
  destruct C89_example as (H1 & H2 & H3 & H4 & _). exact (C89_reordered Bt R topo_map [] root tied_items tied_items' H1 H2 H3 H4).
Qed.
Example C94_example_parts :
  instantiable Bt R topo_map (flat Bt (concat [part1; part2]) ++ [EEnd root]) ∧
  (∀ id k, class_of Bt R topo_map (concat [part1; part2]) id = Some k → only_ends topo k) ∧
  (let '(x, d, h) := reads Bt R topo topo_map 20 pf_demo false root (flat Bt (concat [part1; part2]) ++ [EEnd root]) [] heap_empty in
   x = None ∧ fst (fst (writes_to topo fint_demo d (u "utf-8") h)) = inl tt).
Proof.
  split; [apply instantiable_b_ok; compute_now|]. split; [|vm_compute; by split].
  intros id k Hk. destruct (declared_tag _ _ _ _ _ _ Hk) as [tag Ht]. exact (C94_profiles _ _ _ _ topo_profile Ht).
Qed.
(** The texts are different when the orders are. *)
Theorem C94_text_refuted : fst (fst (tied_out tied_r')) = inl tt ∧ w_out (snd (tied_out tied_r)) ≠ w_out (snd (tied_out tied_r')).
Proof.
  split; [compute_now|]. intros E. assert (str_eqb (w_out (snd (tied_out tied_r))) (w_out (snd (tied_out tied_r'))) = false) as H by compute_now.
  rewrite E, str_eqb_refl in H. done.
Qed.
Print Assumptions C94_text_refuted.
