(** What cimwrite makes of a copy. *)
From Coq Require Import String ZArith.
From stdpp Require Import prelude gmap.
From Verif Require Import PyStr PyHeap Schema Assoc AssocSpec HeapFacts HistorySpec HistoryFacts Names TabCIM14 TabCIM15 TabProfiles Tables TableSpec
  TableFacts BlankFacts CreateFacts Reader ReaderSpec ReaderFacts FrameFacts ReaderTabs XmlSpec XmlCalls WriteSpec WriteFacts WriteTables RoundSpec AgainSpec RoundTables
  RoundFacts RoundMain.

(** Every object has its identifier among the attributes of Element. *)
Definition uuid_one (n : nat) (m : gmap name cls) (k : name) : bool :=
  existsb (str_eqb k) unconstructible || existsb (λ c, existsb (str_eqb (u "UUID")) (c_attrs c)) (mro_map n m k).
Definition uuid_all (t : schema) (_ : list (name * name)) : bool :=
  let m := cmap t in
  let n := length t in
  forallb (λ c, uuid_one n m (c_key c)) t.
Lemma uuid_all_true : all_tables uuid_all = true.
Proof. vm_compute. reflexivity. Qed.
Lemma uuid_ok t pm k c : (t, pm) ∈ tables → find_cls t k = Some c → k ∉ unconstructible → ∃ c', c' ∈ mro t k ∧ u "UUID" ∈ c_attrs c'.
Proof.
  intros Ht Hc Hu. pose proof (all_tables_ok _ _ _ uuid_all_true Ht) as H. unfold uuid_all in H.
  destruct (find_cls_in _ _ _ Hc) as [Hin <-]. apply (all_rows_ok _ _ _ H) in Hin. unfold uuid_one in Hin.
  apply orb_true_iff in Hin as [?%BlankFacts.existsb_str|Hin]; [done|].
  rewrite mro_map_mro in Hin. apply existsb_exists in Hin as (c' & H1%elem_of_list_In & H2%BlankFacts.existsb_str). eauto.
Qed.

Lemma listed_filter {A B} (P Q : A → list B → Prop) (k : B → bool) l r :
  (∀ x r, x ∈ l → P x r → Q x (List.filter k r)) → listed P l r → listed Q l (List.filter k r).
Proof.
  intros H. induction 1 as [|x l r r' Hx Hl IH]; [constructor|]. rewrite List.filter_app. constructor; [apply H; [by left|done]|].
  apply IH. intros y s Hy. apply H. by right.
Qed.

Section again.
Context (t : schema) (pm : list (name * name)) (Ht : (t, pm) ∈ tables) (pf : pystr → option pystr) (fint : pystr → option Z).
Context (h : heap) (d : dict) (HP : Portable t pm pf h d).
Context (h2 : heap) (d' : dict) (HC : Copies t h d h2 d').
Notation copy_of := (copy_of d d').

Lemma copy_id o o' : copy_of o o' → ∃ id c, assoc id d = Some (VRef o) ∧ assoc id d' = Some (VRef o') ∧ sees t h o (u "UUID") (VStr id) ∧
  sees t h2 o' (u "UUID") (VStr id) ∧ cls_of h o = Some (c_key c) ∧ cls_of h2 o' = Some (c_key c) ∧ find_cls t (c_key c) = Some c ∧
  assoc (c_name c) pm = Some (c_key c) ∧ c_key c ∉ unconstructible.
Proof using HP HC Ht.
  intros Hco. pose proof Hco as (id & H1 & H2). destruct (dict_obj _ _ _ _ _ HP _ _ H1) as (o2 & c & [= <-] & Hu & Hc & Hf & Hn & Hk).
  destruct (uuid_ok _ _ _ _ Ht Hf Hk) as (c' & Hc' & Ha).
  destruct (cp_attrs _ _ _ _ _ HC o o' _ c' _ _ Hco Hc Hc' Ha Hu) as (v' & Hv' & [->|[? _]]); [|done].
  exists id, c. split_and!; try done. by rewrite (cp_class _ _ _ _ _ HC _ _ Hco).
Qed.
Lemma copy_inj2 o1 o2 o' : copy_of o1 o' → copy_of o2 o' → o1 = o2.
Proof using HP HC Ht.
  intros (i1 & c1 & A1 & _ & _ & U1 & _)%copy_id (i2 & c2 & A2 & _ & _ & U2 & _)%copy_id.
  pose proof (sees_det _ _ _ _ _ _ U1 U2) as [= <-]. congruence.
Qed.
Lemma zero_equal dv v : fits pf dv (VFloat (u "-0.0")) → falsy_val dv = true → v ∈ [VFloat (u "-0.0"); VFloat (u "0.0")] → equal fint v dv.
Proof.
  intros Hf Hz Hv. inversion Hf as [| |? r0|]; subst. cbn [falsy_val] in Hz. apply str_eqb_eq in Hz as ->.
  apply elem_of_cons in Hv as [->| ->%elem_of_list_singleton]; apply eq_zeros; (by left) || (right; by left).
Qed.
Lemma kept_ref ids tag i : kept ids (PResource tag (u "#" ++ i)) = bool_decide (i ∈ ids).
Proof.
  change (u "#" ++ i) with (35%N :: i). cbn [kept]. rewrite decide_True by done. apply Bool.eq_true_iff_eq. by rewrite BlankFacts.existsb_str, bool_decide_eq_true.
Qed.

Notation ids := (map fst d).
Lemma key_in id : id ∈ ids ↔ ∃ v, assoc id d = Some v.
Proof.
  split.
  - intros Hin. destruct (assoc id d) as [v|] eqn:E; [eauto|]. by apply assoc_None in E.
  - intros [v Hv%assoc_in]. apply elem_of_list_fmap. by exists (id, v).
Qed.
Lemma copy_writes cim o o' e : (∃ c r, cim = c :: r ∧ c ≠ 35%N) → copy_of o o' → Writes t fint cim h o e → Writes t fint cim h2 o' (trim ids e).
Proof using HP HC Ht.
  intros Hcim Hco (k & top & below & as_ & es & rs & Hc & Hf & Em & Hn & Hs & H1 & H2 & H3 & Hp).
  destruct (copy_id _ _ Hco) as (id & c0 & A1 & A2 & U1 & U2 & C1 & C2 & F & N & K).
  assert (k = c0) as -> by congruence. pose proof (sees_det _ _ _ _ _ _ Hs U1) as [= Eid].
  pose proof (proj1 (dict_in _ _ _ _ _ HP _ _) A1) as Hd.
  assert (round_cls (mro t (c_key c0)) = true) as Hrc by (by eapply round_ok).
  destruct (round_split _ _ Hrc below top Em) as (_ & _ & Hnu).
  assert (∀ c, c ∈ reverse below → c ∈ below ∧ c ∈ mro t (c_key c0)) as Hm.
  { intros c Hin. rewrite elem_of_reverse in Hin. split; [done|]. rewrite Em. apply elem_of_app. by left. }
  exists c0, top, below, (List.filter (kept ids) as_), (List.filter (kept ids) es), (List.filter (kept ids) rs).
  split_and!; try done.
  - cbn [en_id trim]. by rewrite Eid.
  - eapply listed_filter; [|exact H1]. intros c r Hcb. destruct (Hm c Hcb) as [Hb Hmc]. intros Hl.
    eapply listed_filter; [|exact Hl]. intros a r' Haa Ho. cbv beta in Ho. pose proof (Hnu c a Hb Haa) as Hne.
    destruct Ho as [[He ->]|(He & v & dv & Hv & Hdv & Ho)]; [by left|]. right. split; [done|].
    destruct (cp_attrs _ _ _ _ _ HC o o' _ c a v Hco Hc Hmc Haa Hv) as (v' & Hv' & Hvv).
    exists v', dv. split; [done|]. split; [done|].
    pose proof (po_attrs _ _ _ _ _ HP _ _ _ c a v Hd Hc Hmc Haa Hne Hv) as Hfit. rewrite He in Hfit. specialize (Hfit dv Hdv).
    destruct (round_attr_ok _ _ Hrc c a Hmc Haa Hne) as [_ Hz]. rewrite He in Hz. destruct Hz as (dv' & Hdv' & _ & Hz).
    assert (dv' = dv) as -> by congruence.
    destruct Hvv as [->|[-> ->]].
    + destruct Ho as [[Heq ->]|(Hneq & s & Hs' & ->)]; [by left|]. right. split; [done|]. exists s. by split.
    + left. split; [apply zero_equal; [done|done|right; by left]|].
      destruct Ho as [[_ ->]|(Hneq & _)]; [done|]. destruct Hneq. apply zero_equal; [done|done|by left].
  - eapply listed_filter; [|exact H2]. intros c r Hcb. destruct (Hm c Hcb) as [Hb Hmc]. intros Hl.
    eapply listed_filter; [|exact Hl]. intros a r' Haa Ho. cbv beta in Ho. pose proof (Hnu c a Hb Haa) as Hne.
    destruct Ho as [[He ->]|(dt & v & s & He & Hv & Hs' & ->)]; [by left|]. right.
    destruct (cp_attrs _ _ _ _ _ HC o o' _ c a v Hco Hc Hmc Haa Hv) as (v' & Hv' & Hvv).
    pose proof (po_attrs _ _ _ _ _ HP _ _ _ c a v Hd Hc Hmc Haa Hne Hv) as Hfit. rewrite He in Hfit. destruct Hfit as (s' & -> & _).
    destruct Hvv as [->|[? _]]; [|done]. exists dt, (VStr s'), s. split_and!; try done.
    destruct Hcim as (x & y & -> & Hx). cbn [List.filter kept app]. by rewrite decide_False by done.
  - eapply listed_filter; [|exact H3]. intros c r Hcb. destruct (Hm c Hcb) as [Hb Hmc]. intros Hl.
    eapply listed_filter; [|exact Hl]. intros p r' Hpp Ho. cbv beta in Ho.
    destruct Ho as [[He ->]|(He & Ho)]; [by left|]. right. split; [done|].
    destruct Ho as [[Hv ->]|(x & i & s & Hv & Hi & Hs' & ->)].
    + left. split; [|done]. destruct (cp_refs _ _ _ _ _ HC o o' _ c p _ Hco Hc Hmc Hpp He Hv) as (v' & Hvc & Hv').
      apply value_copy_plain in Hvc as ->; done.
    + destruct (cp_refs _ _ _ _ _ HC o o' _ c p _ Hco Hc Hmc Hpp He Hv) as (v' & Hvc & Hv').
      destruct (po_refs _ _ _ _ _ HP _ _ _ c p x Hd Hc Hmc Hpp He Hv) as (i2 & Hi2 & _ & Hu2).
      pose proof (sees_det _ _ _ _ _ _ Hi Hi2) as ->. assert (s = i2) as -> by (by inversion Hs').
      cbn [List.filter]. rewrite kept_ref. inversion Hvc as [? Hnr|? x' Hcx|? Hout]; subst; [by destruct (Hnr x)| |].
      * destruct (copy_id _ _ Hcx) as (ix & cx & B1 & B2 & V1 & V2 & _). pose proof (sees_det _ _ _ _ _ _ V1 Hi2) as [= ->].
        rewrite bool_decide_true by (apply key_in; eauto). right. exists x', (VStr i2), i2. split_and!; try done.
      * rewrite bool_decide_false; [by left|]. intros [w Hw]%key_in. pose proof (Hu2 _ Hw) as ->.
        destruct (cp_objects _ _ _ _ _ HC _ _ Hw) as (x' & Hx'). destruct (Hout x'). by exists i2.
  - cbn [en_props trim]. by rewrite Hp, !List.filter_app.
Qed.
Lemma copy_writes_all cim es : (∃ c r, cim = c :: r ∧ c ≠ 35%N) → Writes_all t fint cim h d es → Writes_all t fint cim h2 d' (map (trim ids) es).
Proof using HP HC Ht.
  intros Hcim Hes. unfold Writes_all in *. apply Forall2_fmap_r. pose proof (cp_keys _ _ _ _ _ HC) as Hk.
  assert (∀ i kv, d' !! i = Some kv → ∃ o' o, kv.2 = VRef o' ∧ d !! i = Some (kv.1, VRef o) ∧ copy_of o o') as Hd.
  { intros i [id v'] Hi. assert (map fst d !! i = Some id) as Hid. { rewrite <- Hk. change ((fst <$> d') !! i = Some id). rewrite (list_lookup_fmap fst d' i). change (fst <$> d' !! i = Some id). by rewrite Hi. }
    apply list_lookup_fmap_inv in Hid as ([id2 v] & Eid & E). cbn [fst] in Eid. subst id2.
    pose proof (elem_of_list_lookup_2 _ _ _ E) as Hin. destruct (po_ids _ _ _ _ _ HP _ _ Hin) as (o & -> & _).
    apply (dict_in _ _ _ _ _ HP) in Hin. destruct (cp_objects _ _ _ _ _ HC _ _ Hin) as (o' & Ho'). exists o', o. cbn [fst snd].
    assert (assoc id d' = Some v') as E2.
    { apply assoc_NoDup; [rewrite Hk; apply HP|]. by eapply elem_of_list_lookup_2. }
    assert (v' = VRef o') as -> by congruence. split_and!; try done. by exists id. }
  apply Forall2_same_length_lookup. split.
  { rewrite <- (Forall2_length _ _ _ Hes), <- (fmap_length fst), <- (fmap_length fst d). f_equal. exact Hk. }
  intros i kv e Hi He. destruct (Hd i kv Hi) as (o' & o & E & E2 & Hco). exists o'. split; [done|].
  pose proof (Forall2_lookup_lr _ _ _ _ _ _ Hes E2 He) as (o2 & Eo & Hw). cbn [snd] in Eo. injection Eo as <-.
  by eapply copy_writes.
Qed.
Lemma trim_closed cim es : (∃ c r, cim = c :: r ∧ c ≠ 35%N) → no_way_out t h d → Writes_all t fint cim h d es → map (trim ids) es = es.
Proof using HP Ht.
  intros Hcim Hno Hes. rewrite <- (map_id es) at 2. apply map_ext_in. intros e He%elem_of_list_In.
  destruct (written_entry t pm pf fint h d HP cim es Hes e He) as (o & c0 & Hin & Hw & C1 & F & N & A & K).
  pose proof (proj1 (dict_in _ _ _ _ _ HP _ _) Hin) as Hd.
  destruct Hw as (k & top & below & as_ & es1 & rs & Hc & Hf & Em & Hn & Hs & H1 & H2 & H3 & Hp).
  assert (k = c0) as -> by congruence.
  assert (∀ c, c ∈ reverse below → c ∈ mro t (c_key c0)) as Hm.
  { intros c Hb. rewrite elem_of_reverse in Hb. rewrite Em. apply elem_of_app. by left. }
  destruct e as [cn i ps]. unfold trim. cbn [en_class en_id en_props] in *. f_equal.
  assert (∀ l : list pelem, (∀ p, p ∈ l → kept ids p = true) → List.filter (kept ids) l = l) as Hfl.
  { induction l as [|p l IH]; intros Hl; [done|]. cbn [List.filter]. rewrite (Hl p) by (by left). f_equal. apply IH. intros q Hq. apply Hl. by right. }
  apply Hfl. intros p. rewrite Hp. intros [Hin'|[Hin'|Hin']%elem_of_app]%elem_of_app.
  - destruct (listed_in _ _ _ _ H1 Hin') as (c & r' & Hcb & Hl & Hi). destruct (listed_in _ _ _ _ Hl Hi) as (a & r2 & Haa & Ho & Hi2).
    destruct Ho as [[_ ->]|(Hen & v & dv & Hv & Hdv & [[_ ->]|(Hne & s & Hs' & ->)])]; [by apply elem_of_nil in Hi2..|].
    by apply elem_of_list_singleton in Hi2 as ->.
  - destruct (listed_in _ _ _ _ H2 Hin') as (c & r' & Hcb & Hl & Hi). destruct (listed_in _ _ _ _ Hl Hi) as (a & r2 & Haa & Ho & Hi2).
    destruct Ho as [[_ ->]|(dt & v & s & Hen & Hv & Hs' & ->)]; [by apply elem_of_nil in Hi2|].
    apply elem_of_list_singleton in Hi2 as ->. destruct Hcim as (x & y & -> & Hx). cbn [kept app]. by rewrite decide_False by done.
  - destruct (listed_in _ _ _ _ H3 Hin') as (c & r' & Hcb & Hl & Hi). destruct (listed_in _ _ _ _ Hl Hi) as (a & r2 & Haa & Ho & Hi2).
    destruct Ho as [[_ ->]|(Hm' & [[_ ->]|(x & j & s & Hx & Hj & Hs' & ->)])]; [by apply elem_of_nil in Hi2..|].
    apply elem_of_list_singleton in Hi2 as ->. rewrite kept_ref. apply bool_decide_eq_true.
    destruct (Hno _ _ _ c a x Hd Hc (Hm _ Hcb) Haa Hm' Hx) as (jx & Hjx).
    destruct (po_ids _ _ _ _ _ HP _ _ Hjx) as (o2 & [= <-] & Hj2 & _). pose proof (sees_det _ _ _ _ _ _ Hj Hj2) as ->.
    assert (s = jx) as -> by (by inversion Hs'). apply elem_of_list_fmap. by exists (jx, VRef x).
Qed.

(** The copy can be exported in turn, and no reference leads out of it. *)
Lemma seen_before cim es o o' ck c a : Writes_all t fint cim h d es → copy_of o o' → cls_of h o = Some ck → c ∈ mro t ck →
  a ∈ c_attrs c ∨ a ∈ c_refs c ∧ a ∉ c_many c → ∃ v, sees t h o a v.
Proof using HP HC Ht.
  intros Hes Hco Hck Hc Ha. destruct (copy_id _ _ Hco) as (id & c0 & A1 & A2 & U1 & U2 & C1 & C2 & F & N & K).
  rewrite Hck in C1. injection C1 as ->.
  destruct (entry_written t pm pf fint h d HP cim es Hes id o A1) as (e & He & Hw & _).
  destruct Hw as (k & top & below & as_ & es1 & rs & Hc' & Hf & Em & Hn & Hs & H1 & H2 & H3 & Hp).
  assert (k = c0) as -> by congruence.
  assert (round_cls (mro t (c_key c0)) = true) as Hrc by (by eapply round_ok).
  destruct (round_split _ _ Hrc below top Em) as (Hta & Htr & _). pose proof Hc as Hc2. rewrite Em in Hc2.
  apply elem_of_app in Hc2 as [Hb| ->%elem_of_list_singleton].
  - rewrite <- elem_of_reverse in Hb. destruct Ha as [Ha|[Ha Hm]].
    + destruct (listed_get _ _ _ _ H1 Hb) as (r1 & Hl & _). destruct (listed_get _ _ _ _ Hl Ha) as (r2 & Ho & _).
      destruct Ho as [[He' _]|(_ & v & _ & Hv & _)]; [|eauto].
      destruct (listed_get _ _ _ _ H2 Hb) as (r3 & Hl' & _). destruct (listed_get _ _ _ _ Hl' Ha) as (r4 & Ho & _).
      destruct Ho as [[? _]|(_ & v & _ & _ & Hv & _)]; [done|eauto].
    + destruct (listed_get _ _ _ _ H3 Hb) as (r1 & Hl & _). destruct (listed_get _ _ _ _ Hl Ha) as (r2 & Ho & _).
      destruct Ho as [[? _]|(_ & [[Hv _]|(x & _ & _ & Hv & _)])]; [done|eauto..].
  - destruct Ha as [Ha|[Ha _]]; [|rewrite Htr in Ha; by apply elem_of_nil in Ha]. apply Hta in Ha as ->. eauto.
Qed.
Lemma copy_back id v : (id, v) ∈ d' → ∃ o o', v = VRef o' ∧ assoc id d = Some (VRef o) ∧ copy_of o o'.
Proof using HP HC.
  intros Hin. assert (assoc id d' = Some v) as Hv.
  { apply assoc_NoDup; [rewrite (cp_keys _ _ _ _ _ HC); apply HP|done]. }
  destruct (assoc_keys d d' (cp_keys _ _ _ _ _ HC) id) as [w Hw]; [eauto|].
  destruct (dict_obj _ _ _ _ _ HP _ _ Hw) as (o & _ & -> & _). destruct (cp_objects _ _ _ _ _ HC _ _ Hw) as (o' & Ho').
  exists o, o'. split_and!; [congruence|done|by exists id].
Qed.
Lemma copy_refers cim es o o' ck c p x' : Writes_all t fint cim h d es → copy_of o o' → cls_of h o = Some ck → c ∈ mro t ck → p ∈ c_refs c → p ∉ c_many c →
  sees t h2 o' p (VRef x') → ∃ x, copy_of x x'.
Proof using HP HC Ht.
  intros Hes Hco Hck Hc Hp Hm Hx. destruct (seen_before cim es o o' ck c p Hes Hco Hck Hc) as [v Hv]; [by right|].
  destruct (cp_refs _ _ _ _ _ HC o o' ck c p v Hco Hck Hc Hp Hm Hv) as (v' & Hvc & Hv').
  pose proof (sees_det _ _ _ _ _ _ Hv' Hx) as ->. apply value_copy_ref in Hvc as (x & -> & Hcx). eauto.
Qed.
Lemma copy_no_way_out cim es : Writes_all t fint cim h d es → no_way_out t h2 d'.
Proof using HP HC Ht.
  intros Hes id o' ck c p x' Hin Hck Hc Hp Hm Hx. destruct (copy_back _ _ Hin) as (o & o2 & [= <-] & Ho & Hco).
  rewrite (cp_class _ _ _ _ _ HC _ _ Hco) in Hck.
  destruct (copy_refers cim es o o' ck c p x' Hes Hco Hck Hc Hp Hm Hx) as (x & i & _ & Hi). exists i. by apply assoc_in.
Qed.
Lemma copy_portable cim es : pf (u "0.0") = Some (u "0.0") → Sound t h2 → Writes_all t fint cim h d es → Portable t pm pf h2 d'.
Proof using HP HC Ht.
  intros Hpf Hs2 Hes. constructor.
  - done.
  - rewrite (cp_keys _ _ _ _ _ HC). apply HP.
  - intros id v Hin. destruct (copy_back _ _ Hin) as (o & o' & -> & Ho & Hco). exists o'. split; [done|].
    destruct (copy_id _ _ Hco) as (i & c & A1 & A2 & U1 & U2 & _).
    destruct (po_ids _ _ _ _ _ HP id (VRef o)) as (o2 & [= <-] & Hid & Hch); [by apply assoc_in|].
    pose proof (sees_det _ _ _ _ _ _ U1 Hid) as [= ->]. by split.
  - intros id o' Hin. destruct (copy_back _ _ Hin) as (o & o2 & [= <-] & Ho & Hco).
    destruct (copy_id _ _ Hco) as (i & c & A1 & A2 & U1 & U2 & C1 & C2 & F & N & K). exists c. by split_and!.
  - intros id o' ck c a v' Hin Hck Hc Ha Hne Hv'. destruct (copy_back _ _ Hin) as (o & o2 & [= <-] & Ho & Hco).
    rewrite (cp_class _ _ _ _ _ HC _ _ Hco) in Hck.
    destruct (seen_before cim es o o' ck c a Hes Hco Hck Hc) as [v Hv]; [by left|].
    destruct (cp_attrs _ _ _ _ _ HC o o' ck c a v Hco Hck Hc Ha Hv) as (v2 & Hv2 & Hvv).
    pose proof (sees_det _ _ _ _ _ _ Hv2 Hv') as ->.
    pose proof (po_attrs _ _ _ _ _ HP id o ck c a v (assoc_in _ _ _ Ho) Hck Hc Ha Hne Hv) as Hfit.
    destruct Hvv as [->|[-> ->]]; [done|]. destruct (assoc a (c_enums c)) as [dt|].
    + by destruct Hfit as (s & [=] & _).
    + intros dflt Hd. specialize (Hfit dflt Hd). inversion Hfit; subst. by constructor.
  - intros id o' ck c p x' Hin Hck Hc Hp Hm Hx. destruct (copy_back _ _ Hin) as (o & o2 & [= <-] & Ho & Hco).
    rewrite (cp_class _ _ _ _ _ HC _ _ Hco) in Hck.
    destruct (copy_refers cim es o o' ck c p x' Hes Hco Hck Hc Hp Hm Hx) as (x & Hcx).
    destruct (copy_id _ _ Hcx) as (i & cx & A1 & A2 & U1 & U2 & _). exists i.
    destruct (po_ids _ _ _ _ _ HP i (VRef x)) as (o2 & [= <-] & _ & Hch); [by apply assoc_in|]. split_and!; [done|done|]. intros v Hv. congruence.
Qed.
End again.
