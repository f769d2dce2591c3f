(** Reading file after file. *)
From Coq Require Import String.
From stdpp Require Import prelude gmap.
From Verif Require Import PyStr PyHeap Schema Assoc AssocSpec TableSpec HeapFacts HistoryFacts Reader ReaderSpec ReaderFacts FrameFacts CreateFacts
  StatementFacts ReaderTabs CompatFacts ReadSound ReadStepFacts ReadDocFacts Tables DocSpec DocFacts RefFacts OrderFacts PartsSpec.
From Verif Require RoundFacts.

(** *** Statements under more or fewer classes *)
Section mono.
Context (base rdf : pystr) (S : schema).
Lemma refers_mono (cl cl' : pystr → option name) sts sts' x a y : (∀ id k, cl id = Some k → cl' id = Some k) → sts ⊆ sts' →
  refers base rdf cl sts x a y → refers base rdf cl' sts' x a y.
Proof. intros Hc Hs (e & H1 & H2 & [k H3]). exists e. split_and!; [set_solver|done|]. rewrite (Hc _ _ H3). eauto. Qed.
Lemma says_mono (cl cl' : pystr → option name) sts sts' x p y : (∀ id k, cl id = Some k → cl' id = Some k) → sts ⊆ sts' →
  says base rdf S cl sts x p y → says base rdf S cl' sts' x p y.
Proof.
  intros Hc Hs H. pose proof (refers_mono cl cl' sts sts') as Hr. destruct H.
  - eapply says_single; eauto.
  - eapply says_alias; eauto.
  - eapply says_member; eauto.
  - eapply says_pair; eauto.
  - eapply says_partner; eauto.
Qed.
Lemma says_many_mono (cl cl' : pystr → option name) sts sts' x p y : (∀ id k, cl id = Some k → cl' id = Some k) → sts ⊆ sts' →
  says_many base rdf S cl sts x p y → says_many base rdf S cl' sts' x p y.
Proof.
  intros Hc Hs H. pose proof (refers_mono cl cl' sts sts') as Hr. destruct H.
  - eapply says_many_here; eauto.
  - eapply says_many_there; eauto.
Qed.
(** Statements whose subjects and targets [cl] knows. *)
Section closed.
Context (cl cl' : pystr → option name) (sts : list (pystr * elem)).
Context (Hc : ∀ id k, cl id = Some k → cl' id = Some k) (Hsub : ∀ id e, (id, e) ∈ sts → is_Some (cl id)).
Context (Hto : ∀ x a y, refers base rdf cl' sts x a y → is_Some (cl y)).
Lemma refers_back x a y : refers base rdf cl' sts x a y → refers base rdf cl sts x a y ∧ is_Some (cl x).
Proof using Hsub Hto. intros H. pose proof (Hto _ _ _ H). destruct H as (e & H1 & H2 & _). split; [by exists e|by eapply Hsub]. Qed.
Lemma class_back x k : is_Some (cl x) → cl' x = Some k → cl x = Some k.
Proof using Hc. intros [k' H] H'. rewrite (Hc _ _ H) in H'. congruence. Qed.
Lemma says_back x p y : says base rdf S cl' sts x p y → says base rdf S cl sts x p y.
Proof using Hc Hsub Hto.
  intros H. destruct H as [x p y ck q Hr|x a p y ck c Hr|x p p' y q ck tk Hr|x p y ck q Hr|x p y tk q Hr];
    pose proof (Hto _ _ _ Hr) as Hy; apply refers_back in Hr as [Hr Hx].
  - eapply says_single; eauto using class_back.
  - eapply says_alias; eauto using class_back.
  - eapply says_member; eauto using class_back.
  - eapply says_pair; eauto using class_back.
  - eapply says_partner; eauto using class_back.
Qed.
Lemma says_many_back x p y : says_many base rdf S cl' sts x p y → says_many base rdf S cl sts x p y.
Proof using Hc Hsub Hto.
  intros H. destruct H as [x p y ck q Hr|x p y tk q Hr]; pose proof (Hto _ _ _ Hr) as Hy; apply refers_back in Hr as [Hr Hx].
  - eapply says_many_here; eauto using class_back.
  - eapply says_many_there; eauto using class_back.
Qed.
End closed.
Lemma says_class (cl : pystr → option name) sts x p y : (∀ id e, (id, e) ∈ sts → is_Some (cl id)) →
  says base rdf S cl sts x p y → is_Some (cl x) ∧ is_Some (cl y).
Proof.
  intros Hsub H. destruct H as [x p y ck q (e & H1 & _ & H2)|x a p y ck c (e & H1 & _ & H2)|x p p' y q ck tk (e & H1 & _ & H2)|x p y ck q (e & H1 & _ & H2)|x p y tk q (e & H1 & _ & H2)]; eauto.
Qed.
Lemma says_many_class (cl : pystr → option name) sts x p y : (∀ id e, (id, e) ∈ sts → is_Some (cl id)) →
  says_many base rdf S cl sts x p y → is_Some (cl x) ∧ is_Some (cl y).
Proof. intros Hsub H. destruct H as [x p y ck q (e & H1 & _ & H2)|x p y tk q (e & H1 & _ & H2)]; eauto. Qed.
End mono.

Lemma mine_nil base id a sts : (∀ e, (id, e) ∉ sts) → mine base id a sts = [].
Proof.
  induction sts as [|[i e] sts IH]; intros Hn; [done|]. unfold mine. cbn [omap list_omap fst snd].
  rewrite decide_False; [apply IH; set_solver|]. intros [-> _]. apply (Hn e). left.
Qed.
Lemma mine_app base id a (sa sb : list (pystr * elem)) : mine base id a (sa ++ sb) = mine base id a sa ++ mine base id a sb.
Proof. apply omap_app. Qed.

(** *** What statements have made of the objects of a dictionary *)
Section made.
Context (t : schema) (pm : list (name * name)) (Ht : (t, pm) ∈ tables) (base rdf : pystr) (f : nat) (pf : pystr → option pystr).
Notation F := (Datatypes.S (Datatypes.S f)).
Record Made (cl : pystr → option name) (sts : list (pystr * elem)) (d : dict) (h : heap) : Prop := {
  md_sound : Sound t h;
  md_alive : dict_alive d h;
  md_class : ∀ id, cl id = (v ← assoc id d; val_cls h v);
  md_unique : ∀ id id' o, assoc id d = Some (VRef o) → assoc id' d = Some (VRef o) → id' = id;
  md_attr : ∀ id o k a, assoc id d = Some (VRef o) → cl id = Some k → plain_attr t k a →
    ∃ v0 v, starts t k id a v0 ∧ takes_all rdf pf v0 (mine base id a sts) v ∧ slot h o (Pub a) = Some v ∧ plain_val v = true;
  md_single : ∀ id o k p kk, assoc id d = Some (VRef o) → cl id = Some k → lookup_prop t k p = Some kk → single_kind kk = true →
    (∃ y oy, says base rdf t cl sts id p y ∧ assoc y d = Some (VRef oy) ∧ view h o (Priv p) = Some (OV (VRef oy))) ∨
    (∀ y, ¬ says base rdf t cl sts id p y) ∧ view h o (Priv p) = Some (OV VNone);
  md_coll : ∀ id o k q p', assoc id d = Some (VRef o) → cl id = Some k → lookup_prop t k q = Some (PManyOne p') →
    ∃ ys, view h o (Priv q) = Some (OL ys) ∧ ∀ v, v ∈ ys ↔ ∃ x p kx, says base rdf t cl sts x p id ∧ assoc x d = Some v ∧
      cl x = Some kx ∧ lookup_prop t kx p = Some (POneMany q);
  md_many : ∀ id o k p q, assoc id d = Some (VRef o) → cl id = Some k → lookup_prop t k p = Some (PManyMany q) →
    ∃ ys, view h o (Priv p) = Some (OL ys) ∧ ∀ v, v ∈ ys ↔ ∃ y, says_many base rdf t cl sts id p y ∧ assoc y d = Some v
}.
Lemma Made_start h : Sound t h → Made (λ _, None) [] [] h.
Proof. intros Hs. split; try done. Qed.

(** One more file. *)
Section step.
Context (cl1 : pystr → option name) (sts1 : list (pystr * elem)) (d1 : dict) (h1 : heap) (HM : Made cl1 sts1 d1 h1).
Context (err : bool) (root : elem) (evs : list event) (d2 : dict) (h2 : heap) (sts2 : list (pystr * elem)).
Notation dc2 := (declared_class base rdf pm evs).
Context (cl : pystr → option name) (Hcl : ∀ id, cl id = match cl1 id with Some k => Some k | None => dc2 id end).
Context (Hapart : ∀ id k, dc2 id = Some k → cl1 id = None).
Context (Hsts : doc_statements base rdf pm evs d1 = sts2).
Context (Hsub1 : ∀ id e, (id, e) ∈ sts1 → is_Some (cl1 id)) (Hsub2 : ∀ id e, (id, e) ∈ sts2 → is_Some (dc2 id)).
Context (Hto1 : ∀ x a y, refers base rdf cl sts1 x a y → is_Some (cl1 y)).
Context (Hf : foreign_root base evs).
Context (Hcomp : ∀ id e, (id, e) ∈ sts2 → ∃ ck, cl id = Some ck ∧ compatible base rdf t cl ck e).
Context (Hagree : agreeing base rdf t cl sts2) (Hends : ∀ x p y, says base rdf t cl sts2 x p y → is_Some (dc2 x)).
Context (Hplain : ∀ id k a e r, dc2 id = Some k → plain_attr t k a → e ∈ mine base id a sts2 → resource rdf e = Some r → has_prefix (u "#") r = false).
Context (Hr : reads base rdf t pm F pf err root evs d1 h1 = (None, d2, h2)).

Lemma step_cl id : class_in base rdf pm evs d1 h1 id = cl id.
Proof using HM Hcl Hapart.
  unfold class_in. rewrite Hcl. rewrite <- (md_class _ _ _ _ HM id). destruct (dc2 id) as [k|] eqn:E; [by rewrite (Hapart _ _ E)|].
  by destruct (cl1 id).
Qed.
Lemma cl_old id k : cl1 id = Some k → cl id = Some k.
Proof using Hcl. intros E. by rewrite Hcl, E. Qed.
Lemma cl_new id k : dc2 id = Some k → cl id = Some k.
Proof using Hcl Hapart. intros E. by rewrite Hcl, (Hapart _ _ E). Qed.
Lemma step_compatible : compatible_doc base rdf t pm evs d1 h1.
Proof using HM Hcl Hapart Hsts Hcomp.
  intros id e. rewrite <- (doc_statements_class base rdf pm d1 h1 evs (md_alive _ _ _ _ HM)), Hsts. intros Hin.
  destruct (Hcomp id e Hin) as (ck & Hck & Hco). exists ck. rewrite step_cl. split; [done|].
  intros a Ha. specialize (Hco a Ha). destruct (resource rdf e) as [[|c r]|]; [done| |done].
  destruct c as [|c]; [done|]. do 6 (destruct c as [c|c|]; try done). intros tk Htk. apply Hco. by rewrite <- step_cl.
Qed.
Lemma step_says x p y : doc_says base rdf t pm evs d1 h1 x p y ↔ says base rdf t cl sts2 x p y.
Proof using HM Hcl Hapart Hsts.
  unfold doc_says. rewrite Hsts. split; apply says_mono; try done; intros id k; by rewrite step_cl.
Qed.
Lemma step_says_many x p y : doc_says_many base rdf t pm evs d1 h1 x p y ↔ says_many base rdf t cl sts2 x p y.
Proof using HM Hcl Hapart Hsts.
  unfold doc_says_many. rewrite Hsts. split; apply says_many_mono; try done; intros id k; by rewrite step_cl.
Qed.
Lemma step_coherent : coherent base rdf t pm evs d1 h1.
Proof using HM Hcl Hapart Hsts Hagree Hends.
  split.
  - intros x p y y' H1%step_says H2%step_says. by eapply Hagree.
  - intros x p y H%step_says. by eapply Hends.
Qed.
(** What the statements of both say. *)
Lemma says_both x p y : says base rdf t cl (sts1 ++ sts2) x p y ↔ says base rdf t cl1 sts1 x p y ∨ says base rdf t cl sts2 x p y.
Proof using Hcl Hsub1 Hto1.
  rewrite says_app. split; intros [H|H]; auto; left.
  - eapply says_back; [apply cl_old|exact Hsub1|exact Hto1|done].
  - eapply says_mono; [apply cl_old| |done]. done.
Qed.
Lemma says_many_both x p y : says_many base rdf t cl (sts1 ++ sts2) x p y ↔ says_many base rdf t cl1 sts1 x p y ∨ says_many base rdf t cl sts2 x p y.
Proof using Hcl Hsub1 Hto1.
  rewrite says_many_app. split; intros [H|H]; auto; left.
  - eapply says_many_back; [apply cl_old|exact Hsub1|exact Hto1|done].
  - eapply says_many_mono; [apply cl_old| |done]. done.
Qed.
Lemma Made_step : Made cl (sts1 ++ sts2) d2 h2.
Proof using All.
  pose proof (md_sound _ _ _ _ HM) as Hs. pose proof (md_alive _ _ _ _ HM) as Hd.
  pose proof step_compatible as Hc. pose proof step_coherent as Hco.
  destruct (reads_inv t pm Ht base rdf f pf err root evs d1 h1 d2 h2 Hs Hd Hf Hc Hco Hr) as (g & HC & Hdg & Hclg & _ & _ & HI).
  pose proof (in_classes _ _ _ _ _ _ _ _ HI) as Hsc.
  (* identifiers *)
  assert (∀ id k, cl1 id = Some k → dc2 id = None) as Hap.
  { intros id k Hk. destruct (dc2 id) eqn:E; [|done]. by rewrite (Hapart _ _ E) in Hk. }
  assert (∀ id k, cl1 id = Some k → assoc id d2 = assoc id d1) as Hold.
  { intros id k Hk. apply (cr_old _ _ _ _ _ _ HC). by apply (Hap _ _ Hk). }
  assert (∀ id v, assoc id d1 = Some v → is_Some (cl1 id)) as Hknown.
  { intros id v Hv. rewrite (md_class _ _ _ _ HM), Hv. destruct (Hd _ _ Hv) as (o & -> & ?). done. }
  assert (∀ id v, assoc id d1 = Some v → assoc id d2 = Some v) as Hkeep.
  { intros id v Hv. destruct (Hknown _ _ Hv) as [k Hk]. by rewrite (Hold _ _ Hk). }
  assert (∀ id, cl id = (v ← assoc id d2; val_cls h2 v)) as Hcl2.
  { intros id. rewrite <- step_cl, Hclg. destruct (assoc id d2) as [v|] eqn:E; [|done]. cbn. destruct v; try done. cbn. by rewrite Hsc. }
  assert (dict_alive d2 h2) as Hd2.
  { intros id v Hv. destruct (Hdg _ _ Hv) as (o & -> & Ho). exists o. split; [done|]. by rewrite Hsc. }
  assert (∀ id o k, assoc id d2 = Some (VRef o) → cl id = Some k → cls_of h2 o = Some k) as Hck.
  { intros id o k Ho Hk. rewrite Hcl2, Ho in Hk. exact Hk. }
  assert (∀ id o, assoc id d2 = Some (VRef o) → (∃ k, cl1 id = Some k ∧ assoc id d1 = Some (VRef o) ∧ is_Some (cls_of h1 o) ∧ dc2 id = None) ∨
    (∃ k, dc2 id = Some k ∧ cl1 id = None ∧ cls_of h1 o = None ∧ cls_of g o = Some k)) as Hcase.
  { intros id o Ho. destruct (dc2 id) as [k|] eqn:E.
    - right. exists k. destruct (cr_new _ _ _ _ _ _ HC id k E) as (o' & Ho' & Hn & Hc' & _). assert (o' = o) as -> by congruence.
      split_and!; [done|by apply (Hapart _ _ E)|done|done].
    - left. unfold declared_class in E. rewrite (cr_old _ _ _ _ _ _ HC id E) in Ho. destruct (Hknown _ _ Ho) as [k Hk].
      destruct (Hd _ _ Ho) as (o' & [= <-] & Ho'). eauto 10. }
  assert (∀ id id' o, assoc id d2 = Some (VRef o) → assoc id' d2 = Some (VRef o) → id' = id) as Huniq.
  { intros id id' o H1 H2. destruct (Hcase _ _ H1) as [(k & Hk & Ho & Ha & _)|(k & Hk & _ & Hn & _)].
    - destruct (Hcase _ _ H2) as [(k' & Hk' & Ho' & _)|(k' & Hk' & _ & Hn' & _)]; [by eapply (md_unique _ _ _ _ HM)|].
      rewrite Hn' in Ha. by destruct Ha.
    - eapply (created_unique t pm Ht base rdf evs d1 h1 d2 g id k o Hd HC Hk H1); done. }
  assert (∀ id e k, cl1 id = Some k → (id, e) ∉ sts2) as Hno2.
  { intros id e k Hk Hin. destruct (Hsub2 _ _ Hin) as [k' Hk']. by rewrite (Hapart _ _ Hk') in Hk. }
  assert (∀ id e k, dc2 id = Some k → (id, e) ∉ sts1) as Hno1.
  { intros id e k Hk Hin. destruct (Hsub1 _ _ Hin) as [k' Hk']. by rewrite (Hapart _ _ Hk) in Hk'. }
  assert (∀ x p y, says base rdf t cl1 sts1 x p y → is_Some (cl1 x) ∧ is_Some (cl1 y)) as Hc1 by (intros *; by apply says_class).
  assert (∀ x p y, says_many base rdf t cl1 sts1 x p y → is_Some (cl1 x) ∧ is_Some (cl1 y)) as Hcm1 by (intros *; by apply says_many_class).
  split; [by eapply (reads_sound' t pm Ht base rdf f pf err root evs d1 h1)|done|done|done| | | |].
  - (* attributes *)
    intros id o k a Ho Hk Hpl. rewrite mine_app. destruct (Hcase _ _ Ho) as [(k' & Hk' & Ho1 & [c Halive] & _)|(k' & Hk' & _ & _ & _)].
    + pose proof (cl_old _ _ Hk') as Hk2. assert (k' = k) as -> by congruence.
      destruct (md_attr _ _ _ _ HM id o k a Ho1 Hk' Hpl) as (v0 & v & Hst & Hta & Hsl & Hpv).
      rewrite (mine_nil base id a sts2) by (intros e; by eapply Hno2). rewrite app_nil_r. exists v0, v. split_and!; try done.
      destruct (reads_returns t pm Ht base rdf (Datatypes.S f) pf err root evs d1 h1 d2 h2 (proj1 (so_consistent _ _ Hs)) Hf Hr) as (g' & _ & HC' & Hex).
      rewrite Hsts in Hex.
      assert (slot g' o (Pub a) = Some v) as Hsg.
      { destruct (cr_frame _ _ _ _ _ _ HC' o (Pub a)) as [_ E]; [by rewrite Halive|]. apply view_val. rewrite E. unfold view. rewrite Hsl. cbn. by destruct v. }
      assert (cls_of g' o = Some k) as Hcg.
      { destruct (cr_frame _ _ _ _ _ _ HC' o (Pub a)) as [E _]; [by rewrite Halive|]. rewrite E. rewrite (md_class _ _ _ _ HM), Ho1 in Hk'. exact Hk'. }
      destruct (exec_attribute t pm Ht base rdf (Datatypes.S f) pf d2 id a o k sts2 Ho) with (h := g') (h' := h2) (v := v) as (w & Hw & Hsw & _); try done.
      { intros id' Ho'. by eapply Huniq. }
      { rewrite (mine_nil base id a sts2) by (intros e; by eapply Hno2). by intros ? ? ?%elem_of_nil. }
      rewrite (mine_nil base id a sts2) in Hw by (intros e; by eapply Hno2). by inversion Hw; subst.
    + pose proof (cl_new _ _ Hk') as Hk2. assert (k' = k) as -> by congruence.
      rewrite (mine_nil base id a sts1) by (intros e; by eapply Hno1).
      destruct (reads_attribute t pm Ht base rdf (Datatypes.S f) pf err root evs d1 h1 d2 h2 id k a (proj1 (so_consistent _ _ Hs)) Hd Hf Hr Hk' Hpl)
        as (o' & v0 & v & Ho' & Hcv & Hst & Hta & Hv).
      { intros e r. unfold about. rewrite Hsts. by eapply Hplain. }
      assert (o' = o) as -> by congruence. exists v0, v. unfold about in Hta. rewrite Hsts in Hta.
      split_and!; [done|exact Hta|by apply view_val|].
      destruct (so_plain _ _ (reads_sound' t pm Ht base rdf f pf err root evs d1 h1 d2 h2 Hs Hd Hf Hc Hr) o k a _ Hcv Hpl Hv) as (v' & [= <-] & Hpv).
      by destruct v.
  - (* single ends *)
    intros id o k p kk Ho Hk Hl Hsk. assert (pkind t h2 o p = Some kk) as HK by (unfold pkind; by rewrite (Hck _ _ _ Ho Hk)).
    destruct (Hcase _ _ Ho) as [(k' & Hk' & Ho1 & Halive & Hdn)|(k' & Hk' & Hkn & Hn & _)].
    + pose proof (cl_old _ _ Hk') as Hk2. assert (k' = k) as -> by congruence.
      destruct (reads_old t pm Ht base rdf f pf err root evs d1 h1 d2 h2 Hs Hd Hf Hc Hco Hr o Halive) as [_ Hv]. rewrite (Hv p kk HK Hsk).
      destruct (md_single _ _ _ _ HM id o k p kk Ho1 Hk' Hl Hsk) as [(y & oy & Hsay & Hy & Hvy)|[Hns Hvn]].
      * left. exists y, oy. split_and!; [apply says_both; by left|by apply Hkeep|done].
      * right. split; [|done]. intros y [Hsay|Hsay]%says_both; [by eapply Hns|]. destruct (Hends _ _ _ Hsay) as [? E]. congruence.
    + destruct (reads_single t pm Ht base rdf f pf err root evs d1 h1 d2 h2 Hs Hd Hf Hc Hco Hr o p kk HK Hsk)
        as [(x & y & oy & Hsay & Hx & Hy & Hv)|[Hns Hv]].
      * left. rewrite (Huniq _ _ _ Ho Hx) in Hsay. exists y, oy. split_and!; [apply says_both; right; by apply step_says|done|done].
      * right. rewrite Hn in Hv. split; [|done]. intros y [Hsay|Hsay]%says_both.
        -- destruct (proj1 (Hc1 _ _ _ Hsay)) as [? E]. congruence.
        -- apply (Hns id y Ho). by apply step_says.
  - (* collections *)
    intros id o k q p' Ho Hk Hl. assert (pkind t h2 o q = Some (PManyOne p')) as HK by (unfold pkind; by rewrite (Hck _ _ _ Ho Hk)).
    destruct (reads_collection t pm Ht base rdf f pf err root evs d1 h1 d2 h2 Hs Hd Hf Hc Hco Hr o q p' HK) as (ys & Hv & _ & Hys).
    exists ys. split; [done|]. intros v. rewrite Hys. clear Hys. split.
    + intros [Hh|(x & p & y & ox & Hsay & Hx & Hy & -> & Hkx)].
      * pose proof (held_old h1 o q v Hh) as [c Hco1]. destruct (Hcase _ _ Ho) as [(k' & Hk' & Ho1 & _)|(k' & _ & _ & Hn & _)]; [|congruence].
        pose proof (cl_old _ _ Hk') as Hk2. assert (k' = k) as -> by congruence.
        destruct (md_coll _ _ _ _ HM id o k q p' Ho1 Hk' Hl) as (ys1 & Hv1 & Hys1). destruct Hh as (ys2 & Hv2 & Hin).
        assert (ys2 = ys1) as -> by congruence. apply Hys1 in Hin as (x & p & kx & Hsay & Hx & Hkx & Hlx).
        exists x, p, kx. split_and!; [apply says_both; by left|by apply Hkeep|by apply cl_old|done].
      * pose proof (Huniq _ _ _ Ho Hy) as ->. unfold pkind in Hkx. destruct (cls_of h2 ox) as [kx|] eqn:Ekx; [|done].
        exists x, p, kx. split_and!; [apply says_both; right; by apply step_says|done| |done]. by rewrite Hcl2, Hx.
    + intros (x & p & kx & [Hsay|Hsay]%says_both & Hx & Hkx & Hlx).
      * left. destruct (Hc1 _ _ _ Hsay) as [[kx1 Hx1] [ki Hi1]].
        assert (assoc id d1 = Some (VRef o)) as Ho1 by (by rewrite <- (Hold _ _ Hi1)).
        assert (assoc x d1 = Some v) as Hx1' by (by rewrite <- (Hold _ _ Hx1)).
        pose proof (cl_old _ _ Hx1). pose proof (cl_old _ _ Hi1). assert (kx1 = kx) as -> by congruence. assert (ki = k) as -> by congruence.
        destruct (md_coll _ _ _ _ HM id o k q p' Ho1 Hi1 Hl) as (ys1 & Hv1 & Hys1). exists ys1. split; [done|]. apply Hys1. eauto 10.
      * right. destruct (Hd2 _ _ Hx) as (ox & -> & _). exists x, p, id, ox. split_and!; [by apply step_says|done|done|done|].
        unfold pkind. by rewrite (Hck _ _ _ Hx Hkx).
  - (* many-to-many *)
    intros id o k p q Ho Hk Hl. assert (pkind t h2 o p = Some (PManyMany q)) as HK by (unfold pkind; by rewrite (Hck _ _ _ Ho Hk)).
    destruct (reads_many t pm Ht base rdf f pf err root evs d1 h1 d2 h2 Hs Hd Hf Hc Hco Hr o p q HK) as (ys & Hv & Hys).
    exists ys. split; [done|]. intros v. rewrite Hys. clear Hys. split.
    + intros [Hh|(x & y & Hsay & Hx & Hy)].
      * pose proof (held_old h1 o p v Hh) as [c Hco1]. destruct (Hcase _ _ Ho) as [(k' & Hk' & Ho1 & _)|(k' & _ & _ & Hn & _)]; [|congruence].
        pose proof (cl_old _ _ Hk') as Hk2. assert (k' = k) as -> by congruence.
        destruct (md_many _ _ _ _ HM id o k p q Ho1 Hk' Hl) as (ys1 & Hv1 & Hys1). destruct Hh as (ys2 & Hv2 & Hin).
        assert (ys2 = ys1) as -> by congruence. apply Hys1 in Hin as (y & Hsay & Hy).
        exists y. split; [apply says_many_both; by left|by apply Hkeep].
      * pose proof (Huniq _ _ _ Ho Hx) as ->. exists y. split; [apply says_many_both; right; by apply step_says_many|done].
    + intros (y & [Hsay|Hsay]%says_many_both & Hy).
      * left. destruct (Hcm1 _ _ _ Hsay) as [[ki Hi1] [ky Hy1]].
        assert (assoc id d1 = Some (VRef o)) as Ho1 by (by rewrite <- (Hold _ _ Hi1)).
        assert (assoc y d1 = Some v) as Hy1' by (by rewrite <- (Hold _ _ Hy1)).
        pose proof (cl_old _ _ Hi1). assert (ki = k) as -> by congruence.
        destruct (md_many _ _ _ _ HM id o k p q Ho1 Hi1 Hl) as (ys1 & Hv1 & Hys1). exists ys1. split; [done|]. apply Hys1. eauto.
      * right. exists id, y. split_and!; [by apply step_says_many|done|done].
Qed.
End step.

(** The same statements make the same objects. *)
Lemma Made_alike cl sts d1 h1 d2 h2 : agreeing base rdf t cl sts → Made cl sts d1 h1 → Made cl sts d2 h2 → alike t cl d1 h1 d2 h2.
Proof using Type.
  intros Hag H1 H2.
  assert (∀ d h, Made cl sts d h → ∀ id, is_Some (assoc id d) ↔ is_Some (cl id)) as Hdom.
  { intros d h HM id. rewrite (md_class _ _ _ _ HM). destruct (assoc id d) as [v|] eqn:E; [|by split; intros [? ?]].
    destruct (md_alive _ _ _ _ HM _ _ E) as (o & -> & ?). split; [done|eauto]. }
  assert (∀ d h, Made cl sts d h → ∀ id k, cl id = Some k → ∃ o, assoc id d = Some (VRef o) ∧ cls_of h o = Some k) as Hget.
  { intros d h HM id k Hk. rewrite (md_class _ _ _ _ HM) in Hk. destruct (assoc id d) as [v|] eqn:E; [|done].
    destruct (md_alive _ _ _ _ HM _ _ E) as (o & -> & _). eauto. }
  assert (∀ x d h, Made cl sts d h → is_Some (cl x) → ∃ v, assoc x d = Some v) as Hsome.
  { intros x d h HM Hx. by apply (Hdom d h HM). }
  split; [intros id; by rewrite (Hdom _ _ H1), (Hdom _ _ H2)|].
  intros id k Hk. destruct (Hget _ _ H1 id k Hk) as (o1 & Ho1 & Hc1). destruct (Hget _ _ H2 id k Hk) as (o2 & Ho2 & Hc2).
  exists o1, o2. split_and!; try done.
  - intros a Hpl. destruct (md_attr _ _ _ _ H1 id o1 k a Ho1 Hk Hpl) as (v0 & v & Hs1 & Ht1 & Hv1 & Hp1).
    destruct (md_attr _ _ _ _ H2 id o2 k a Ho2 Hk Hpl) as (w0 & w & Hs2 & Ht2 & Hv2 & Hp2).
    rewrite (starts_fun _ _ _ _ _ _ Hs2 Hs1) in Ht2. rewrite (takes_all_fun _ _ _ _ _ _ Ht2 Ht1) in Hv2. destruct Hpl as (Hpub & Hl & _).
    exists v. split; exists k; (split; [done|]); rewrite Hl, Hpub; unfold view; [rewrite Hv1|rewrite Hv2]; by destruct v.
  - intros p kk Hl Hkk. assert (single_kind kk = true) as Hsk by (by destruct kk).
    assert (∀ h o v, cls_of h o = Some k → view h o (Priv p) = Some (OV v) → shows t h o p v) as Hsh.
    { intros h o v Hc Hv. exists k. split; [done|]. rewrite Hl. by destruct kk. }
    destruct (md_single _ _ _ _ H1 id o1 k p kk Ho1 Hk Hl Hsk) as [(y & oy & Hsay & Hy & Hv)|[Hn Hv]];
      destruct (md_single _ _ _ _ H2 id o2 k p kk Ho2 Hk Hl Hsk) as [(y' & oy' & Hsay' & Hy' & Hv')|[Hn' Hv']].
    + rewrite (Hag _ _ _ _ Hsay' Hsay) in Hy'. exists (VRef oy), (VRef oy'). split_and!; [by apply Hsh..|]. right. by exists y.
    + by destruct (Hn' y).
    + by destruct (Hn y').
    + exists VNone, VNone. split_and!; [by apply Hsh..|]. by left.
  - intros p kk Hl Hkk. destruct kk as [| p'| |q| | |]; try done.
    + destruct (md_coll _ _ _ _ H1 id o1 k p p' Ho1 Hk Hl) as (ys1 & Hv1 & Hy1).
      destruct (md_coll _ _ _ _ H2 id o2 k p p' Ho2 Hk Hl) as (ys2 & Hv2 & Hy2). exists ys1, ys2. split_and!; [done..| |].
      * intros v (x & pp & kx & Hsay & Hx & Hkx & Hlx)%Hy1. destruct (Hsome x _ _ H2) as [v2 Hv]; [eauto|]. exists v2.
        split; [apply Hy2; eauto 10|]. right. eauto.
      * intros v (x & pp & kx & Hsay & Hx & Hkx & Hlx)%Hy2. destruct (Hsome x _ _ H1) as [v2 Hv]; [eauto|]. exists v2.
        split; [apply Hy1; eauto 10|]. right. eauto.
    + destruct (md_many _ _ _ _ H1 id o1 k p q Ho1 Hk Hl) as (ys1 & Hv1 & Hy1).
      destruct (md_many _ _ _ _ H2 id o2 k p q Ho2 Hk Hl) as (ys2 & Hv2 & Hy2). exists ys1, ys2. split_and!; [done..| |].
      * intros v (y & Hsay & Hy)%Hy1. destruct (Hsome y _ _ H2) as [v2 Hv]; [apply (Hdom _ _ H1); eauto|]. exists v2. split; [apply Hy2; eauto|]. right. eauto.
      * intros v (y & Hsay & Hy)%Hy2. destruct (Hsome y _ _ H1) as [v2 Hv]; [apply (Hdom _ _ H2); eauto|]. exists v2. split; [apply Hy1; eauto|]. right. eauto.
Qed.
End made.

(** *** Flat documents *)
Section items.
Context (base rdf : pystr) (pm : list (name * name)).
Notation class_of := (class_of base rdf pm).
Notation told := (told base rdf pm).
Lemma declared_app e1 e2 : declared base rdf pm (e1 ++ e2) = declared base rdf pm e1 ++ declared base rdf pm e2.
Proof. apply omap_app. Qed.
Lemma flat_app a b : flat base (a ++ b) = flat base a ++ flat base b.
Proof. apply flat_map_app. Qed.
Lemma class_root items root id : in_base base root = false → declared_class base rdf pm (flat base items ++ [EEnd root]) id = class_of items id.
Proof.
  intros Hr. unfold PartsSpec.class_of, declared_class. rewrite declared_app. unfold declared at 2. cbn [omap list_omap]. by rewrite Hr, app_nil_r.
Qed.
Lemma declared_flat items : Forall (flat_ok base rdf) items → declared base rdf pm (flat base items) = omap (entry_of rdf pm) items.
Proof.
  induction 1 as [|i items Hi Hrest IH]; [done|]. cbn [flat flat_map]. fold (flat base items). pose proof Hi as [[id Hid] _].
  rewrite (declared_one base rdf pm i _ id Hi Hid), IH. cbn [omap list_omap]. unfold entry_of at 2. rewrite Hid. cbn [mbind option_bind].
  by destruct (assoc (i_tag i) pm).
Qed.
Lemma same_id items i j id : distinct_ids rdf items → i ∈ items → j ∈ items →
  uuid_of rdf (i_attrs i) = Some id → uuid_of rdf (i_attrs j) = Some id → i = j.
Proof.
  unfold distinct_ids. induction items as [|x items IH]; [by intros _ ?%elem_of_nil|].
  assert (∀ x' y, x' ∈ items → uuid_of rdf (i_attrs x') = Some y → y ∈ omap (λ i, uuid_of rdf (i_attrs i)) items) as Hin
    by (intros x' y H1 H2; apply elem_of_list_omap; eauto).
  cbn [omap list_omap]. intros Hn Hi Hj Ei Ej. apply elem_of_cons in Hi as [->|Hi]; apply elem_of_cons in Hj as [->|Hj]; [done| | |].
  - rewrite Ei in Hn. apply NoDup_cons in Hn as [Hn _]. by destruct Hn; eapply Hin.
  - rewrite Ej in Hn. apply NoDup_cons in Hn as [Hn _]. by destruct Hn; eapply Hin.
  - apply IH; try done. destruct (uuid_of rdf (i_attrs x)); [by apply NoDup_cons in Hn as [_ Hn]|done].
Qed.
Lemma class_in_items items id k : Forall (flat_ok base rdf) items → class_of items id = Some k →
  ∃ i, i ∈ items ∧ uuid_of rdf (i_attrs i) = Some id ∧ assoc (i_tag i) pm = Some k.
Proof.
  intros Hok. unfold PartsSpec.class_of, declared_class. rewrite declared_flat by done. intros Hin%assoc_in. rewrite elem_of_reverse in Hin.
  apply elem_of_list_omap in Hin as (j & Hj & E). unfold entry_of in E. destruct (uuid_of rdf (i_attrs j)) as [idj|] eqn:Ej; [|done].
  cbn in E. destruct (assoc (i_tag j) pm) eqn:Ekj; [|done]. cbn in E. simplify_eq. eauto.
Qed.
Lemma class_item items i id : Forall (flat_ok base rdf) items → distinct_ids rdf items → i ∈ items → uuid_of rdf (i_attrs i) = Some id →
  class_of items id = assoc (i_tag i) pm.
Proof.
  intros Hok Hd Hi Hid. destruct (assoc (i_tag i) pm) as [k|] eqn:Ek.
  - unfold PartsSpec.class_of, declared_class. rewrite declared_flat by done.
    rewrite <- (assoc_perm (omap (entry_of rdf pm) items)); [|symmetry; apply reverse_Permutation|by apply entries_NoDup].
    apply RoundFacts.assoc_NoDup; [by apply entries_NoDup|]. apply elem_of_list_omap. exists i. split; [done|]. unfold entry_of. rewrite Hid. cbn. by rewrite Ek.
  - destruct (class_of items id) as [k|] eqn:E; [|done]. destruct (class_in_items _ _ _ Hok E) as (j & Hj & Hidj & Hkj).
    rewrite (same_id _ _ _ _ Hd Hi Hj Hid Hidj) in Ek. congruence.
Qed.
Lemma distinct_app a b : distinct_ids rdf (a ++ b) → distinct_ids rdf a ∧ distinct_ids rdf b ∧
  ∀ i j id, i ∈ a → j ∈ b → uuid_of rdf (i_attrs i) = Some id → uuid_of rdf (i_attrs j) ≠ Some id.
Proof.
  unfold distinct_ids. rewrite omap_app. intros (H1 & H2 & H3)%NoDup_app. split_and!; [done..|].
  intros i j id Hi Hj Ei Ej. apply (H2 id); apply elem_of_list_omap; eauto.
Qed.
Lemma class_app a b id : Forall (flat_ok base rdf) (a ++ b) → distinct_ids rdf (a ++ b) →
  class_of (a ++ b) id = match class_of a id with Some k => Some k | None => class_of b id end ∧ (∀ k, class_of b id = Some k → class_of a id = None).
Proof.
  intros [Ha Hb]%Forall_app (_ & _ & Hd)%distinct_app.
  assert (∀ k, class_of b id = Some k → class_of a id = None) as Hap.
  { intros k Hk. destruct (class_of a id) as [k'|] eqn:E; [|done]. destruct (class_in_items _ _ _ Ha E) as (i & Hi & Ei & _).
    destruct (class_in_items _ _ _ Hb Hk) as (j & Hj & Ej & _). by destruct (Hd _ _ _ Hi Hj Ei). }
  split; [|done]. unfold PartsSpec.class_of, declared_class in *. rewrite flat_app, declared_app, reverse_app, assoc_app.
  destruct (assoc id (reverse (declared base rdf pm (flat base b)))) as [k|] eqn:E; [by rewrite (Hap k eq_refl)|].
  by destruct (assoc id (reverse (declared base rdf pm (flat base a)))).
Qed.
Lemma class_left a b id k : Forall (flat_ok base rdf) (a ++ b) → distinct_ids rdf (a ++ b) → class_of a id = Some k → class_of (a ++ b) id = Some k.
Proof. intros H1 H2 H. destruct (class_app a b id H1 H2) as [-> _]. by rewrite H. Qed.
Lemma told_app a b : told (a ++ b) = told a ++ told b.
Proof. apply flat_map_app. Qed.
Lemma told_subject items id e : Forall (flat_ok base rdf) items → distinct_ids rdf items → (id, e) ∈ told items → is_Some (class_of items id).
Proof.
  intros Hok Hd Hin. apply elem_of_list_In, in_flat_map in Hin as (i & Hi%elem_of_list_In & Hin%elem_of_list_In).
  destruct (uuid_of rdf (i_attrs i)) as [id'|] eqn:E; [|by apply elem_of_nil in Hin].
  destruct (assoc (i_tag i) pm) as [k|] eqn:Ek; [|by apply elem_of_nil in Hin].
  apply elem_of_list_fmap in Hin as (p & [= -> ->] & _). rewrite (class_item items i id' Hok Hd Hi E), Ek. eauto.
Qed.
Lemma statements_told root d items : in_base base root = false → Forall (flat_ok base rdf) items → distinct_ids rdf items →
  (∀ i id, i ∈ items → uuid_of rdf (i_attrs i) = Some id → assoc id d = None) →
  doc_statements base rdf pm (flat base items ++ [EEnd root]) d = told items.
Proof.
  intros Hr Hok Hd Hn. unfold doc_statements. rewrite (statements_items base rdf root Hr _ _ Hok). unfold PartsSpec.told.
  assert (∀ l, (∀ i, i ∈ l → i ∈ items) →
    flat_map (lines base rdf (known_id base rdf pm (flat base items ++ [EEnd root]) d)) l =
    flat_map (λ i, match uuid_of rdf (i_attrs i), assoc (i_tag i) pm with
      | Some id, Some _ => map (λ p, (id, pel_elem base p)) (i_props i) | _, _ => [] end) l) as H; [|by apply H].
  induction l as [|i l IH]; intros Hl; [done|]. cbn [flat_map]. rewrite IH by (intros; apply Hl; by right). f_equal.
  unfold lines. destruct (uuid_of rdf (i_attrs i)) as [id|] eqn:E; [|done]. unfold known_id. rewrite class_root by done.
  rewrite (class_item items i id Hok Hd (Hl i (elem_of_list_here _ _)) E). rewrite (Hn i id (Hl i (elem_of_list_here _ _)) E).
  by destruct (assoc (i_tag i) pm).
Qed.
Lemma flat_foreign root items : in_base base root = false → foreign_root base (flat base items ++ [EEnd root]).
Proof.
  intros Hr e H He.
  assert (∀ ev, ev ∈ flat base items → ∀ e, ev = EStart e ∨ ev = EEnd e → e_root e = false) as Hfl.
  { intros ev Hev. unfold flat in Hev. apply elem_of_list_In, in_flat_map in Hev as (i & _ & Hin%elem_of_list_In). unfold item_events in Hin.
    apply elem_of_cons in Hin as [->|[Hin|Hin]%elem_of_app].
    - by intros ? [[= <-]|?].
    - apply elem_of_list_In, in_flat_map in Hin as (p & _ & Hin%elem_of_list_In). unfold pel_events in Hin.
      apply elem_of_cons in Hin as [->|Hin]; [by intros ? [[= <-]|?]|]. apply elem_of_list_singleton in Hin as ->. by intros ? [?|[= <-]].
    - apply elem_of_list_singleton in Hin as ->. by intros ? [?|[= <-]]. }
  destruct H as [H|H]; apply elem_of_app in H as [H|H].
  - rewrite (Hfl _ H e) in He; [done|auto].
  - by apply elem_of_list_singleton in H.
  - rewrite (Hfl _ H e) in He; [done|auto].
  - apply elem_of_list_singleton in H as [= ->]. done.
Qed.
End items.

(** *** File after file *)
Lemma concat_mid {A} (l : list (list A)) p r : concat (l ++ p :: r) = concat l ++ p ++ concat r.
Proof. by rewrite concat_app. Qed.
Section chain.
Context (t : schema) (pm : list (name * name)) (Ht : (t, pm) ∈ tables) (base rdf : pystr) (f : nat) (pf : pystr → option pystr).
Notation F := (Datatypes.S (Datatypes.S f)).
Notation class_of := (class_of base rdf pm).
Notation told := (told base rdf pm).
Notation Made := (Made t base rdf pf).
Context (all : list (list item)).
Notation CL := (class_of (concat all)).
Context (Hok : Forall (flat_ok base rdf) (concat all)) (Hdist : distinct_ids rdf (concat all)) (Hturn : in_turn base rdf pm t all).
Context (Hcomp : ∀ id e, (id, e) ∈ told (concat all) → ∃ ck, CL id = Some ck ∧ compatible base rdf t CL ck e).
Context (Hagree : agreeing base rdf t CL (told (concat all))).
Context (Hplain : ∀ id k a e r, CL id = Some k → plain_attr t k a → e ∈ mine base id a (told (concat all)) → resource rdf e = Some r →
  has_prefix (u "#") r = false).

Section one.
Context (l : list (list item)) (part : list item) (r : list (list item)) (Hall : all = l ++ part :: r).
Context (root : elem) (Hroot : in_base base root = false).
Notation evs := (flat base part ++ [EEnd root]).
Notation cl := (class_of (concat (l ++ [part]))).
Lemma one_eq : concat all = concat l ++ part ++ concat r ∧ concat (l ++ [part]) = concat l ++ part.
Proof using Hall. rewrite Hall. split; [apply concat_mid|]. rewrite concat_app. cbn [concat]. by rewrite app_nil_r. Qed.
Lemma one_ok : Forall (flat_ok base rdf) (concat l ++ part) ∧ distinct_ids rdf (concat l ++ part) ∧
  Forall (flat_ok base rdf) (concat l) ∧ distinct_ids rdf (concat l) ∧ Forall (flat_ok base rdf) part ∧ distinct_ids rdf part.
Proof using Hall Hok Hdist.
  pose proof Hok as H1. pose proof Hdist as H2. destruct one_eq as [E _]. rewrite E, app_assoc in H1, H2.
  apply Forall_app in H1 as [H1 _]. apply distinct_app in H2 as [H2 _]. pose proof H1 as [H3 H4]%Forall_app. pose proof H2 as (H5 & H6 & _)%distinct_app.
  done.
Qed.
Lemma one_cl id : cl id = match class_of (concat l) id with Some k => Some k | None => declared_class base rdf pm evs id end.
Proof using Hall Hok Hdist Hroot.
  destruct one_eq as [_ E]. rewrite E, class_root by done. destruct one_ok as (H1 & H2 & _). by apply class_app.
Qed.
Lemma one_apart id k : declared_class base rdf pm evs id = Some k → class_of (concat l) id = None.
Proof using Hall Hok Hdist Hroot. rewrite class_root by done. destruct one_ok as (H1 & H2 & _). by apply class_app. Qed.
Lemma one_up id k : cl id = Some k → CL id = Some k.
Proof using Hall Hok Hdist.
  destruct one_eq as [E1 E2]. rewrite E2, E1, app_assoc. apply class_left; rewrite <- app_assoc, <- E1; done.
Qed.
Lemma one_sts d : (∀ id, class_of (concat l) id = None → assoc id d = None) → doc_statements base rdf pm evs d = told part.
Proof using Hall Hok Hdist Hroot.
  intros Hd. destruct one_ok as (H1 & H2 & H3 & H4 & H5 & H6). apply statements_told; try done.
  intros i id Hi E. apply Hd. destruct (class_of (concat l) id) as [k|] eqn:Ek; [|done].
  destruct (class_in_items base rdf pm (concat l) id k H3 Ek) as (j & Hj & Ej & _). apply distinct_app in H2 as (_ & _ & H2).
  by destruct (H2 _ _ _ Hj Hi Ej).
Qed.
Lemma one_told : told part ⊆ told (concat all) ∧ told (concat l) ⊆ told (concat all).
Proof using Hall. destruct one_eq as [E _]. rewrite E, !told_app. split; intros st Hst; rewrite !elem_of_app; auto. Qed.
Lemma one_to x a y : refers base rdf cl (told (concat l)) x a y → is_Some (class_of (concat l) y).
Proof using Hall Hok Hdist Hturn.
  intros Hr. apply (refers_mono base rdf cl CL _ (told (concat l))) in Hr; [|apply one_up|done].
  destruct Hr as (e & Hin & He & Hy). unfold PartsSpec.told in Hin. apply elem_of_list_In, in_flat_map in Hin as (i & Hi & Hin).
  apply in_concat in Hi as (p & Hp & Hi). apply elem_of_list_In in Hp. apply elem_of_list_split in Hp as (l1 & l2 & El).
  pose proof one_ok as (_ & _ & H3 & H4 & _). pose proof Hall as Ha. rewrite El in H3, H4, Ha |- *.
  rewrite <- app_assoc in Ha. cbn [app] in Ha. destruct (Hturn l1 p (l2 ++ part :: r) Ha) as [Ht1 _].
  destruct (Ht1 x a y) as [k Hk].
  { exists e. split_and!; [|done|done]. apply elem_of_list_In, in_flat_map. eauto. }
  exists k. rewrite concat_app in Hk. cbn [concat] in Hk. rewrite app_nil_r in Hk. rewrite concat_mid, app_assoc.
  rewrite concat_mid, app_assoc in H3, H4.
  by apply class_left.
Qed.
Lemma one_comp id e : (id, e) ∈ told part → ∃ ck, cl id = Some ck ∧ compatible base rdf t cl ck e.
Proof using Hall Hok Hdist Hcomp Hroot.
  intros Hin. destruct one_ok as (_ & _ & _ & _ & H5 & H6). destruct (told_subject base rdf pm part id e H5 H6 Hin) as [k Hk].
  assert (cl id = Some k) as Hck.
  { rewrite one_cl. rewrite class_root by done. rewrite Hk. rewrite (one_apart id k); [done|]. by rewrite class_root. }
  destruct (Hcomp id e) as (ck & Hck' & Hco); [exact (proj1 one_told _ Hin)|]. pose proof (one_up _ _ Hck) as Hu. assert (ck = k) as -> by congruence.
  exists k. split; [done|]. intros a Ha. specialize (Hco a Ha). destruct (resource rdf e) as [[|c rr]|]; [done| |done].
  destruct c as [|c]; [done|]. do 6 (destruct c as [c|c|]; try done). intros tk Htk. apply Hco. by apply one_up.
Qed.
Lemma one_agree : agreeing base rdf t cl (told part).
Proof using Hall Hok Hdist Hagree.
  intros x p y y' H1 H2. apply (Hagree x p y y'); [exact (says_mono _ _ _ _ _ _ _ _ _ _ one_up (proj1 one_told) H1)|exact (says_mono _ _ _ _ _ _ _ _ _ _ one_up (proj1 one_told) H2)].
Qed.
Lemma one_ends x p y : says base rdf t cl (told part) x p y → is_Some (declared_class base rdf pm evs x).
Proof using Hall Hok Hdist Hturn Hroot.
  intros H. rewrite class_root by done. destruct (Hturn l part r Hall) as [_ He]. apply (He x p y).
  eapply says_mono; [apply one_up| |done]. done.
Qed.
Lemma one_plain id k a e rr : declared_class base rdf pm evs id = Some k → plain_attr t k a → e ∈ mine base id a (told part) →
  resource rdf e = Some rr → has_prefix (u "#") rr = false.
Proof using Hall Hok Hdist Hplain Hroot.
  intros Hk Hpl Hin. apply (Hplain id k a e rr); [|done|].
  - apply one_up. rewrite one_cl, Hk. by rewrite (one_apart id k).
  - destruct one_eq as [E _]. rewrite E, !told_app, !mine_app, !elem_of_app. auto.
Qed.
Lemma one_read d h err d' h' : Made (class_of (concat l)) (told (concat l)) d h →
  reads base rdf t pm F pf err root evs d h = (None, d', h') → Made cl (told (concat (l ++ [part]))) d' h'.
Proof using All.
  intros HM Hr. destruct one_eq as [_ E]. rewrite E at 2. rewrite told_app.
  destruct one_ok as (_ & _ & H3 & H4 & H5 & H6).
  eapply (Made_step t pm Ht base rdf f pf (class_of (concat l)) (told (concat l)) d h HM err root evs d' h' (told part) cl one_cl one_apart); try done.
  - apply one_sts. intros id Hn. rewrite (md_class _ _ _ _ _ _ _ _ HM) in Hn. destruct (assoc id d) as [v|] eqn:Ev; [|done].
    destruct (md_alive _ _ _ _ _ _ _ _ HM _ _ Ev) as (o & -> & [k Hk]). cbn in Hn. congruence.
  - intros id e. by apply told_subject.
  - intros id e Hin. rewrite class_root by done. by eapply told_subject.
  - apply one_to.
  - by apply flat_foreign.
  - apply one_comp.
  - apply one_agree.
  - apply one_ends.
  - apply one_plain.
Qed.
End one.
Lemma parts_made rest : ∀ l d h d' h', all = l ++ rest → Made (class_of (concat l)) (told (concat l)) d h →
  reads_parts base rdf pm t F pf rest d h d' h' → Made CL (told (concat all)) d' h'.
Proof using All.
  induction rest as [|part rest IH]; intros l d h d' h' Hall HM Hr.
  - rewrite app_nil_r in Hall. rewrite Hall. by inversion Hr; subst d' h'.
  - revert Hall. inversion Hr as [|root items rest' d0 h0 d1 h1 d2 h2 Hroot H1 H2]; subst. intros Hall.
    apply (IH (l ++ [part]) d1 h1 d' h'); [by rewrite Hall, <- app_assoc| |done].
    eapply one_read; [exact Hall|exact Hroot|exact HM|exact H1].
Qed.
End chain.
