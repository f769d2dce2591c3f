(** The order in collections after a read. *)
From Coq Require Import String.
From stdpp Require Import prelude gmap.
From Verif Require Import PyStr PyHeap Schema Assoc AssocSpec HeapFacts LinksFacts AssocFacts AddRemoveFacts CtorFacts HistorySpec
  HistoryFacts Tables TableSpec TableFacts Reader ReaderSpec ReaderFacts
  FrameFacts StatementFacts CreateFacts ReaderTabs CompatFacts ReadSound ReadStepFacts DocSpec DocFacts RefFacts MemberSpec.

Section document.
Context (S : schema) (Hde : distinct_ends S) (base rdf : pystr).
Context (d : dict) (h1 : heap) (cl : pystr → option name) (all : list (pystr * elem)).
Notation says := (says base rdf S cl).
Context (Hs1 : Sound S h1) (Hd : dict_alive d h1) (Hcl : ∀ id, cl id = (v ← assoc id d; val_cls h1 v)).
Context (Hcomp : ∀ id e, (id, e) ∈ all → ∃ ck, cl id = Some ck ∧ compatible base rdf S cl ck e ∧ ∃ a, is_property base rdf e a).
Context (Hagree : agreeing base rdf S cl all).
Context (Huniq : ∀ x p y o, says all x p y → assoc x d = Some (VRef o) → ∀ x', assoc x' d = Some (VRef o) → x' = x).
Context (Hblank : ∀ x p y o, says all x p y → assoc x d = Some (VRef o) → view h1 o (Priv p) = Some (OV VNone)).
Context (oc : nat) (qc : name) (kc : prop) (Hkc : pkind S h1 oc qc = Some kc) (Hmk : many_kind kc = true).
Notation Inv := (Inv S base rdf d h1 cl).
Notation join := (join base rdf S cl d oc qc).
Notation joins := (joins base rdf S cl d oc qc).

(** A member of a collection refers to the owner by the end that belongs to it. *)
Lemma member_refers hk x p ys : Sound S hk → ends_one_many (pkind S hk) x p oc qc → view hk oc (Priv qc) = Some (OL ys) →
  VRef x ∈ ys → view hk x (Priv p) = Some (OV (VRef oc)).
Proof using Type.
  intros Hs [Hp (p' & Hq & Hr)] Hv Hin. destruct (lk_coll _ _ (proj2 (so_consistent _ _ Hs)) _ _ _ _ Hq Hv) as (? & [= <-] & _ & Hm).
  destruct (Hm _ Hin) as (x' & p2 & [= <-] & (_ & p3 & Hq3 & Hr3) & Hx2). rewrite Hq in Hq3. injection Hq3 as <-.
  by rewrite (resolves_fun _ _ _ _ _ Hr3 Hr) in Hx2.
Qed.

Lemma join_ref sts i e hk hk' a id oi oy ck tk ys : Inv sts hk → (∀ st, st ∈ sts → st ∈ all) → (i, e) ∈ all →
  reference_elem base rdf e a id → assoc i d = Some (VRef oi) → cls_of h1 oi = Some ck → assoc id d = Some (VRef oy) →
  cls_of h1 oy = Some tk → links_to S ck a tk → ref_case S hk hk' oi ck a oy tk →
  view hk oc (Priv qc) = Some (OL ys) → view hk' oc (Priv qc) = Some (OL (join ys (i, e))).
Proof using Hde Hcl Hagree Huniq Hblank Hkc Hmk.
  intros HI Hsub Hin He Hi Hck Hid Htk Hl Hcase Hys.
  pose proof (in_classes _ _ _ _ _ _ _ _ HI) as Hsk. pose proof (in_sound _ _ _ _ _ _ _ _ HI) as Hsnd. pose proof (so_consistent _ _ Hsnd) as [Hwf HL].
  assert (cl i = Some ck) as Hcli by (rewrite Hcl, Hi; by cbn).
  assert (cl id = Some tk) as Hclid by (rewrite Hcl, Hid; by cbn).
  assert (refers base rdf cl [(i, e)] i a id) as HR. { exists e. split_and!; [by left|done|]. by rewrite Hclid. }
  assert (∀ o p, pkind S hk o p = pkind S h1 o p) as HK by (intros o p; unfold pkind; by rewrite Hsk).
  assert (∀ p, pkind S h1 oi p = lookup_prop S ck p) as Hki by (intros p; unfold pkind; by rewrite Hck).
  assert (∀ p, pkind S h1 oy p = lookup_prop S tk p) as Hky by (intros p; unfold pkind; by rewrite Htk).
  assert (pkind S hk oc qc = Some kc) as Hkk by (by rewrite HK).
  assert (∀ p, class_ends S ck p tk qc → oy = oc → ends_one_many (pkind S hk) oi p oc qc) as Hends.
  { intros p [Hp (p' & Hq & Hr)] <-. split; [by rewrite HK, Hki|]. exists p'. rewrite HK, Hky. split; [done|]. unfold resolves.
    rewrite HK, Hki. destruct Hr as [->|[c Hr]]; [left|right; by exists c]. split; [done|]. intros t2 c2. by rewrite Hp. }
  pose proof He as [(_ & _ & _ & Hname) Hres]. unfold ref_case in Hcase. unfold links_to in Hl.
  unfold MemberSpec.join, arrival. cbn [fst snd]. rewrite Hres. change (u "#" ++ id) with (35%N :: id). cbv zeta beta iota. rewrite Hname.
  rewrite Hcli, Hi, Hid. cbn [mbind option_bind].
  (* the single end [p] of [oi] *)
  assert (∀ p q, class_ends S ck p tk q → says [(i, e)] i p id →
    ∀ y', view hk oi (Priv p) = Some (OV (VRef y')) → y' = oy) as Hal.
  { intros p q [Hp _] Hsay y' Hy'. eapply (already S base rdf d h1 cl all Hagree Huniq Hblank sts hk i p (POneMany q) id oi oy y'); try done.
    - by eapply says_in.
    - by rewrite Hki. }
  assert (∀ p q ys', class_ends S ck p tk q → SetSingle (view hk) (view hk') oi p q (VRef oy) →
    (view hk oi (Priv p) = Some (OV VNone) ∨ view hk oi (Priv p) = Some (OV (VRef oy))) →
    (q = qc → oy = oc → ys' = filter (λ y, y ≠ VRef oi) ys ++ [VRef oi]) → (¬ (q = qc ∧ oy = oc) → ys' = ys) →
    view hk' oc (Priv qc) = Some (OL ys')) as Hset.
  { intros p q ys' [Hp _] HE Hv Ht Hf. destruct (decide (q = qc ∧ oy = oc)) as [[-> ->]|Hn].
    - rewrite (Ht eq_refl eq_refl). by apply (ss_new _ _ _ _ _ _ HE).
    - rewrite (Hf Hn), <- Hys. apply (ss_frame _ _ _ _ _ _ HE).
      + intros [= -> ->]. rewrite HK, Hki, Hp in Hkk. by simplify_eq.
      + intros [= ->]. split; [intros [= ->]; by apply Hn|]. destruct Hv as [-> | ->]; [done|]. intros [= ->]. by apply Hn. }
  assert (∀ p q y', class_ends S ck p tk q → q = qc → oy = oc → view hk oi (Priv p) = Some (OV (VRef y')) → y' = oy → VRef oi ∈ ys) as Hmem.
  { intros p q y' [Hp _] -> -> Hv ->. destruct (lk_single _ _ HL oi p qc (OV (VRef oc))) as [|(t2 & ys2 & [= <-] & _ & Hv2 & Hin2)];
      [by rewrite HK, Hki|done|done|]. rewrite Hys in Hv2. by injection Hv2 as <-. }
  assert (∀ p q, class_ends S ck p tk q → q = qc → oy = oc → view hk oi (Priv p) = Some (OV VNone) → VRef oi ∉ ys) as Hnew.
  { intros p q Hce -> Ho Hv Hi2. rewrite (member_refers hk oi p ys Hsnd (Hends p Hce Ho) Hys Hi2) in Hv. done. }
  assert (VRef oi ∉ ys → filter (λ y, y ≠ VRef oi) ys ++ [VRef oi] = ys ++ [VRef oi]) as Hfil.
  { clear. intros Hn. f_equal. induction ys as [|b ys IH]; [done|]. apply not_elem_of_cons in Hn as [Hb Hn].
    rewrite filter_cons_True by congruence. by rewrite IH. }
  destruct (lookup_prop S ck a) as [[q|p'|q|q| |q|p c]|] eqn:Ek.
  - (* single *)
    assert (says [(i, e)] i a id) as Hsay by (by eapply says_single).
    destruct Hcase as [(-> & y' & Hy')|[Hv HE]].
    + rewrite Hys. do 2 f_equal. pose proof (Hal a q Hl Hsay y' Hy') as ->. case_decide as Hc; [|done]. destruct Hc as [-> [= ->]].
      cbn [joined]. rewrite decide_True; [done|]. by eapply (Hmem a qc oc).
    + apply (Hset a q _ Hl HE); [by left| |].
      * intros -> ->. rewrite decide_True by done. cbn [joined]. pose proof (Hnew a qc Hl eq_refl eq_refl Hv) as Hn.
        rewrite decide_False by done. symmetry. by apply Hfil.
      * intros Hn. rewrite decide_False; [done|]. intros [-> [= ->]]. by apply Hn.
  - (* a member *)
    destruct Hcase as (p & He2 & Hr & HA). pose proof He2 as [Hp (p2 & Hq & _)].
    assert (says [(i, e)] id p i) as Hsay.
    { apply (says_member base rdf S cl [(i, e)] id p p' i a tk ck); [done..|]. by split. }
    case_decide as Hc.
    + destruct Hc as [-> [= ->]]. cbn [joined]. rewrite (aa_new _ _ _ _ _ _ HA oc ys eq_refl Hys). do 2 f_equal. f_equal.
      apply list_filter_iff. intros y. cbn [map]. by rewrite elem_of_list_singleton.
    + rewrite <- Hys. apply (aa_frame _ _ _ _ _ _ HA).
      * intros [= ->] ->%elem_of_list_singleton. rewrite HK, Hky, Hp in Hkk. by simplify_eq.
      * intros [= ->] _ [= ->]. by apply Hc.
      * intros [= ->] x ->%elem_of_list_singleton Hv. apply Hc. split; [done|]. f_equal. symmetry.
        eapply (already S base rdf d h1 cl all Hagree Huniq Hblank sts hk id p (POneMany a) i oy oi oc); try done.
        -- by eapply says_in.
        -- by rewrite Hky.
  - (* a pair *)
    destruct Hcase as [[-> _]|[Hv0 HE]]; [done|]. rewrite <- Hys. apply (sp_frame _ _ _ _ _ _ HE).
    + intros [= -> ->]. rewrite HK, Hki, Ek in Hkk. by simplify_eq.
    + intros [= ->]. split; [|by rewrite Hv0]. intros [= ->]. rewrite HK, Hky, Hl in Hkk. by simplify_eq.
    + intros [= ->] y [= <-] Hv. destruct (lk_one_one _ _ HL oy q a (OV (VRef oc))) as [|(y2 & [= <-] & [_ Hko] & _)];
        [by rewrite HK, Hky|done|done|]. rewrite Hkk in Hko. by simplify_eq.
  - (* many-to-many *)
    assert (a ≠ q) as Haq by (intros ->; by destruct (Hde ck q)).
    case_decide as H1; [|case_decide as H2].
    + destruct H1 as [-> [= ->]]. by apply (am_self _ _ _ _ _ _ Hcase).
    + destruct H2 as [-> [= ->]]. cbn [joined]. by apply (am_other _ _ _ _ _ _ Hcase).
    + rewrite <- Hys. apply (am_frame _ _ _ _ _ _ Hcase); intros [= -> ->]; [by apply H1|by apply H2].
  - rewrite <- Hys. apply Hcase. intros [= -> ->]. rewrite HK, Hki, Ek in Hkk. by simplify_eq.
  - done.
  - (* alias *)
    destruct Hl as [q He2]. pose proof He2 as [Hp _]. rewrite Hp.
    assert (says [(i, e)] i p id) as Hsay by (by eapply says_alias).
    destruct Hcase as [(-> & y' & Hy' & Hyc)|(Hv & q2 & He3 & HE)].
    + rewrite Hys. do 2 f_equal. pose proof (Hal p q He2 Hsay y' Hy') as ->. case_decide as Hc; [|done]. destruct Hc as [-> [= ->]].
      rewrite decide_True by (rewrite Hclid, <- Htk, <- Hsk; done). cbn [joined]. rewrite decide_True; [done|]. by eapply (Hmem p qc oc).
    + assert (q2 = q) as -> by (destruct He3 as [E3 _]; congruence).
      apply (Hset p q _ He2 HE).
      * destruct Hv as [Hv|(y' & Hv & _)]; [by left|right]. by rewrite (Hal p q He2 Hsay y' Hv) in Hv.
      * intros -> ->. rewrite decide_True by done. case_decide as Hcc; [|done]. cbn [joined].
        destruct Hv as [Hv|(y' & Hv & Hne)].
        -- pose proof (Hnew p qc He2 eq_refl eq_refl Hv) as Hn. rewrite decide_False by done. symmetry. by apply Hfil.
        -- rewrite (Hal p qc He2 Hsay y' Hv), Hsk, Htk, <- Hclid in Hne. done.
      * intros Hn. rewrite decide_False; [done|]. intros [-> [= ->]]. by apply Hn.
  - by rewrite Hcase.
Qed.

Context (f : nat) (pf : pystr → option pystr).
Notation F := (Datatypes.S (Datatypes.S f)).
Lemma join_statement sts i e hk hk' ys : Inv sts hk → (∀ st, st ∈ sts → st ∈ all) → (i, e) ∈ all →
  exec1 base rdf S F pf d (i, e) hk = (inl tt, hk') → view hk oc (Priv qc) = Some (OL ys) → view hk' oc (Priv qc) = Some (OL (join ys (i, e))).
Proof using Hde Hd Hcl Hcomp Hagree Huniq Hblank Hkc Hmk.
  intros HI Hsub Hin Ex Hys. unfold exec1 in Ex. cbn [fst snd] in Ex.
  destruct (Hcomp i e Hin) as (ck & Hck & Hco & a & Ha).
  pose proof (in_classes _ _ _ _ _ _ _ _ HI) as Hsk. pose proof (in_sound _ _ _ _ _ _ _ _ HI) as Hsnd.
  destruct (assoc i d) as [v|] eqn:Ei; [|done]. destruct v as [| | | | |oi|]; try done.
  assert (cls_of h1 oi = Some ck) as Hoi by (rewrite Hcl, Ei in Hck; done).
  assert (cls_of hk oi = Some ck) as Hoik by (by rewrite Hsk).
  specialize (Hco a Ha). pose proof Ha as (_ & _ & _ & Hname).
  assert ((∀ r, resource rdf e = Some r → has_prefix (u "#") r = false) → plain_attr S ck a → view hk' oc (Priv qc) = Some (OL ys)) as Hplain.
  { intros Hr Hpl. rewrite <- Hys. by eapply (plain_priv S base rdf d f pf hk oi ck e a hk'). }
  unfold MemberSpec.join, arrival. cbn [fst snd].
  destruct (resource rdf e) as [[|c id]|] eqn:Er.
  - apply Hplain; [by intros r [= <-]|done].
  - destruct (N.eq_dec c 35) as [->|Hne].
    + assert (reference_elem base rdf e a id) as He by done.
      assert (set_ref S F d oi a id hk = (inl tt, hk')) as Ex2.
      { rewrite <- Ex. symmetry. apply (reference_set base rdf S F pf d oi e a id hk He). }
      destruct (assoc id d) as [v|] eqn:Eid.
      * destruct (Hd _ _ Eid) as (oy & -> & tk & Htk).
        assert (links_to S ck a tk) as Hl by (apply Hco; rewrite Hcl, Eid; done).
        destruct (set_ref_cases S Hde f hk d oi ck a id oy tk hk') as (Hsc & _ & Hcase); try done; [by rewrite Hsk|].
        pose proof (join_ref sts i e hk hk' a id oi oy ck tk ys HI Hsub Hin He Ei Hoi Eid Htk Hl Hcase Hys) as H.
        unfold MemberSpec.join, arrival in H. cbn [fst snd] in H. rewrite Er, Eid in H. exact H.
      * assert (hk' = hk) as ->.
        { unfold set_ref in Ex2. rewrite Eid in Ex2. destruct (find_attr S oi a hk); by simplify_eq. }
        rewrite Ei. destruct (cl i); done.
    + assert (match c with 35%N => False | _ => True end) as Hc35.
      { destruct c as [|c]; [done|]. do 6 (destruct c as [c|c|]; try done). }
      assert (view hk' oc (Priv qc) = Some (OL ys)) as Hv; [apply Hplain|].
      * intros r [= <-]. destruct c as [|c]; [done|]. do 6 (destruct c as [c|c|]; try done).
      * destruct c as [|c]; [done|]. do 6 (destruct c as [c|c|]; try done).
      * destruct c as [|c]; [done|]. do 6 (destruct c as [c|c|]; try done).
  - by apply Hplain.
Qed.
Lemma exec_joins rest : ∀ sts hk hk' ys, all = sts ++ rest → Inv sts hk → view hk oc (Priv qc) = Some (OL ys) →
  exec base rdf S F pf d rest hk = (inl tt, hk') → view hk' oc (Priv qc) = Some (OL (joins rest ys)).
Proof using Hde Hs1 Hd Hcl Hcomp Hagree Huniq Hblank Hkc Hmk.
  induction rest as [|[i e] rest IH]; intros sts hk hk' ys Hall HI Hys Ex.
  - by injection Ex as <-.
  - unfold exec in Ex. cbn [for_each] in Ex. fold (exec base rdf S F pf d) in Ex. unfold bind in Ex.
    destruct (exec1 base rdf S F pf d (i, e) hk) as [[[]|x] h2] eqn:E1; [|done].
    assert (∀ st, st ∈ sts → st ∈ all) as Hsub by (intros st ?; rewrite Hall; apply elem_of_app; by left).
    assert ((i, e) ∈ all) as Hin by (rewrite Hall; apply elem_of_app; right; left).
    change (joins ((i, e) :: rest) ys) with (joins rest (join ys (i, e))).
    eapply (IH (sts ++ [(i, e)])); [by rewrite <- app_assoc| | |exact Ex].
    + exact (step_statement S Hde base rdf d h1 cl all Hs1 Hd Hcl Hcomp Hagree Huniq Hblank f pf sts i e hk h2 HI Hsub Hin E1).
    + by eapply join_statement.
Qed.
End document.

(** The list before the read; new objects have none. *)
Section reading.
Context (t : schema) (pm : list (name * name)) (Ht : (t, pm) ∈ tables) (base rdf : pystr) (f : nat) (pf : pystr → option pystr).
Context (err : bool) (root : elem) (evs : list event) (d : dict) (h : heap) (d' : dict) (h' : heap).
Context (Hs : Sound t h) (Hd : dict_alive d h) (Hf : foreign_root base evs) (Hcomp : compatible_doc base rdf t pm evs d h).
Context (Hco : coherent base rdf t pm evs d h).
Context (Hr : reads base rdf t pm (Datatypes.S (Datatypes.S f)) pf err root evs d h = (None, d', h')).
Notation all := (doc_statements base rdf pm evs d).
Notation cl := (class_in base rdf pm evs d h).
Lemma reads_members o q k : pkind t h' o q = Some k → many_kind k = true → ∃ ys, members h o q ys ∧
  view h' o (Priv q) = Some (OL (joins base rdf t cl d' o q all ys)).
Proof using Ht Hs Hd Hf Hcomp Hco Hr.
  intros Hk Hm. destruct (reads_ready t pm Ht base rdf f pf err root evs d h d' h' Hs Hd Hf Hcomp Hco Hr)
    as (h1 & HC & Hd1 & Hcl & Hbl & Hkind & Hs1 & Hst & Hu & Hb & Hex).
  pose proof (exec_all t (tables_distinct t pm Ht) base rdf d' h1 cl all Hs1 Hd1 Hcl Hst (co_agree _ _ _ _ _ _ _ Hco) Hu Hb f pf h' Hex) as HI.
  pose proof (in_classes _ _ _ _ _ _ _ _ HI) as Hsc.
  assert (pkind t h1 o q = Some k) as Hk1 by (unfold pkind in *; by rewrite Hsc in Hk).
  assert (∃ ys, members h o q ys ∧ view h1 o (Priv q) = Some (OL ys)) as (ys & Hys & Hv).
  { unfold members. destruct (cls_of h o) as [c|] eqn:Ec.
    - destruct (cr_frame _ _ _ _ _ _ HC o (Priv q)) as [E1 E]; [by rewrite Ec|]. rewrite E. rewrite Ec in E1.
      assert (pkind t h o q = Some k) as Hk0 by (unfold pkind in *; by rewrite E1, <- Ec in Hk1).
      destruct k as [| | | | | |]; try done.
      + destruct (Sound_view t h o q _ Hs Hk0) as [z Hz]; [done|]. destruct (lk_coll _ _ (proj2 (so_consistent _ _ Hs)) _ _ _ _ Hk0 Hz) as (ys & -> & _). eauto.
      + destruct (Sound_view t h o q _ Hs Hk0) as [z Hz]; [done|]. destruct (lk_many_many _ _ (proj2 (so_consistent _ _ Hs)) _ _ _ _ Hk0 Hz) as (ys & -> & _). eauto.
    - exists []. split; [done|]. unfold pkind in Hk1. destruct (cls_of h1 o) as [ck|] eqn:Ec1; [|done].
      rewrite (Hbl o ck q k Ec Ec1 Hk1) by (by destruct k). by rewrite Hm. }
  exists ys. split; [done|].
  exact (exec_joins t (tables_distinct t pm Ht) base rdf d' h1 cl all Hs1 Hd1 Hcl Hst (co_agree _ _ _ _ _ _ _ Hco) Hu Hb o q k Hk1 Hm f pf
    all [] h1 h' ys eq_refl (Inv_start t base rdf d' h1 cl Hs1) Hv Hex).
Qed.
End reading.
