(** Assigning and adding objects of classes that an association does not lead
    to (the setters of all classes, for example CIM14/IEC61970/Core/Terminal.py). *)
From Coq Require Import String.
From stdpp Require Import prelude gmap.
From Verif Require Import PyStr PyHeap Schema Assoc AssocSpec HeapFacts LinksFacts AssocFacts HistorySpec GraphCheck AdmCheck MisfitSpec Names TabCIM14 TabCIM15 Tables Demo PropAssoc.

Lemma pick_inl {A B} (m : M A) (f : A → M B) h a h' : m h = (inl a, h') → bind m f h = f a h'.
Proof. apply bind_inl. Qed.
Lemma single_value T h x p q v : Consistent T h → pkind T h x p = Some (POneMany q) → slot h x (Priv p) = Some v → is_vlist v = false ∧ coll_end T q h v.
Proof.
  intros [Hwf HL] Hk Hs. assert (is_vlist v = false) as Hvl.
  { destruct v; try done. destruct (wf_lists h Hwf _ _ _ Hs) as [xs Hl].
    by destruct (lk_single _ _ HL _ _ _ _ Hk (view_list _ _ _ _ _ Hs Hl)) as [|(?&?&?&?)]. }
  split; [done|]. pose proof (view_slot _ _ _ _ Hs Hvl) as Hvx.
  destruct (lk_single _ _ HL _ _ _ _ Hk Hvx) as [[= ->]|(t&ys&[= ->]&(_&p'&?&?)&?&?)]; [by left|]. right. eauto 10.
Qed.

(** *** C112 *)
(** A single end set to a value that has no collection for it: the assignment
    raises, but has been made. *)
Theorem C112_single T f h x p q w e : Consistent T h → pkind T h x p = Some (POneMany q) → has_slot h x p → misfit h q w e →
  ∃ h', setattr T (S f) (VRef x) p w h = (inr e, h') ∧ same_classes h h' ∧ Breaks (view h) (view h') x p q w ∧ ¬ Consistent T h'.
Proof.
  intros HC Hk [v Hs] Hw. pose proof HC as [Hwf HL]. destruct (single_value _ _ _ _ _ _ HC Hk Hs) as [Hvl Hv].
  assert (is_Some (cls_of h x)) as Hcx by (by eapply slot_cls). pose proof (view_slot _ _ _ _ Hs Hvl) as Hvx.
  assert (is_vlist w = false) as Hwl by (by destruct w).
  cbn [setattr]. rewrite obj_prop_pkind, Hk. rewrite (pick_inl _ _ _ _ _ (read_key_ok h x (Priv p) v Hs)).
  set (det := if decide (v = VNone) then ret tt else _).
  assert (∃ h1, det h = (inl tt, h1) ∧ Frame h h1 ∧ (∀ o k, view h1 o k = sm_detach x p q (view h) o k)) as (h1 & E1 & HF1 & HV1).
  { subst det. destruct Hv as [->|(t & p' & xs & -> & Hkt & Hvt)].
    - exists h. rewrite decide_True by done. split_and!; [done|by apply Frame_refl|]. intros o k. unfold sm_detach. by rewrite Hvx.
    - rewrite decide_False by done. destruct (view_OL _ _ _ _ Hvt) as (l & Hsl & Hl).
      rewrite (pick_inl _ _ _ _ _ (getattr_single T h x p q (VRef t) Hk Hs)), (pick_inl _ _ _ _ _ (getattr_coll T h t q p' (VList l) Hkt Hsl)).
      erewrite (bind_inl (iter_val (VList l))); [|unfold iter_val; by rewrite Hl]. erewrite (bind_inl (new_list _)); [|done]. cbv beta.
      assert (is_Some (cls_of h t)) as Hct by (by eapply slot_cls). rewrite write_key_ok by done. eexists; split_and!; [done|by apply Frame_hnew|].
      intros o k. etransitivity; [by apply view_hnew|]. unfold sm_detach. by rewrite Hvx, Hvt. }
  rewrite (pick_inl _ _ _ _ _ E1). clear det E1.
  assert (is_Some (cls_of h1 x)) as Hcx1 by (by rewrite (Frame_cls h)). pose proof (Frame_wf _ _ HF1) as Hwf1.
  erewrite (bind_inl (write_key _ _ _)); [|by apply write_key_ok]. set (h2 := hset x (Priv p) w h1).
  assert (Frame h h2) as HF2 by (eapply Frame_trans; [done|by apply Frame_hset]). pose proof (Frame_wf _ _ HF2) as Hwf2.
  assert (∀ o k, view h2 o k = upd (sm_detach x p q (view h)) x (Priv p) (OV w) o k) as HV2.
  { intros o k. subst h2. rewrite (view_hset h1 x (Priv p) w o k Hcx1 Hwl). unfold upd. destruct (decide _); [done|apply HV1]. }
  erewrite (bind_inl (read_key _ _)); [|apply read_key_ok, slot_hset; done]. cbv beta.
  rewrite decide_False by (by intros ->).
  (* the collections of objects that have none *)
  assert (∀ y, (∀ xs, view h y (Priv q) ≠ Some (OL xs)) → (y, Priv q) ≠ (x, Priv p) → view h2 y (Priv q) = view h y (Priv q)) as Hsame.
  { intros y Hy Hne. rewrite HV2, upd_ne by done. unfold sm_detach. rewrite Hvx. destruct v; try done.
    destruct (view h o (Priv q)) as [[]|] eqn:Eo; try done. rewrite upd_ne; [done|]. intros [= ->]. by eapply Hy. }
  exists h2. assert (Breaks (view h) (view h2) x p q w) as HB.
  { split.
    - by rewrite HV2, upd_eq.
    - intros u xs Hu Hxs. rewrite HV2, upd_ne.
      + unfold sm_detach. by rewrite Hu, Hxs, upd_eq.
      + intros [= -> ->]. congruence.
    - intros o k Hne Hq. rewrite HV2, upd_ne by done. unfold sm_detach. destruct (view h x (Priv p)) as [[[]|]|] eqn:Ex; try done.
      destruct (view h o0 (Priv q)) as [[]|]; try done. rewrite upd_ne; [done|]. intros [= -> ->]. by apply Hq. }
  split_and!; [|apply HF2|done|].
  - destruct w as [| | | | |y|]; try done; try (cbn in Hw; subst e; by apply bind_inr).
    destruct Hw as [_ [[Hy ->]|(v' & Hy & ->)]].
    + assert ((y, Priv q) ≠ (x, Priv p)) as Hne by (intros [= -> ->]; congruence).
      assert (slot h2 y (Priv q) = None) as Hsl. { apply view_None_slot; [done|]. rewrite Hsame; [done|congruence|done]. }
      apply bind_inr. unfold read_key. by rewrite Hsl.
    + assert (∃ v2, view h2 y (Priv q) = Some (OV v2)) as [v2 Hy2].
      { destruct (decide ((y, Priv q) = (x, Priv p))) as [E|Hne].
        - injection E as -> ->. eexists. by rewrite HV2, upd_eq.
        - exists v'. rewrite Hsame; [done|congruence|done]. }
      rewrite (pick_inl _ _ _ _ _ (read_key_ok h2 y (Priv q) v2 (view_OV _ _ _ _ Hy2))). apply bind_inr.
      pose proof (view_OV_nolist _ _ _ _ Hy2) as Hnl. by destruct v2.
  - intros [_ HL2]. assert (pkind T h2 x p = Some (POneMany q)) as Hk2 by (by rewrite (Frame_pkind _ h)).
    destruct (lk_single _ _ HL2 _ _ _ _ Hk2 (br_self _ _ _ _ _ _ HB)) as [[= ->]|(t & ys & [= ->] & (_ & p' & Hkt & _) & Hys & _)]; [done|].
    destruct Hw as [_ Hw]. destruct (decide ((t, Priv q) = (x, Priv p))) as [E|Hne].
    + injection E as -> ->. congruence.
    + rewrite Hsame in Hys; [|intros xs Hxs; destruct Hw as [[? _]|(? & ? & _)]; congruence|done].
      destruct Hw as [[? _]|(? & ? & _)]; congruence.
Qed.
Print Assumptions C112_single.

Lemma pair_start T f h x p q w v : Consistent T h → pkind T h x p = Some (POneOne q) → slot h x (Priv p) = Some v → w ≠ VNone → is_vlist w = false →
  ∃ h2, setattr T (S f) (VRef x) p w h =
      (setattr T f w q VNone ;;; let* now' := read_key (VRef x) (Priv p) in write_key now' (Priv q) (VRef x)) h2 ∧
    Frame h h2 ∧ slot h2 x (Priv p) = Some w ∧
    ∀ o k, view h2 o k = upd (match v with VRef u => upd (view h) u (Priv q) (OV VNone) | _ => view h end) x (Priv p) (OV w) o k.
Proof.
  intros [Hwf HL] Hk Hs Hw Hwl. assert (is_vlist v = false) as Hvl.
  { destruct v; try done. destruct (wf_lists h Hwf _ _ _ Hs) as [xs Hl].
    by destruct (lk_one_one _ _ HL _ _ _ _ Hk (view_list _ _ _ _ _ Hs Hl)) as [|(?&?&?)]. }
  pose proof (view_slot _ _ _ _ Hs Hvl) as Hvx. assert (v = VNone ∨ ∃ z, v = VRef z ∧ is_Some (cls_of h z)) as Hv.
  { destruct (lk_one_one _ _ HL _ _ _ _ Hk Hvx) as [[= ->]|(y&[= ->]&_&Hvy)]; [by left|]. right. exists y. split; [done|]. by eapply view_Some_cls. }
  assert (is_Some (cls_of h x)) as Hcx by (by eapply slot_cls).
  set (h1 := match v with VRef u => hset u (Priv q) VNone h | _ => h end).
  assert (Frame h h1 ∧ (∀ o k, view h1 o k = match v with VRef u => upd (view h) u (Priv q) (OV VNone) | _ => view h end o k)) as (HF1 & HV1).
  { subst h1. destruct Hv as [->|(u & -> & Hu)]; [split; [by apply Frame_refl|done]|]. split; [by apply Frame_hset|]. intros o k. by apply view_hset. }
  pose proof (Frame_wf _ _ HF1) as Hwf1. assert (is_Some (cls_of h1 x)) as Hcx1 by (by rewrite (Frame_cls h)).
  exists (hset x (Priv p) w h1). split_and!.
  - cbn [setattr]. rewrite obj_prop_pkind, Hk. rewrite (pick_inl _ _ _ _ _ (read_key_ok h x (Priv p) v Hs)).
    erewrite (bind_inl _ _ h tt h1); cycle 1.
    { subst h1. destruct Hv as [->|(u & -> & Hu)]; [done|]. rewrite decide_False by done. by rewrite write_key_ok. }
    erewrite (bind_inl (write_key _ _ _)); [|by apply write_key_ok].
    erewrite (bind_inl (read_key _ _)); [|apply read_key_ok, slot_hset; done]. cbv beta. by rewrite decide_False.
  - eapply Frame_trans; [done|]. by apply Frame_hset.
  - by apply slot_hset.
  - intros o k. rewrite (view_hset h1) by done. unfold upd at 1 2. destruct (decide _); [done|apply HV1].
Qed.
(** A one-to-one end set to a number or a string likewise raises after it has
    been set. *)
Theorem C112_pair_value T f h x p q w : Consistent T h → p ≠ q → pkind T h x p = Some (POneOne q) → has_slot h x p → atom w →
  ∃ h', setattr T (S (S f)) (VRef x) p w h = (inr AttributeError, h') ∧ same_classes h h' ∧ Parts (view h) (view h') x p q w ∧ ¬ Consistent T h'.
Proof.
  intros HC Hpq Hk [v Hs] Hw. destruct (pair_start T (S f) h x p q w v HC Hk Hs) as (h2 & E & HF & Hs2 & HV); [by intros ->|by destruct w|].
  assert (view h x (Priv p) = Some (OV v)) as Hvx.
  { destruct HC as [Hwf HL]. apply view_slot; [done|]. destruct v; try done. destruct (wf_lists h Hwf _ _ _ Hs) as [xs Hl].
    by destruct (lk_one_one _ _ HL _ _ _ _ Hk (view_list _ _ _ _ _ Hs Hl)) as [|(?&?&?)]. }
  exists h2. rewrite E. assert (Parts (view h) (view h2) x p q w) as HP.
  { split.
    - by rewrite HV, upd_eq.
    - intros o Ho _. rewrite Hvx in Ho. injection Ho as ->. rewrite HV, upd_ne by congruence. by rewrite upd_eq.
    - intros o k Hne Hq _. rewrite HV, upd_ne by done. destruct v; try done. rewrite upd_ne; [done|]. intros [= -> ->]. by destruct (Hq eq_refl). }
  split_and!; [|apply HF|done|].
  - apply bind_inr. by destruct w.
  - intros [_ HL2]. assert (pkind T h2 x p = Some (POneOne q)) as Hk2 by (by rewrite (Frame_pkind _ h)).
    destruct (lk_one_one _ _ HL2 _ _ _ _ Hk2 (pa_self _ _ _ _ _ _ HP)) as [[= ->]|(t & [= ->] & _)]; done.
Qed.
Print Assumptions C112_pair_value.
(** Set to an object that has no such property, it raises nothing: the object
    gets attributes it should not have. *)
Theorem C112_pair T f h x p q y : Consistent T h → p ≠ q → key_of q = Pub q → pkind T h x p = Some (POneOne q) → has_slot h x p →
  is_Some (cls_of h y) → pkind T h y q = None →
  ∃ h', setattr T (S (S f)) (VRef x) p (VRef y) h = (inl tt, h') ∧ same_classes h h' ∧ Parts (view h) (view h') x p q (VRef y) ∧
    view h' y (Pub q) = Some (OV VNone) ∧ view h' y (Priv q) = Some (OV (VRef x)) ∧ ¬ Consistent T h'.
Proof.
  intros HC Hpq Hpub Hk [v Hs] Hy Hky. destruct (pair_start T (S f) h x p q (VRef y) v HC Hk Hs) as (h2 & E & HF & Hs2 & HV); [done..|].
  assert (view h x (Priv p) = Some (OV v)) as Hvx.
  { destruct HC as [Hwf HL]. apply view_slot; [done|]. destruct v; try done. destruct (wf_lists h Hwf _ _ _ Hs) as [xs Hl].
    by destruct (lk_one_one _ _ HL _ _ _ _ Hk (view_list _ _ _ _ _ Hs Hl)) as [|(?&?&?)]. }
  assert (is_Some (cls_of h2 y)) as Hy2 by (by rewrite (Frame_cls h)). pose proof (Frame_wf _ _ HF) as Hwf2.
  set (h3 := hset y (Pub q) VNone h2). assert (Wf h3) as Hwf3 by (by apply wf_hset). assert (is_Some (cls_of h3 y)) as Hy3 by (subst h3; by rewrite cls_hset).
  exists (hset y (Priv q) (VRef x) h3).
  assert (∀ o k, view (hset y (Priv q) (VRef x) h3) o k = upd (upd (view h2) y (Pub q) (OV VNone)) y (Priv q) (OV (VRef x)) o k) as HV3.
  { intros o k. rewrite view_hset by done. apply upd_ext. intros _. subst h3. by rewrite view_hset. }
  assert (Parts (view h) (view (hset y (Priv q) (VRef x) h3)) x p q (VRef y)) as HP.
  { split.
    - rewrite HV3, upd_ne, upd_ne by congruence. by rewrite HV, upd_eq.
    - intros u Hu Hne. rewrite Hvx in Hu. injection Hu as ->. rewrite HV3, upd_ne, upd_ne, HV, upd_ne by congruence. by rewrite upd_eq.
    - intros o k Hne Hq Hpq2. rewrite HV3, upd_ne, upd_ne, HV, upd_ne; [|done|intros [= -> ->]; by apply Hpq2|intros [= -> ->]; by destruct (Hq eq_refl)].
      destruct v; try done. rewrite upd_ne; [done|]. intros [= -> ->]. by destruct (Hq eq_refl). }
  split_and!.
  - rewrite E. erewrite (bind_inl _ _ h2 tt h3).
    + erewrite (bind_inl (read_key _ _)); [|apply read_key_ok; subst h3; rewrite slot_hset_ne by congruence; exact Hs2]. by apply write_key_ok.
    + cbn [setattr]. rewrite obj_prop_pkind, (Frame_pkind _ h), Hky, Hpub by done. by apply write_key_ok.
  - intros o. subst h3. rewrite !cls_hset. by apply HF.
  - done.
  - by rewrite HV3, upd_ne, upd_eq by congruence.
  - by rewrite HV3, upd_eq.
  - intros [_ HL2]. assert (∀ o n, pkind T (hset y (Priv q) (VRef x) h3) o n = pkind T h o n) as Hkk.
    { intros o n. subst h3. rewrite !pkind_hset. by apply Frame_pkind. }
    assert (pkind T (hset y (Priv q) (VRef x) h3) x p = Some (POneOne q)) as Hk2 by (by rewrite Hkk).
    destruct (lk_one_one _ _ HL2 _ _ _ _ Hk2 (pa_self _ _ _ _ _ _ HP)) as [?|(t & [= <-] & [_ Ht] & _)]; [done|]. rewrite Hkk in Ht. congruence.
Qed.
Print Assumptions C112_pair.
(** Objects without the property are not added to a one-to-many collection; they
    get an ordinary attribute. *)
Theorem C112_add T f t q p' xs : ∀ h, Wf h → pkind T h t q = Some (PManyOne p') →
  (∀ x, x ∈ xs → is_Some (cls_of h x) ∧ pkind T h x p' = None) →
  ∃ h', add T (S f) (VRef t) q (map VRef xs) h = (inl tt, h') ∧ same_classes h h' ∧
    (∀ x, x ∈ xs → view h' x (key_of p') = Some (OV (VRef t))) ∧
    ∀ o k, (o ∈ xs → k ≠ key_of p') → view h' o k = view h o k.
Proof.
  intros h Hwf Hk. unfold add. rewrite obj_prop_pkind, Hk. clear Hk. revert h Hwf. induction xs as [|x xs IH]; intros h Hwf Hxs.
  - exists h. split_and!; [done|apply same_classes_refl|by intros ? ?%elem_of_nil|done].
  - destruct (Hxs x) as [Hx Hkx]; [by left|]. cbn [map for_each]. set (h1 := hset x (key_of p') (VRef t) h).
    erewrite (bind_inl _ _ h tt h1); cycle 1.
    { cbn [setattr]. rewrite obj_prop_pkind, Hkx. by apply write_key_ok. }
    destruct (IH h1) as (h' & E & Hc & H1 & H2).
    + by apply wf_hset.
    + intros y Hy. subst h1. rewrite cls_hset, pkind_hset. apply Hxs. by right.
    + exists h'. split_and!; [done| | |].
      * intros o. rewrite Hc. subst h1. by rewrite cls_hset.
      * intros y [->|Hy]%elem_of_cons; [|by apply H1]. destruct (decide (x ∈ xs)) as [Hin|Hin]; [by apply H1|].
        rewrite H2 by done. subst h1. by rewrite view_hset, upd_eq.
      * intros o k Hok. rewrite H2; [|intros Hin; apply Hok; by right]. subst h1. rewrite view_hset by done. apply upd_ne.
        intros [= -> ->]. by apply Hok; [left|].
Qed.
Print Assumptions C112_add.
(** Objects without the collection are not added to a many-to-many collection:
    this raises and changes nothing. *)
Theorem C112_add_many T f h x p q y ys : Wf h → pkind T h x p = Some (PManyMany q) → view h y (Priv q) = None →
  add T f (VRef x) p (VRef y :: ys) h = (inr AttributeError, h).
Proof.
  intros Hwf Hk Hy. unfold add. rewrite obj_prop_pkind, Hk. cbn [for_each]. apply bind_inr, bind_inr. unfold read_key.
  by rewrite (view_None_slot _ _ _ Hwf Hy).
Qed.
Print Assumptions C112_add_many.

(** Terminal 0 can be given a power flow as its connectivity node or as its
    topological node (the power flow has a single attribute Terminal, the
    topological node a collection), power flow 5 a connectivity node as its
    terminal; a connectivity node cannot be given power flows as terminals, a
    communication link not a terminal as its remote unit. *)
Example C112_example :
  Consistent cim14 g14 ∧
  pkind cim14 g14 0 n_ConnectivityNode = Some (POneMany n_Terminals) ∧ has_slot g14 0 n_ConnectivityNode ∧
  misfit g14 n_Terminals (VRef 4) AttributeError ∧
  pkind cim14 g14 0 n_TopologicalNode = Some (POneMany n_Terminal) ∧ has_slot g14 0 n_TopologicalNode ∧
  misfit g14 n_Terminal (VRef 4) TypeError ∧
  pkind cim14 g14 5 n_Terminal = Some (POneOne n_SvPowerFlow) ∧ has_slot g14 5 n_Terminal ∧ n_Terminal ≠ n_SvPowerFlow ∧
  key_of n_SvPowerFlow = Pub n_SvPowerFlow ∧ is_Some (cls_of g14 2) ∧ pkind cim14 g14 2 n_SvPowerFlow = None ∧
  pkind cim14 g14 2 n_Terminals = Some (PManyOne n_ConnectivityNode) ∧ pkind cim14 g14 4 n_ConnectivityNode = None ∧
  pkind cim14 g14 6 n_RemoteUnits = Some (PManyMany n_CommunicationLinks) ∧ view g14 0 (Priv n_CommunicationLinks) = None.
Proof.
  split; [exact g14_Consistent|]. split; [compute_now|]. split; [apply some_b_ok; compute_now|].
  split. { split; [apply some_b_ok; compute_now|]. left. split; compute_now. }
  split; [compute_now|]. split; [apply some_b_ok; compute_now|].
  split. { split; [apply some_b_ok; compute_now|]. right. exists (VRef 0). split; compute_now. }
  split; [compute_now|]. split; [apply some_b_ok; compute_now|]. split; [by apply str_eqb_neq|]. split; [compute_now|].
  split; [apply some_b_ok; compute_now|]. split; [compute_now|]. split; [compute_now|]. split; [compute_now|]. split; compute_now.
Qed.
(** An assignment that raises has changed the graph: the terminal has left its
    node. *)
Theorem C112_unchanged_refuted : ∃ h', setattr cim14 20 (VRef 0) n_ConnectivityNode (VRef 4) g14 = (inr AttributeError, h') ∧
  Consistent cim14 g14 ∧ view g14 2 (Priv n_Terminals) = Some (OL [VRef 0; VRef 1]) ∧ view h' 2 (Priv n_Terminals) = Some (OL [VRef 1]) ∧
  view h' 0 (Priv n_ConnectivityNode) = Some (OV (VRef 4)) ∧ ¬ Consistent cim14 h'.
Proof.
  destruct C112_example as (HC & Hk & Hs & Hm & _).
  destruct (C112_single cim14 19 g14 0 n_ConnectivityNode n_Terminals (VRef 4) AttributeError HC Hk Hs Hm) as (h' & E & _ & [B1 B2 _] & HN).
  exists h'. split; [exact E|]. split; [exact HC|]. split; [compute_now|]. split; [|split; [exact B1|exact HN]].
  rewrite (B2 2 [VRef 0; VRef 1]); [compute_now|compute_now|compute_now].
Qed.
Print Assumptions C112_unchanged_refuted.
