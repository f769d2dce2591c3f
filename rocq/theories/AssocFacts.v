(** Execution of the property methods: exact effects on the view of the heap. *)
From stdpp Require Import prelude gmap.
From Verif Require Import PyStr PyHeap Schema Assoc AssocSpec HeapFacts LinksFacts.

Section facts.
Context (S : schema).
Notation K := (pkind S).

Lemma getattr_coll h o q p' v :
  K h o q = Some (PManyOne p') → slot h o (Priv q) = Some v →
  getattr S (VRef o) q h = (inl v, h).
Proof.
  intros Hk Hs. unfold getattr. rewrite obj_prop_pkind, Hk. by apply read_key_ok.
Qed.
Lemma getattr_single h o p q v :
  K h o p = Some (POneMany q) → slot h o (Priv p) = Some v →
  getattr S (VRef o) p h = (inl v, h).
Proof.
  intros Hk Hs. unfold getattr. rewrite obj_prop_pkind, Hk. by apply read_key_ok.
Qed.

Ltac step1 E := rewrite (bind_inl _ _ _ _ _ E).

(** One-to-many, single end. *)
Section one_many.
Context (x : nat) (p q : name).

Definition sm_detach (V : nat → key → option ov) :=
  match V x (Priv p) with
  | Some (OV (VRef u)) =>
      match V u (Priv q) with
      | Some (OL xs) => upd V u (Priv q) (OL (without (VRef x) xs))
      | _ => V
      end
  | _ => V
  end.
Definition sm_attach (w : val) (V : nat → key → option ov) :=
  match w with
  | VRef t =>
      match V t (Priv q) with
      | Some (OL ys) => if decide (VRef x ∈ ys) then V else upd V t (Priv q) (OL (ys ++ [VRef x]))
      | _ => V
      end
  | _ => V
  end.

Definition coll_end (h : heap) (v : val) : Prop :=
  v = VNone ∨ ∃ t p' ys, v = VRef t ∧ K h t q = Some (PManyOne p') ∧ view h t (Priv q) = Some (OL ys).

Lemma set_one_many_exec w f h v :
  Wf h → K h x p = Some (POneMany q) → slot h x (Priv p) = Some v →
  coll_end h v → coll_end h w →
  ∃ h', setattr S (Datatypes.S f) (VRef x) p w h = (inl tt, h') ∧ Frame h h' ∧
    ∀ o k, view h' o k = sm_attach w (upd (sm_detach (view h)) x (Priv p) (OV w)) o k.
Proof.
  intros Hwf Hk Hs Hv Hw.
  assert (is_Some (cls_of h x)) as Hcx by (by eapply slot_cls).
  simpl. rewrite obj_prop_pkind, Hk.
  step1 (read_key_ok h x (Priv p) v Hs).
  (* detach *)
  set (det := if decide (v = VNone) then ret tt else _).
  assert (∃ h1, det h = (inl tt, h1) ∧ Frame h h1 ∧
     (∀ o k, view h1 o k = sm_detach (view h) o k)) as (h1 & E1 & HF1 & HV1).
  { subst det. destruct Hv as [->|(t & p' & xs & -> & Hkt & Hvt)].
    - exists h. rewrite decide_True by done. split_and!; [done|by apply Frame_refl|]. intros o k. unfold sm_detach.
      by rewrite (view_slot _ _ _ _ Hs).
    - rewrite decide_False by done.
      destruct (view_OL _ _ _ _ Hvt) as (l & Hsl & Hl).
      step1 (getattr_single h x p q (VRef t) Hk Hs).
      step1 (getattr_coll h t q p' (VList l) Hkt Hsl).
      erewrite (bind_inl (iter_val (VList l))); [|unfold iter_val; by rewrite Hl].
      erewrite (bind_inl (new_list _)); [|done]. cbv beta.
      assert (is_Some (cls_of h t)) as Hct by (by eapply slot_cls).
      rewrite write_key_ok by done. eexists; split_and!; [done| |].
      + by apply Frame_hnew.
      + intros o k. etransitivity; [by apply view_hnew|]. unfold sm_detach.
        by rewrite (view_slot _ _ _ _ Hs), Hvt. }
  step1 E1. clear det E1.
  assert (K h1 x p = Some (POneMany q)) as Hk1 by (by rewrite (Frame_pkind _ h)).
  assert (is_Some (cls_of h1 x)) as Hcx1 by (by rewrite (Frame_cls h)).
  pose proof (Frame_wf _ _ HF1) as Hwf1.
  erewrite (bind_inl (write_key _ _ _)); [|by apply write_key_ok].
  assert (is_vlist w = false) as Hwl by (destruct Hw as [->|(?&?&?&->&_)]; done).
  set (h2 := hset x (Priv p) w h1).
  assert (Frame h h2) as HF2.
  { eapply Frame_trans; [done|]. by apply Frame_hset. }
  pose proof (Frame_wf _ _ HF2) as Hwf2.
  assert (∀ o k, view h2 o k = upd (sm_detach (view h)) x (Priv p) (OV w) o k) as HV2.
  { intros o k. subst h2. rewrite (view_hset h1 x (Priv p) w o k Hcx1 Hwl). unfold upd. destruct (decide _); [done|apply HV1]. }
  erewrite (bind_inl (read_key _ _)); [|apply read_key_ok, slot_hset; done]. cbv beta.
  destruct Hw as [->|(t & p' & ys & -> & Hkt & Hvt)].
  { rewrite decide_True by done. exists h2. split_and!; [done..|]. intros o k. by rewrite HV2. }
  rewrite decide_False by done.
  assert ((t, Priv q) ≠ (x, Priv p)) as Hne.
  { intros [= -> ->]. congruence. }
  assert (∃ ys2, view h2 t (Priv q) = Some (OL ys2)) as [ys2 Hvt2].
  { rewrite HV2, upd_ne by done. unfold sm_detach.
    destruct (view h x (Priv p)) as [[[]|]|]; eauto.
    destruct (view h o (Priv q)) as [[]|]; eauto.
    unfold upd. destruct (decide _); eauto. }
  destruct (view_OL _ _ _ _ Hvt2) as (l & Hsl & Hl).
  step1 (read_key_ok h2 t (Priv q) _ Hsl).
  erewrite (bind_inl (contains _ _)); [|unfold contains; by rewrite Hl]. cbv beta.
  case_bool_decide as Hin.
  - exists h2. split_and!; [done..|]. intros o k. rewrite HV2. unfold sm_attach.
    rewrite <- (HV2 t (Priv q)), Hvt2. by rewrite decide_True.
  - eexists. unfold append. rewrite Hl. split_and!; [done|by eapply Frame_trans; [|eapply Frame_lset]|].
    intros o k. rewrite (view_lset h2 t (Priv q) l ys2) by done. unfold sm_attach.
    rewrite <- (HV2 t (Priv q)), Hvt2. rewrite decide_False by done.
    unfold upd at 1 2. destruct (decide _); [done|apply HV2].
Qed.
End one_many.

Lemma set_one_many_effect f h x p q v w :
  Consistent S h → K h x p = Some (POneMany q) → slot h x (Priv p) = Some v →
  (w = VNone ∨ ∃ t ys, w = VRef t ∧ ends_one_many (K h) x p t q ∧ view h t (Priv q) = Some (OL ys)) →
  ∃ h', setattr S (Datatypes.S f) (VRef x) p w h = (inl tt, h') ∧ Frame h h' ∧
    SetSingle (view h) (view h') x p q w.
Proof.
  intros [Hwf HL] Hk Hs Hw.
  assert (is_vlist v = false) as Hvl.
  { destruct v; try done. destruct (wf_lists h Hwf _ _ _ Hs) as [xs Hl].
    by destruct (lk_single _ _ HL _ _ _ _ Hk (view_list _ _ _ _ _ Hs Hl)) as [|(?&?&?&?)]. }
  pose proof (view_slot _ _ _ _ Hs Hvl) as Hvx.
  assert (coll_end q h v) as Hv.
  { destruct (lk_single _ _ HL _ _ _ _ Hk Hvx) as [[= ->]|(t&ys&[= ->]&(_&p'&?&?)&?&?)]; [by left|].
    right. eauto 10. }
  assert (coll_end q h w) as Hw'.
  { destruct Hw as [->|(t&ys&->&(_&p'&?&?)&?)]; [by left|]. right. eauto 10. }
  destruct (set_one_many_exec x p q w f h v Hwf Hk Hs Hv Hw') as (h' & E & HF & HV).
  exists h'. split_and!; try done. clear E Hw'.
  (* x is only in its owner's collection *)
  assert (∀ t ys, ends_one_many (K h) x p t q → view h t (Priv q) = Some (OL ys) →
     VRef x ∈ ys → v = VRef t) as Honly.
  { intros t ys (_ & p' & Hkt & Hr) Hvt Hin.
    destruct (lk_coll _ _ HL _ _ _ _ Hkt Hvt) as (? & [= <-] & _ & Hm).
    destruct (Hm _ Hin) as (x' & p2 & [= <-] & (Hk2 & p2' & Hkt2 & Hr2) & Hvx2).
    simplify_eq.
    assert (p2 = p) as ->.
    { destruct Hr as [[-> Hna]|[c Hc1]], Hr2 as [[-> Hna2]|[c2 Hc2]]; naive_solver. }
    rewrite Hvx in Hvx2. by simplify_eq. }
  assert (∀ t p', K h t q = Some (PManyOne p') → (t, Priv q) ≠ (x, Priv p)) as Hne.
  { intros t p' ? [= -> ->]. congruence. }
  split.
  - (* self *)
    rewrite HV. unfold sm_attach. destruct w; try (by rewrite upd_eq).
    destruct Hw as [|(t&ys&[= <-]&(_&p'&Hkt&_)&Hvt)]; [done|].
    rewrite (upd_ne _ x (Priv p)) by eauto.
    destruct (sm_detach x p q (view h) o (Priv q)) as [[]|]; try (by rewrite upd_eq).
    case_decide; [by rewrite upd_eq|].
    rewrite upd_ne, upd_eq; [done|]. by apply not_eq_sym; eauto.
  - intros t ys -> Hvt. destruct Hw as [|(t'&ys'&[= <-]&He&_)]; [done|].
    pose proof He as (_&p'&Hkt&_).
    rewrite HV. unfold sm_attach. rewrite (upd_ne _ x (Priv p)) by eauto.
    unfold sm_detach. rewrite Hvx.
    destruct Hv as [->|(u & pu & xs & -> & Hku & Hvu)].
    + assert (VRef x ∉ ys) by (intros Hin; discriminate (Honly _ _ He Hvt Hin)).
      rewrite Hvt. rewrite decide_False by done.
      rewrite upd_eq. do 3 f_equal. symmetry. by apply without_id.
    + rewrite Hvu. destruct (decide (t = u)) as [->|Htu].
      * rewrite upd_eq. simplify_eq. rewrite decide_False by (rewrite elem_of_without; naive_solver).
        by rewrite upd_eq.
      * rewrite (upd_ne _ u) by congruence. rewrite Hvt.
        assert (VRef x ∉ ys) by (intros Hin; pose proof (Honly _ _ He Hvt Hin); naive_solver).
        rewrite decide_False by done. rewrite upd_eq. do 3 f_equal. symmetry. by apply without_id.
  - intros u xs Hvu Hwu Hxs. rewrite Hvx in Hvu. simplify_eq.
    destruct Hv as [?|(u' & pu & xs' & [= <-] & Hku & Hvu)]; [done|].
    assert (xs' = xs) as -> by congruence.
    rewrite HV. unfold sm_attach.
    assert (∀ W, (∀ t, W t (Priv q) = upd (sm_detach x p q (view h)) x (Priv p) (OV w) t (Priv q)) →
      W u (Priv q) = Some (OL (without (VRef x) xs))) as Hgo.
    { intros W ->. rewrite upd_ne by eauto. unfold sm_detach. rewrite Hvx, Hvu. by rewrite upd_eq. }
    destruct w; try (by apply Hgo).
    destruct (upd _ x _ _ o (Priv q)) as [[]|]; try (by apply Hgo).
    case_decide; [by apply Hgo|]. rewrite upd_ne; [by apply Hgo|]. congruence.
  - intros o k Hne1 Hne2. rewrite HV. unfold sm_attach.
    assert (upd (sm_detach x p q (view h)) x (Priv p) (OV w) o k = view h o k) as Hgo.
    { rewrite upd_ne by done. unfold sm_detach. rewrite Hvx.
      destruct v; try done. destruct (view h o0 (Priv q)) as [[]|]; try done.
      rewrite upd_ne; [done|]. intros [= -> ->]. naive_solver. }
    destruct w; try done.
    destruct (upd _ x _ _ o0 (Priv q)) as [[]|]; try done.
    case_decide; [done|]. rewrite upd_ne; [done|]. intros [= -> ->]. naive_solver.
Qed.

(** One-to-one. *)
Lemma set_one_one_none f h y q p c :
  K h y q = Some (POneOne p) → slot h y (Priv q) = Some c →
  (c = VNone ∨ ∃ z, c = VRef z ∧ is_Some (cls_of h z)) →
  setattr S (Datatypes.S f) (VRef y) q VNone h =
    (inl tt, hset y (Priv q) VNone (match c with VRef z => hset z (Priv p) VNone h | _ => h end)).
Proof.
  intros Hk Hs Hc. assert (is_Some (cls_of h y)) as Hcy by (by eapply slot_cls).
  simpl. rewrite obj_prop_pkind, Hk. step1 (read_key_ok h y (Priv q) c Hs).
  destruct Hc as [->|(z & -> & Hz)].
  - rewrite decide_True by done. erewrite (bind_inl (ret tt)); [|done].
    erewrite (bind_inl (write_key _ _ _)); [|by apply write_key_ok].
    erewrite (bind_inl (read_key _ _)); [|apply read_key_ok, slot_hset; done]. cbv beta.
    by rewrite decide_True.
  - rewrite decide_False by done.
    erewrite (bind_inl (write_key _ _ _)); [|by apply write_key_ok].
    erewrite (bind_inl (write_key _ _ _)); [|by apply write_key_ok; rewrite cls_hset].
    erewrite (bind_inl (read_key _ _)); [|apply read_key_ok, slot_hset; by rewrite cls_hset].
    cbv beta. by rewrite decide_True.
Qed.

Lemma set_one_one_effect f h x p q v w :
  Consistent S h → p ≠ q → K h x p = Some (POneOne q) → slot h x (Priv p) = Some v →
  (w = VNone ∨ ∃ y c, w = VRef y ∧ ends_one_one (K h) x p y q ∧ slot h y (Priv q) = Some c) →
  ∃ h', setattr S (Datatypes.S (Datatypes.S f)) (VRef x) p w h = (inl tt, h') ∧
    Frame h h' ∧ SetPair (view h) (view h') x p q w.
Proof.
  intros [Hwf HL] Hpq Hk Hs Hw.
  assert (∀ o k v, slot h o k = Some v → (∃ p q, k = Priv p ∧ K h o p = Some (POneOne q)) →
    view h o k = Some (OV v) ∧ (v = VNone ∨ ∃ z, v = VRef z ∧ is_Some (cls_of h z))) as Hval.
  { intros o k v1 Hs1 (p1 & q1 & -> & Hk1).
    assert (is_vlist v1 = false) as Hvl.
    { destruct v1; try done. destruct (wf_lists h Hwf _ _ _ Hs1) as [xs Hl].
      by destruct (lk_one_one _ _ HL _ _ _ _ Hk1 (view_list _ _ _ _ _ Hs1 Hl)) as [|(?&?&?)]. }
    pose proof (view_slot _ _ _ _ Hs1 Hvl) as Hvx. split; [done|].
    destruct (lk_one_one _ _ HL _ _ _ _ Hk1 Hvx) as [[= ->]|(y&[= ->]&_&Hvy)]; [by left|].
    right. exists y. split; [done|]. by eapply view_Some_cls. }
  destruct (Hval _ _ _ Hs) as [Hvx Hv]; [by eauto|].
  assert (is_Some (cls_of h x)) as Hcx by (by eapply slot_cls).
  (* the two writes common to both cases *)
  set (h1 := match v with VRef u => hset u (Priv q) VNone h | _ => h end).
  set (V1 := match v with VRef u => upd (view h) u (Priv q) (OV VNone) | _ => view h end).
  assert (Frame h h1 ∧ (∀ o k, view h1 o k = V1 o k)) as (HF1 & HV1).
  { subst h1 V1. destruct Hv as [->|(u & -> & Hu)]; [done|]. split_and!.
    - by apply Frame_hset.
    - intros o k. by apply view_hset. }
  assert (is_vlist w = false) as Hwl.
  { by destruct Hw as [->|(?&?&->&_)]. }
  set (h2 := hset x (Priv p) w h1).
  set (V2 := upd V1 x (Priv p) (OV w)).
  pose proof (Frame_wf _ _ HF1) as Hwf1.
  assert (is_Some (cls_of h1 x)) as Hcx1 by (by rewrite (Frame_cls h)).
  assert (Frame h h2 ∧ (∀ o k, view h2 o k = V2 o k)) as (HF2 & HV2).
  { subst h2 V2. split_and!.
    - eapply Frame_trans; [done|]. by apply Frame_hset.
    - intros o k. rewrite (view_hset h1) by done. unfold upd. destruct (decide _); [done|apply HV1]. }
  assert (∃ h', setattr S (Datatypes.S (Datatypes.S f)) (VRef x) p w h =
     match w with
     | VRef y => (setattr S (Datatypes.S f) (VRef y) q VNone ;;;
                  let* now' := read_key (VRef x) (Priv p) in write_key now' (Priv q) (VRef x)) h2
     | _ => (inl tt, h') end ∧ (w = VNone → h' = h2)) as (h' & Eh & Eh').
  { exists h2. split; [|done]. remember (Datatypes.S f) as f1. simpl. rewrite obj_prop_pkind, Hk.
    step1 (read_key_ok h x (Priv p) v Hs).
    erewrite (bind_inl _ _ h tt h1); cycle 1.
    { subst h1. destruct Hv as [->|(u & -> & Hu)]; [done|]. rewrite decide_False by done.
      by rewrite write_key_ok. }
    erewrite (bind_inl (write_key _ _ _)); [|by apply write_key_ok].
    erewrite (bind_inl (read_key _ _)); [|apply read_key_ok, slot_hset; done]. cbv beta.
    fold h2. destruct Hw as [->|(y & c & -> & _)]; [by rewrite decide_True|].
    rewrite decide_False by done. done. }
  destruct Hw as [->|(y & c & -> & [Hkx Hky] & Hsy)].
  { exists h2. split_and!; try done.
    { rewrite Eh. by rewrite Eh'. }
    split.
    - rewrite HV2. apply upd_eq.
    - done.
    - intros u Hu _. rewrite Hvx in Hu. simplify_eq. rewrite HV2. subst V2 V1. simpl.
      rewrite upd_ne; [by rewrite upd_eq|]. congruence.
    - done.
    - intros o k Hn1 Hn2 _. rewrite HV2. subst V2 V1. rewrite upd_ne by done.
      destruct v; try done. rewrite upd_ne; [done|]. naive_solver. }
  clear Eh'. rewrite Eh. clear Eh h'.
  destruct (Hval _ _ _ Hsy) as [Hvy Hc]; [by eauto|].
  assert (is_Some (cls_of h y)) as Hcy by (by eapply slot_cls).
  (* y's partner at this point: None if y was already x's partner *)
  set (c2 := if decide (v = VRef y) then VNone else c).
  assert (slot h2 y (Priv q) = Some c2) as Hsy2.
  { subst h2 h1 c2. rewrite slot_hset_ne by congruence.
    case_decide as Hvy2; [subst v; by apply slot_hset|].
    destruct v; try done. rewrite slot_hset_ne; [done|]. congruence. }
  assert (c2 = VNone ∨ ∃ z, c2 = VRef z ∧ z ≠ x ∧ c = VRef z ∧ is_Some (cls_of h z)) as Hc2'.
  { subst c2. case_decide as Hvy2; [by left|].
    destruct Hc as [->|(z & -> & Hz)]; [by left|]. right. exists z. split_and!; try done.
    intros ->. destruct (lk_one_one _ _ HL _ _ _ _ Hky Hvy) as [|(x' & [= <-] & _ & Hvx')]; [done|].
    rewrite Hvx in Hvx'. naive_solver. }
  assert (K h2 y q = Some (POneOne p)) as Hky2 by (by rewrite (Frame_pkind _ h)).
  pose proof (Frame_wf _ _ HF2) as Hwf2.
  erewrite bind_inl; cycle 1.
  { apply (set_one_one_none f h2 y q p c2 Hky2 Hsy2).
    destruct Hc2' as [->|(z & -> & _ & _ & ?)]; [by left|right]. exists z. by rewrite (Frame_cls h). }
  set (h3 := match c2 with VRef z => hset z (Priv p) VNone h2 | _ => h2 end).
  set (V3 := match c2 with VRef z => upd V2 z (Priv p) (OV VNone) | _ => V2 end).
  assert (Frame h h3 ∧ (∀ o k, view h3 o k = V3 o k) ∧
    slot h3 x (Priv p) = Some (VRef y)) as (HF3 & HV3 & Hs3).
  { subst h3 V3. destruct Hc2' as [->|(z & -> & Hzx & -> & Hz)].
    - split_and!; try done. by apply slot_hset.
    - assert (is_Some (cls_of h2 z)) by (by rewrite (Frame_cls h)). split_and!.
      + eapply Frame_trans; [done|]. by apply Frame_hset.
      + intros o k. rewrite (view_hset h2) by done. unfold upd at 1 2. destruct (decide _); [done|apply HV2].
      + rewrite slot_hset_ne by congruence. by apply slot_hset. }
  pose proof (Frame_wf _ _ HF3) as Hwf3.
  assert (is_Some (cls_of h3 y)) as Hcy3 by (by rewrite (Frame_cls h)).
  erewrite (bind_inl (read_key _ _)); cycle 1.
  { apply read_key_ok. rewrite slot_hset_ne by congruence. done. }
  cbv beta. rewrite write_key_ok by (by rewrite cls_hset).
  eexists. split; [done|].
  assert (Wf (hset y (Priv q) VNone h3)) as Hwf4 by (by apply wf_hset).
  split.
  { eapply Frame_trans; [|apply Frame_hset; [done|by rewrite cls_hset|done]].
    eapply Frame_trans; [done|by apply Frame_hset]. }
  assert (∀ o k, view (hset y (Priv q) (VRef x) (hset y (Priv q) VNone h3)) o k =
    upd V3 y (Priv q) (OV (VRef x)) o k) as HV4.
  { intros o k. rewrite view_hset by (done || by rewrite cls_hset).
    apply upd_ext. intros Hn. rewrite view_hset by done. by rewrite upd_ne. }
  set (V5 := view (hset _ _ _ _)) in *. clearbody V5.
  assert (∀ o k, (o, k) ≠ (y, Priv q) → (∀ z, c2 = VRef z → (o, k) ≠ (z, Priv p)) →
    V5 o k = V2 o k) as H52.
  { intros o k H1 H2. rewrite HV4, upd_ne by done. subst V3. destruct c2; try done.
    rewrite upd_ne by naive_solver. done. }
  split.
  - rewrite H52; [|congruence|]; [by apply upd_eq|].
    intros z Hz. destruct Hc2' as [|(? & ? & ? & ? & ?)]; congruence.
  - intros ? [= <-]. by rewrite HV4, upd_eq.
  - intros u Hu Hwu. rewrite Hvx in Hu. simplify_eq.
    rewrite H52; [|congruence|congruence]. subst V2 V1. simpl.
    rewrite upd_ne by congruence. by rewrite upd_eq.
  - intros ? z [= <-] Hvyz Hzx. rewrite Hvy in Hvyz. simplify_eq.
    assert (c2 = VRef z) as E2.
    { subst c2. rewrite decide_False; [done|]. intros ->.
      destruct (lk_one_one _ _ HL _ _ _ _ Hk Hvx) as [|(y' & [= <-] & _ & Hvy')]; [done|].
      rewrite Hvy in Hvy'. congruence. }
    rewrite HV4, upd_ne by congruence. subst V3. rewrite E2. by rewrite upd_eq.
  - intros o k H1 H2 H3. rewrite H52.
    + subst V2 V1. rewrite upd_ne by done. destruct v; try done.
      rewrite upd_ne; [done|]. intros [= -> ->]. naive_solver.
    + naive_solver.
    + intros z Hz [= -> ->]. eapply H3; [done..|].
      destruct Hc2' as [?|(? & ? & ? & -> & ?)]; [congruence|]. rewrite Hvy. congruence.
Qed.

(** Setting the single end through the name the collection uses for it. *)
Lemma setattr_resolves f h x p' p q w :
  resolves (K h) x p' p → K h x p = Some (POneMany q) →
  ∃ f', setattr S (Datatypes.S (Datatypes.S f)) (VRef x) p' w h =
        setattr S (Datatypes.S f') (VRef x) p w h.
Proof.
  intros [[-> _]|[c Hc]] Hk; [by eexists|]. exists f.
  cbn [setattr]. by rewrite !obj_prop_pkind, Hc.
Qed.

Lemma Consistent_SetSingle h h' x p q v w :
  Consistent S h → K h x p = Some (POneMany q) → slot h x (Priv p) = Some v →
  (w = VNone ∨ ∃ t ys, w = VRef t ∧ ends_one_many (K h) x p t q ∧ view h t (Priv q) = Some (OL ys)) →
  Frame h h' → SetSingle (view h) (view h') x p q w → Consistent S h'.
Proof.
  intros [Hwf HL] Hk Hs Hw HF HS. split; [by eapply Frame_wf|].
  apply (Links_ext (K h) _ (view h') _); [intros; symmetry; by apply Frame_pkind|done|].
  assert (∃ w0, view h x (Priv p) = Some w0) as [w0 ?].
  { destruct (view h x (Priv p)) eqn:E; [by eauto|]. apply view_None_slot in E; [congruence|done]. }
  by eapply Links_SetSingle.
Qed.

Lemma Consistent_SetPair h h' x p q v w :
  Consistent S h → p ≠ q → K h x p = Some (POneOne q) → slot h x (Priv p) = Some v →
  (w = VNone ∨ ∃ y c, w = VRef y ∧ ends_one_one (K h) x p y q ∧ slot h y (Priv q) = Some c) →
  Frame h h' → SetPair (view h) (view h') x p q w → Consistent S h'.
Proof.
  intros [Hwf HL] Hpq Hk Hs Hw HF HS. split; [by eapply Frame_wf|].
  apply (Links_ext (K h) _ (view h') _); [intros; symmetry; by apply Frame_pkind|done|].
  assert (∀ o k v, slot h o k = Some v → ∃ w0, view h o k = Some w0) as Hv.
  { intros o k v1 ?. destruct (view h o k) eqn:E; [by eauto|]. apply view_None_slot in E; [congruence|done]. }
  destruct (Hv _ _ _ Hs) as [w0 ?].
  eapply Links_SetPair; [done..| |done].
  destruct Hw as [->|(y & c & -> & ? & Hc)]; [by left|right].
  destruct (Hv _ _ _ Hc). eauto 10.
Qed.

(** Detaching every member of a collection. *)
Lemma ends_same h h' x p t q : Frame h h' → ends_one_many (K h') x p t q ↔ ends_one_many (K h) x p t q.
Proof.
  intros HF. unfold ends_one_many, resolves. rewrite !(Frame_pkind _ h h') by done.
  split; intros (? & p' & ? & Hr); (split; [done|]); exists p'; rewrite (Frame_pkind _ h h') in * by done;
    (split; [done|]); destruct Hr as [[-> Hr]|[c Hr]];
    [left|right|left|right]; try setoid_rewrite (Frame_pkind _ h h') in Hr; try setoid_rewrite (Frame_pkind _ h h'); eauto.
Qed.

Lemma detach_all f t q p' rest : ∀ h,
  Consistent S h → K h t q = Some (PManyOne p') → view h t (Priv q) = Some (OL rest) →
  ∃ h', for_each rest (λ x, setattr S (Datatypes.S (Datatypes.S f)) x p' VNone) h = (inl tt, h') ∧
    Frame h h' ∧ Consistent S h' ∧ view h' t (Priv q) = Some (OL []) ∧
    (∀ z pz, VRef z ∈ rest → ends_one_many (K h) z pz t q → view h' z (Priv pz) = Some (OV VNone)) ∧
    (∀ o k, (o, k) ≠ (t, Priv q) →
       (∀ pz, k = Priv pz → VRef o ∈ rest → ¬ ends_one_many (K h) o pz t q) →
       view h' o k = view h o k).
Proof.
  induction rest as [|y rest IH]; intros h HC Hk Hv.
  { exists h. split_and!; try done. apply Frame_refl, HC. intros z pz []%not_elem_of_nil. }
  pose proof HC as [Hwf HL].
  destruct (lk_coll _ _ HL _ _ _ _ Hk Hv) as (? & [= <-] & Hnd & Hm).
  destruct (Hm y) as (x & p & -> & He & Hvx); [by left|].
  pose proof He as (Hkx & p2 & Hk2 & Hr). assert (p2 = p') as -> by congruence.
  destruct (setattr_resolves f h x p' p q VNone Hr Hkx) as [f' Ef].
  destruct (set_one_many_effect f' h x p q (VRef t) VNone) as (h1 & E1 & HF1 & HS1);
    [done|done|by apply view_OV|by left|].
  assert (Consistent S h1) as HC1.
  { eapply Consistent_SetSingle; [done..|by apply view_OV|by left|done|done]. }
  apply NoDup_cons in Hnd as [Hni Hnd].
  assert (view h1 t (Priv q) = Some (OL rest)) as Hv1.
  { rewrite (ss_old _ _ _ _ _ _ HS1 t (VRef x :: rest)) by done.
    rewrite filter_cons_False by naive_solver. fold (without (VRef x) rest). by rewrite without_id. }
  destruct (IH h1) as (h2 & E2 & HF2 & HC2 & Hv2 & Hold & Hfr); [done|by rewrite (Frame_pkind _ h)|done|].
  exists h2. split_and!.
  - cbn [for_each]. erewrite bind_inl; [|rewrite Ef; exact E1]. done.
  - by eapply Frame_trans.
  - done.
  - done.
  - intros z pz Hz Hez. destruct (decide (VRef z ∈ rest)) as [Hzr|Hzr].
    + apply Hold; [done|]. by apply (ends_same h h1).
    + apply elem_of_cons in Hz as [[= ->]|?]; [|done].
      assert (pz = p) as -> by (by eapply ends_fun).
      rewrite Hfr; [by apply (ss_self _ _ _ _ _ _ HS1)| |].
      * intros [= -> ->]. congruence.
      * by intros ? [= <-] ?.
  - intros o k Hne Hno. rewrite Hfr; [|done|].
    + apply (ss_frame _ _ _ _ _ _ HS1).
      * intros [= -> ->]. eapply Hno; [done|by left|done].
      * intros ->. split; [done|]. rewrite Hvx. congruence.
    + intros pz -> Hin Hez. eapply Hno; [done|by right|]. by apply (ends_same h h1).
Qed.

Lemma assign_all p t ys : ∀ h,
  Wf h → (∀ y, y ∈ ys → is_Some (cls_of h y)) →
  ∃ h', for_each (map VRef ys) (λ y, write_key y (Priv p) (VRef t)) h = (inl tt, h') ∧ Frame h h' ∧
    ∀ o k, view h' o k = if decide (o ∈ ys ∧ k = Priv p) then Some (OV (VRef t)) else view h o k.
Proof.
  induction ys as [|y ys IH]; intros h Hwf Hc.
  { exists h. split_and!; [done|by apply Frame_refl|]. intros o k.
    rewrite decide_False; [done|]. intros [[]%not_elem_of_nil _]. }
  assert (is_Some (cls_of h y)) as Hy by (apply Hc; by left).
  destruct (IH (hset y (Priv p) (VRef t) h)) as (h' & E & HF & HV).
  { by apply wf_hset. }
  { intros z Hz. rewrite cls_hset. apply Hc. by right. }
  exists h'. split_and!.
  - cbn [for_each map]. erewrite bind_inl; [|by apply write_key_ok]. done.
  - eapply Frame_trans; [|done]. by apply Frame_hset.
  - intros o k. rewrite HV, view_hset by done. unfold upd.
    destruct (decide (o ∈ ys ∧ k = Priv p)) as [[? ->]|H1].
    + rewrite decide_True; [done|]. split; [by right|done].
    + destruct (decide (o = y ∧ k = Priv p)) as [[-> ->]|H2].
      * rewrite decide_True; [done|]. split; [by left|done].
      * rewrite decide_False; [done|]. intros [[->|?]%elem_of_cons ->]; naive_solver.
Qed.

Lemma set_many_one_effect f h t q p v l ys :
  Consistent S h → K h t q = Some (PManyOne p) → slot h t (Priv q) = Some v →
  h_lists h !! l = Some (map VRef ys) → loose h l →
  (∀ y, y ∈ ys → K h y p = Some (POneMany q)) →
  ∃ h', setattr S (Datatypes.S (Datatypes.S (Datatypes.S f))) (VRef t) q (VList l) h = (inl tt, h') ∧
    Frame_but l h h' ∧ SetColl (K h) (view h) (view h') t q p ys.
Proof.
  intros HC Hk Hs Hl Hlo Hys. pose proof HC as [Hwf HL].
  assert (is_Some (cls_of h t)) as Hct by (by eapply slot_cls).
  assert (∃ xs l0, view h t (Priv q) = Some (OL xs) ∧ v = VList l0 ∧ h_lists h !! l0 = Some xs)
    as (xs & l0 & Hv & -> & Hl0).
  { destruct (view h t (Priv q)) as [w|] eqn:E; cycle 1.
    { apply view_None_slot in E; [congruence|done]. }
    destruct (lk_coll _ _ HL _ _ _ _ Hk E) as (xs & -> & _).
    destruct (view_OL _ _ _ _ E) as (l0 & ? & ?). exists xs, l0. split_and!; congruence. }
  destruct (detach_all f t q p xs h HC Hk Hv) as (h1 & E1 & HF1 & HC1 & Hv1 & Hold1 & Hfr1).
  pose proof (Frame_wf _ _ HF1) as Hwf1.
  destruct (assign_all p t ys h1 Hwf1) as (h2 & E2 & HF2 & HV2).
  { intros y Hy. rewrite (Frame_cls h) by done. specialize (Hys y Hy). unfold pkind in Hys.
    destruct (cls_of h y); [by eauto|done]. }
  pose proof (Frame_wf _ _ HF2) as Hwf2.
  assert (h_lists h1 !! l = Some (map VRef ys) ∧ loose h1 l) as [Hl1 Hlo1].
  { destruct HF1 as (_ & _ & HK). by apply HK. }
  assert (h_lists h2 !! l = Some (map VRef ys) ∧ loose h2 l) as [Hl2 Hlo2].
  { destruct HF2 as (_ & _ & HK). by apply HK. }
  assert (is_Some (cls_of h2 t)) as Hct2.
  { rewrite (Frame_cls h1), (Frame_cls h); done. }
  exists (hset t (Priv q) (VList l) h2).
  assert (∀ o k, view (hset t (Priv q) (VList l) h2) o k =
     upd (λ o k, if decide (o ∈ ys ∧ k = Priv p) then Some (OV (VRef t)) else view h1 o k)
         t (Priv q) (OL (map VRef ys)) o k) as HV3.
  { intros o k. erewrite view_hset_list by done. apply upd_ext. intros _. apply HV2. }
  split_and!.
  - remember (Datatypes.S (Datatypes.S f)) as f2. cbn [setattr]. rewrite obj_prop_pkind, Hk.
    step1 (read_key_ok h t (Priv q) _ Hs).
    erewrite (bind_inl (iter_val (VList l0))); [|unfold iter_val; by rewrite Hl0].
    step1 E1.
    erewrite (bind_inl (iter_val (VList l))); [|unfold iter_val; by rewrite Hl1].
    step1 E2. by rewrite write_key_ok.
  - eapply Frame_Frame_but; [|by eapply Frame_but_hset]. by eapply Frame_trans.
  - assert (∀ y pz, K h y pz = Some (POneMany q) → (y, Priv pz) ≠ (t, Priv q)) as Hne.
    { intros y pz ? [= -> ->]. congruence. }
    split.
    + by rewrite HV3, upd_eq.
    + intros y Hy. rewrite HV3, upd_ne by eauto. by rewrite decide_True.
    + intros xs' z pz Hxs' Hz Hzy Hez. simplify_eq. pose proof Hez as [Hkz _].
      rewrite HV3, upd_ne by eauto. rewrite decide_False by naive_solver. by apply Hold1.
    + intros o k Hn1 Hn2 Hn3. rewrite HV3, upd_ne by done. rewrite decide_False by naive_solver.
      apply Hfr1; [done|]. intros pz -> Hin. by eapply Hn3.
Qed.

(** Many-to-many. *)
Lemma add_many_many_exec f h x p q y ps qs :
  Wf h → p ≠ q → K h x p = Some (PManyMany q) →
  view h x (Priv p) = Some (OL ps) → view h y (Priv q) = Some (OL qs) →
  ∃ h', add S f (VRef x) p [VRef y] h = (inl tt, h') ∧ Frame h h' ∧
    AddMany (view h) (view h') x p y q.
Proof.
  intros Hwf Hpq Hk Hvx Hvy.
  destruct (view_OL _ _ _ _ Hvx) as (lp & Hsx & Hlp).
  destruct (view_OL _ _ _ _ Hvy) as (lq & Hsy & Hlq).
  assert (lp ≠ lq) as Hne.
  { intros ->. destruct (wf_unshared _ Hwf _ _ _ _ _ Hsx Hsy). congruence. }
  assert ((x, Priv p) ≠ (y, Priv q)) as Hne2 by congruence.
  unfold add. rewrite obj_prop_pkind, Hk. cbn [for_each].
  set (h1 := if decide (VRef x ∈ qs) then h else lset lq (qs ++ [VRef x]) h).
  assert (Frame h h1 ∧ (∀ o k, view h1 o k = upd (view h) y (Priv q)
     (OL (if decide (VRef x ∈ qs) then qs else qs ++ [VRef x])) o k) ∧
     slot h1 x (Priv p) = Some (VList lp) ∧ h_lists h1 !! lp = Some ps) as (HF1 & HV1 & Hs1 & Hl1).
  { subst h1. case_decide; split_and!; try done.
    - intros o k. unfold upd. case_decide as Hd; [|done]. by destruct Hd as [-> ->].
    - by eapply Frame_lset.
    - intros o k. by eapply view_lset.
    - by rewrite lists_lset_ne. }
  pose proof (Frame_wf _ _ HF1) as Hwf1.
  exists (lset lp (ps ++ [VRef y]) h1). split_and!.
  - rewrite (bind_inl _ _ _ tt (lset lp (ps ++ [VRef y]) h1)); [done|].
    step1 (read_key_ok h y (Priv q) _ Hsy).
    erewrite (bind_inl (contains _ _)); [|unfold contains; by rewrite Hlq]. cbv beta.
    rewrite (bind_inl _ _ _ tt h1); cycle 1.
    { subst h1. case_bool_decide; case_decide; try done. unfold append. by rewrite Hlq. }
    step1 (read_key_ok h1 x (Priv p) _ Hs1). unfold append. by rewrite Hl1.
  - eapply Frame_trans; [done|]. by eapply Frame_lset.
  - assert (∀ o k, view (lset lp (ps ++ [VRef y]) h1) o k =
      upd (view h1) x (Priv p) (OL (ps ++ [VRef y])) o k) as HV2.
    { intros o k. by eapply view_lset. }
    split.
    + intros ps' ?. simplify_eq. by rewrite HV2, upd_eq.
    + intros qs' ?. simplify_eq. rewrite HV2, upd_ne, HV1 by congruence. by rewrite upd_eq.
    + intros o k ? ?. by rewrite HV2, upd_ne, HV1, upd_ne by done.
Qed.

Lemma remove_first_Some e xs : e ∈ xs → ∃ a b, xs = a ++ e :: b ∧ e ∉ a ∧ remove_first e xs = Some (a ++ b).
Proof.
  induction xs as [|x xs IH]; [by intros []%not_elem_of_nil|]. intros Hin. simpl.
  destruct (decide (x = e)) as [->|Hne].
  - exists [], xs. split_and!; try done. by apply not_elem_of_nil.
  - apply elem_of_cons in Hin as [->|Hin]; [done|].
    destruct (IH Hin) as (a & b & -> & Hna & ->). exists (x :: a), b. split_and!; try done.
    by apply not_elem_of_cons.
Qed.
Lemma remove_first_None e xs : e ∉ xs → remove_first e xs = None.
Proof.
  induction xs as [|x xs IH]; [done|]. intros [? ?]%not_elem_of_cons. simpl.
  rewrite decide_False by done. by rewrite IH.
Qed.

Lemma remove_many_many_exec f h x p q y ps qs :
  Wf h → p ≠ q → K h x p = Some (PManyMany q) →
  view h x (Priv p) = Some (OL ps) → view h y (Priv q) = Some (OL qs) →
  VRef y ∈ ps → VRef x ∈ qs →
  ∃ h', remove S f (VRef x) p [VRef y] h = (inl tt, h') ∧ Frame h h' ∧
    RemoveMany (view h) (view h') x p y q.
Proof.
  intros Hwf Hpq Hk Hvx Hvy Hyp Hxq.
  destruct (view_OL _ _ _ _ Hvx) as (lp & Hsx & Hlp).
  destruct (view_OL _ _ _ _ Hvy) as (lq & Hsy & Hlq).
  assert (lp ≠ lq) as Hne.
  { intros ->. destruct (wf_unshared _ Hwf _ _ _ _ _ Hsx Hsy). congruence. }
  assert ((x, Priv p) ≠ (y, Priv q)) as Hne2 by congruence.
  destruct (remove_first_Some _ _ Hyp) as (a & b & -> & Hna & Ep).
  destruct (remove_first_Some _ _ Hxq) as (a2 & b2 & -> & Hna2 & Eq).
  unfold remove. rewrite obj_prop_pkind, Hk. cbn [for_each].
  set (h1 := lset lq (a2 ++ b2) h).
  assert (Wf h1) as Hwf1 by (by apply wf_lset).
  assert (∀ o k, view h1 o k = upd (view h) y (Priv q) (OL (a2 ++ b2)) o k) as HV1.
  { intros o k. by eapply view_lset. }
  assert (h_lists h1 !! lp = Some (a ++ VRef y :: b)) as Hl1 by (by subst h1; rewrite lists_lset_ne).
  assert (∀ o k, view (lset lp (a ++ b) h1) o k = upd (view h1) x (Priv p) (OL (a ++ b)) o k) as HV2.
  { intros o k. by eapply view_lset. }
  exists (lset lp (a ++ b) h1). split_and!.
  - rewrite (bind_inl _ _ _ tt (lset lp (a ++ b) h1)); [done|].
    step1 (read_key_ok h y (Priv q) _ Hsy).
    erewrite (bind_inl (contains _ _)); [|unfold contains; by rewrite Hlq]. cbv beta.
    rewrite bool_decide_eq_true_2 by done.
    rewrite (bind_inl _ _ _ tt h1); cycle 1.
    { step1 (read_key_ok h y (Priv q) _ Hsy). unfold list_remove. by rewrite Hlq, Eq. }
    step1 (read_key_ok h1 x (Priv p) _ Hsx). unfold list_remove. by rewrite Hl1, Ep.
  - eapply Frame_trans; by eapply Frame_lset.
  - split.
    + exists a, b. split_and!; try done. by rewrite HV2, upd_eq.
    + exists a2, b2. split_and!; try done. rewrite HV2, upd_ne, HV1 by congruence. by rewrite upd_eq.
    + intros o k ? ?. by rewrite HV2, upd_ne, HV1, upd_ne by done.
Qed.

Lemma remove_many_many_absent f h x p q y ps qs :
  K h x p = Some (PManyMany q) →
  view h x (Priv p) = Some (OL ps) → view h y (Priv q) = Some (OL qs) →
  VRef y ∉ ps → VRef x ∉ qs →
  remove S f (VRef x) p [VRef y] h = (inr ValueError, h).
Proof.
  intros Hk Hvx Hvy Hyp Hxq.
  destruct (view_OL _ _ _ _ Hvx) as (lp & Hsx & Hlp).
  destruct (view_OL _ _ _ _ Hvy) as (lq & Hsy & Hlq).
  unfold remove. rewrite obj_prop_pkind, Hk. cbn [for_each].
  erewrite bind_inr; [done|].
  step1 (read_key_ok h y (Priv q) _ Hsy).
  erewrite (bind_inl (contains _ _)); [|unfold contains; by rewrite Hlq]. cbv beta.
  rewrite bool_decide_eq_false_2 by done.
  erewrite (bind_inl (ret tt)); [|done].
  step1 (read_key_ok h x (Priv p) _ Hsx). unfold list_remove. by rewrite Hlp, remove_first_None.
Qed.

(** Attributes without a property. *)
Lemma set_plain f h x n w :
  K h x n = None → is_Some (cls_of h x) →
  setattr S (Datatypes.S f) (VRef x) n w h = (inl tt, hset x (key_of n) w h).
Proof. intros Hk Hc. cbn [setattr]. rewrite obj_prop_pkind, Hk. by apply write_key_ok. Qed.
End facts.
