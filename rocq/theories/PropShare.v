(** Assigning the collection of one object to another object. *)
From Coq Require Import String Lia.
From stdpp Require Import prelude gmap.
From Verif Require Import PyStr PyHeap Schema Assoc AssocSpec HeapFacts LinksFacts AssocFacts AddRemoveFacts
  CtorFacts History HistorySpec HistoryFacts GraphCheck AdmCheck AssocExtra Names TabCIM14 TabCIM15 TabProfiles Tables
  TableSpec TableFacts ImpedanceFacts Demo PropAssoc FrameFacts LiveFacts.

Ltac step1 E := rewrite (bind_inl _ _ _ _ _ E).

(** [x.p = None] for a member x of t.q writes no collection of another object. *)
Lemma clear_slot T f h x p q t u l :
  pkind T h x p = Some (POneMany q) → slot h x (Priv p) = Some (VRef t) → t ≠ u → slot h u (Priv q) = Some (VList l) →
  slot (snd (setattr T (S f) (VRef x) p VNone h)) u (Priv q) = Some (VList l).
Proof.
  intros Hk Hs Hne Hu. set (I h := slot h u (Priv q) = Some (VList l)). set (W o k := (o, k) ≠ (u, Priv q)).
  assert (∀ o k v h, I h → W o k → I (hset o k v h)) as HW.
  { intros o k v h' HI Hw. unfold I. by rewrite slot_hset_ne. }
  assert (∀ l xs h, I h → I (lset l xs h)) as HL by done.
  assert ((x, Priv p) ≠ (u, Priv q)) as Hxu by congruence.
  cbn [setattr]. rewrite obj_prop_pkind, Hk. step1 (read_key_ok h x (Priv p) _ Hs).
  assert (pres I ((if decide (VRef t = VNone) then ret tt else
              let* own := getattr T (VRef x) p in
              let* lst := getattr T own q in
              let* xs := iter_val lst in
              let* filtered := new_list (without (VRef x) xs) in
              write_key (VRef t) (Priv q) filtered) ;;;
           write_key (VRef x) (Priv p) VNone ;;;
           let* now := read_key (VRef x) (Priv p) in
           if decide (now = VNone) then ret tt else
             let* lst := read_key now (Priv q) in
             let* b := contains (VRef x) lst in
             if b : bool then ret tt else append lst (VRef x))) as Hp; [|by apply Hp].
  apply pres_bind.
  { rewrite decide_False by done. apply pres_bind; [apply pres_getattr|intros own]. apply pres_bind; [apply pres_getattr|intros lst].
    apply pres_bind; [apply pres_iter|intros xs]. apply pres_bind; [by apply pres_new_list|intros fl].
    apply (pres_write I W HW). intros o [= <-]. unfold W. congruence. }
  intros _. apply pres_bind; [apply (pres_write I W HW); by intros o [= <-]|intros _].
  apply pres_bind; [apply pres_read|intros now]. destruct (decide (now = VNone)); [apply pres_ret|].
  apply pres_bind; [apply pres_read|intros lst]. apply pres_bind; [apply pres_contains|intros []]; [apply pres_ret|by apply pres_append].
Qed.
Lemma detach_slot T f t q p' u l : t ≠ u → ∀ rest h,
  Consistent T h → pkind T h t q = Some (PManyOne p') → view h t (Priv q) = Some (OL rest) → slot h u (Priv q) = Some (VList l) →
  slot (snd (for_each rest (λ x, setattr T (S (S f)) x p' VNone) h)) u (Priv q) = Some (VList l).
Proof.
  intros Hne. induction rest as [|y rest IH]; intros h HC Hk Hv Hu; [done|].
  pose proof HC as [Hwf HL].
  destruct (lk_coll _ _ HL _ _ _ _ Hk Hv) as (? & [= <-] & Hnd & Hm).
  destruct (Hm y) as (x & p & -> & He & Hvx); [by left|].
  pose proof He as (Hkx & p2 & Hk2 & Hr). assert (p2 = p') as -> by congruence.
  destruct (setattr_resolves T f h x p' p q VNone Hr Hkx) as [f' Ef].
  destruct (set_one_many_effect T f' h x p q (VRef t) VNone) as (h1 & E1 & HF1 & HS1);
    [done|done|by apply view_OV|by left|].
  assert (Consistent T h1) as HC1.
  { eapply Consistent_SetSingle; [done..|by apply view_OV|by left|done|done]. }
  apply NoDup_cons in Hnd as [Hni Hnd].
  assert (view h1 t (Priv q) = Some (OL rest)) as Hv1.
  { rewrite (ss_old _ _ _ _ _ _ HS1 t (VRef x :: rest)) by done.
    rewrite filter_cons_False by naive_solver. fold (without (VRef x) rest). by rewrite without_id. }
  assert (slot h1 u (Priv q) = Some (VList l)) as Hu1.
  { pose proof (clear_slot T f' h x p q t u l Hkx (view_OV _ _ _ _ Hvx) Hne Hu) as Hc. by rewrite E1 in Hc. }
  cbn [for_each]. erewrite bind_inl; [|rewrite Ef; exact E1]. apply IH; [done|by rewrite (Frame_pkind _ h)|done..].
Qed.

(** *** C100 *)
(** [t.Q = u.Q] for collections of a one-to-many association: t.Q becomes the
    very list of u, and u keeps it. *)
Theorem C100_one T f h t u q p l ys :
  Consistent T h → t ≠ u → pkind T h t q = Some (PManyOne p) → has_slot h t q →
  pkind T h u q = Some (PManyOne p) → view h u (Priv q) = Some (OL (map VRef ys)) → slot h u (Priv q) = Some (VList l) →
  (∀ y, y ∈ ys → pkind T h y p = Some (POneMany q)) →
  ∃ h', (let* w := getattr T (VRef u) q in setattr T (S (S (S f))) (VRef t) q w) h = (inl tt, h') ∧ same_classes h h' ∧
    slot h' t (Priv q) = Some (VList l) ∧ slot h' u (Priv q) = Some (VList l) ∧
    SetColl (pkind T h) (view h) (view h') t q p ys.
Proof.
  intros HC Htu Hk [v Hv] Hku Hvu Hsu Hys. pose proof HC as [Hwf HL].
  assert (h_lists h !! l = Some (map VRef ys)) as Hl.
  { destruct (view_OL _ _ _ _ Hvu) as (l' & ? & ?). congruence. }
  assert (is_Some (cls_of h t)) as Hct by (by eapply slot_cls).
  assert (∃ xs l0, view h t (Priv q) = Some (OL xs) ∧ v = VList l0 ∧ h_lists h !! l0 = Some xs)
    as (xs & l0 & Hvt & -> & Hl0).
  { destruct (view h t (Priv q)) as [w|] eqn:E; cycle 1.
    { apply view_None_slot in E; [congruence|done]. }
    destruct (lk_coll _ _ HL _ _ _ _ Hk E) as (xs & -> & _).
    destruct (view_OL _ _ _ _ E) as (l0 & ? & ?). exists xs, l0. split_and!; congruence. }
  destruct (detach_all T f t q p xs h HC Hk Hvt) as (h1 & E1 & HF1 & HC1 & Hv1 & Hold1 & Hfr1).
  pose proof (Frame_wf _ _ HF1) as Hwf1.
  assert (h_lists h1 !! l = Some (map VRef ys)) as Hl1.
  { pose proof (kept_for_each xs (λ x, setattr T (S (S f)) x p VNone) (λ x, kept_set_None T _ x p) h l _ Hl) as Hkp.
    by rewrite E1 in Hkp. }
  assert (slot h1 u (Priv q) = Some (VList l)) as Hu1.
  { pose proof (detach_slot T f t q p u l Htu xs h HC Hk Hvt Hsu) as Hd. by rewrite E1 in Hd. }
  assert (∀ y, y ∈ ys → is_Some (cls_of h y)) as Hcl.
  { intros y Hy. pose proof (Hys y Hy) as Hky. unfold pkind in Hky. destruct (cls_of h y); [by eauto|done]. }
  destruct (assign_all p t ys h1 Hwf1) as (h2 & E2 & HF2 & HV2).
  { intros y Hy. rewrite (Frame_cls h) by done. by apply Hcl. }
  assert (h_lists h2 !! l = Some (map VRef ys)) as Hl2.
  { pose proof (kept_for_each (map VRef ys) (λ y, write_key y (Priv p) (VRef t)) (λ y, kept_write y _ _) h1 l _ Hl1) as Hkp.
    by rewrite E2 in Hkp. }
  assert (∀ y pz w, pkind T h y pz = Some (POneMany q) → pkind T h w q = Some (PManyOne p) → (y, Priv pz) ≠ (w, Priv q)) as Hne.
  { intros y pz w ? ? [= -> ->]. congruence. }
  assert (slot h2 u (Priv q) = Some (VList l)) as Hu2.
  { set (I h := slot h u (Priv q) = Some (VList l)).
    assert (∀ o k v h, I h → (o, k) ≠ (u, Priv q) → I (hset o k v h)) as HW.
    { intros o k v h' HI Hw. unfold I. by rewrite slot_hset_ne. }
    assert (∀ zs h, (∀ y, y ∈ zs → y ∈ ys) → I h → I (snd (for_each (map VRef zs) (λ y, write_key y (Priv p) (VRef t)) h))) as Hz.
    { induction zs as [|z zs IH]; intros h' Hin HI; [done|]. cbn [map for_each]. unfold bind. cbn [write_key].
      destruct (h_objs h' !! z) as [ob|] eqn:Ez; [|done]. apply IH; [intros; apply Hin; by right|].
      apply HW; [done|]. apply Hne; [|done]. apply Hys, Hin. by left. }
    specialize (Hz ys h1 (λ _ H, H) Hu1). by rewrite E2 in Hz. }
  assert (is_Some (cls_of h2 t)) as Hct2 by (by rewrite (Frame_cls h1), (Frame_cls h)).
  exists (hset t (Priv q) (VList l) h2).
  assert (∀ o k, view (hset t (Priv q) (VList l) h2) o k =
     upd (λ o k, if decide (o ∈ ys ∧ k = Priv p) then Some (OV (VRef t)) else view h1 o k)
         t (Priv q) (OL (map VRef ys)) o k) as HV3.
  { intros o k. erewrite view_hset_list by done. apply upd_ext. intros _. apply HV2. }
  split.
  { assert (getattr T (VRef u) q h = (inl (VList l), h)) as Eg.
    { unfold getattr. rewrite obj_prop_pkind, Hku. by apply read_key_ok. }
    rewrite (bind_inl _ _ _ _ _ Eg). remember (S (S f)) as f2. cbn [setattr]. rewrite obj_prop_pkind, Hk.
    step1 (read_key_ok h t (Priv q) _ Hv).
    erewrite (bind_inl (iter_val (VList l0))); [|unfold iter_val; by rewrite Hl0].
    step1 E1. erewrite (bind_inl (iter_val (VList l))); [|unfold iter_val; by rewrite Hl1].
    step1 E2. by rewrite write_key_ok. }
  split.
  { intros o. by rewrite cls_hset, (Frame_cls h1), (Frame_cls h). }
  split; [by apply slot_hset|].
  split; [rewrite slot_hset_ne by congruence; exact Hu2|].
  split.
  + by rewrite HV3, upd_eq.
  + intros y Hy. rewrite HV3, upd_ne by eauto. by rewrite decide_True.
  + intros xs' z pz Hxs' Hz Hzy Hez. simplify_eq. pose proof Hez as [Hkz _].
    rewrite HV3, upd_ne by eauto. rewrite decide_False by naive_solver. by apply Hold1.
  + intros o k Hn1 Hn2 Hn3. rewrite HV3, upd_ne by done. rewrite decide_False by naive_solver.
    apply Hfr1; [done|]. intros pz -> Hin. by eapply Hn3.
Qed.
Print Assumptions C100_one.

(** [t.Q = l] for an empty collection of a many-to-many association: every
    member of the list gets t in the collection of its other end, once.  When one
    of these collections is the list being assigned, it grows by t while it is
    assigned, and t is treated as one of its members. *)
Theorem C100_many T f h t q p l xs :
  pkind T h t q = Some (PManyMany p) → view h t (Priv q) = Some (OL []) → h_lists h !! l = Some xs →
  (∀ v, v ∈ xs ∨ v = VRef t ∧ (∃ r, VRef r ∈ xs ∧ slot h r (Priv p) = Some (VList l)) →
     ∃ r m, v = VRef r ∧ slot h r (Priv p) = Some (VList m) ∧ is_Some (h_lists h !! m)) →
  ∃ h' ys, setattr T (S f) (VRef t) q (VList l) h = (inl tt, h') ∧
    (∀ o k, slot h' o k = if decide ((o, k) = (t, Priv q)) then Some (VList l) else slot h o k) ∧
    h_lists h' !! l = Some ys ∧ (ys = xs ∨ ys = xs ++ [VRef t]) ∧
    ∀ m ms, h_lists h !! m = Some ms →
      (VRef t ∉ ms → (∃ r, VRef r ∈ ys ∧ slot h r (Priv p) = Some (VList m)) → h_lists h' !! m = Some (ms ++ [VRef t])) ∧
      (VRef t ∈ ms ∨ ¬ (∃ r, VRef r ∈ ys ∧ slot h r (Priv p) = Some (VList m)) → h_lists h' !! m = Some ms).
Proof.
  intros Hk Hv Hl Hall. destruct (view_OL _ _ _ _ Hv) as (l0 & Hs & Hl0).
  destruct (live_append_runs (VRef t) p l (S (length xs)) 0 h xs Hl) as (h1 & ys & E & Ho & Hl1 & Hys & Hm).
  { case_decide; lia. }
  { intros w Hw. destruct (Hall w) as (r & m & -> & Hr & Hsm); [|exists m; split; [by exists r|done]].
    destruct Hw as [?|[-> (w' & Hw' & r & -> & Hr)]]; [by left|right]. split; [done|]. by exists r. }
  assert (is_Some (cls_of h1 t)) as Hct.
  { apply slot_cls in Hs. unfold cls_of in *. by rewrite Ho. }
  exists (hset t (Priv q) (VList l) h1), ys. split_and!.
  - cbn [setattr]. rewrite obj_prop_pkind, Hk. step1 (read_key_ok h t (Priv q) _ Hs).
    erewrite (bind_inl (iter_val (VList l0))); [|unfold iter_val; by rewrite Hl0].
    cbn [for_each]. erewrite (bind_inl (ret tt)) by done.
    erewrite (bind_inl (live_each (VList l) _)); [|unfold live_each; rewrite Hl; exact E]. by rewrite write_key_ok.
  - intros o k. rewrite <- (slot_objs h h1) by done.
    destruct (decide ((o, k) = (t, Priv q))) as [[= -> ->]|Hne]; [by apply slot_hset|by apply slot_hset_ne].
  - exact Hl1.
  - destruct Hys as [?|(? & _)]; auto.
  - intros m ms Hms. change (h_lists (hset t (Priv q) (VList l) h1)) with (h_lists h1).
    destruct (Hm m) as [[E1 Hn]|(ms' & E1 & Hni & E2 & j & w & _ & Hj & r & -> & Hr)].
    + split; [|intros _; congruence]. intros Hni (r & Hr & Hsr). exfalso.
      destruct Hn as [(ms' & ? & ?)|Hn]; [congruence|]. apply elem_of_list_lookup_1 in Hr as [j Hj].
      apply (Hn j (VRef r)); [lia|done|by exists r].
    + assert (ms' = ms) as -> by congruence. split; [done|]. intros [?|Hno]; [done|]. exfalso. apply Hno.
      exists r. split; [by eapply elem_of_list_lookup_2|done].
Qed.
Print Assumptions C100_many.

(** Afterwards [z.P = t] puts z into the collection of u as well. *)
Theorem C100_follow T f h t u z q p l xs :
  pkind T h z p = Some (POneMany q) → slot h z (Priv p) = Some VNone → (z, Priv p) ≠ (t, Priv q) → (z, Priv p) ≠ (u, Priv q) →
  slot h t (Priv q) = Some (VList l) → slot h u (Priv q) = Some (VList l) → h_lists h !! l = Some xs → VRef z ∉ xs →
  ∃ h', setattr T (S f) (VRef z) p (VRef t) h = (inl tt, h') ∧ slot h' z (Priv p) = Some (VRef t) ∧
    view h' t (Priv q) = Some (OL (xs ++ [VRef z])) ∧ view h' u (Priv q) = Some (OL (xs ++ [VRef z])).
Proof.
  intros Hk Hz Hne1 Hne2 Ht Hu Hl Hni. assert (is_Some (cls_of h z)) as Hcz by (by eapply slot_cls).
  set (h1 := hset z (Priv p) (VRef t) h).
  assert (slot h1 t (Priv q) = Some (VList l)) as Ht1 by (unfold h1; by rewrite slot_hset_ne).
  assert (slot h1 u (Priv q) = Some (VList l)) as Hu1 by (unfold h1; by rewrite slot_hset_ne).
  assert (slot h1 z (Priv p) = Some (VRef t)) as Hz1 by (by apply slot_hset).
  exists (lset l (xs ++ [VRef z]) h1). split_and!.
  - cbn [setattr]. rewrite obj_prop_pkind, Hk. step1 (read_key_ok h z (Priv p) _ Hz). rewrite decide_True by done.
    erewrite (bind_inl (ret tt)) by done. erewrite (bind_inl (write_key _ _ _)); [|by rewrite write_key_ok].
    fold h1. step1 (read_key_ok h1 z (Priv p) _ Hz1). rewrite decide_False by done. step1 (read_key_ok h1 t (Priv q) _ Ht1).
    erewrite (bind_inl (contains _ _)); [|unfold contains; change (h_lists h1) with (h_lists h); rewrite Hl; by rewrite bool_decide_false].
    unfold append. change (h_lists h1) with (h_lists h). by rewrite Hl.
  - exact Hz1.
  - apply (view_list _ _ _ l); [exact Ht1|apply lists_lset].
  - apply (view_list _ _ _ l); [exact Hu1|apply lists_lset].
Qed.
Print Assumptions C100_follow.

(** [n3.Terminals = n2.Terminals]; a new terminal at node 3 is then in the
    collections of both nodes. *)
Notation shared14 := (snd ((let* w := getattr cim14 (VRef 2) n_Terminals in setattr cim14 20 (VRef 3) n_Terminals w) g14)).
Notation joined14 := (snd (run_op cim14 20 (ONew n_CIM14_IEC61970_Core_Terminal_Terminal [(n_ConnectivityNode, AVal (VRef 3))]) shared14)).
Theorem C100_copies_refuted :
  Consistent cim14 g14 ∧ view g14 3 (Priv n_Terminals) = Some (OL []) ∧ view g14 2 (Priv n_Terminals) = Some (OL [VRef 0; VRef 1]) ∧
  view shared14 3 (Priv n_Terminals) = Some (OL [VRef 0; VRef 1]) ∧
  view joined14 9 (Priv n_ConnectivityNode) = Some (OV (VRef 3)) ∧
  view joined14 3 (Priv n_Terminals) = Some (OL [VRef 0; VRef 1; VRef 9]) ∧
  view joined14 2 (Priv n_Terminals) = Some (OL [VRef 0; VRef 1; VRef 9]).
Proof. split; [exact g14_Consistent|]. repeat split; compute_now. Qed.
Print Assumptions C100_copies_refuted.

(** Group 0 is its own parent, and nothing is known about group 1.  Then
    [g1.ParentCUGroups = g0.ChildCUGroups]: group 1 becomes its own parent too. *)
Definition prog_groups : list op := [
  ONew n_CIM15_IEC61970_Informative_InfWork_CUGroup_CUGroup [];
  ONew n_CIM15_IEC61970_Informative_InfWork_CUGroup_CUGroup [];
  OAdd 0 n_ChildCUGroups [0]].
Definition d_groups := Eval vm_compute in dump (snd (run_ops cim15 20 prog_groups heap_empty)).
Definition g_groups : heap := undump d_groups.
Notation assigned15 := (snd ((let* w := getattr cim15 (VRef 0) n_ChildCUGroups in setattr cim15 20 (VRef 1) n_ParentCUGroups w) g_groups)).
Theorem C100_keeps_refuted :
  Consistent cim15 g_groups ∧ view g_groups 0 (Priv n_ChildCUGroups) = Some (OL [VRef 0]) ∧
  view g_groups 1 (Priv n_ParentCUGroups) = Some (OL []) ∧
  view assigned15 1 (Priv n_ParentCUGroups) = Some (OL [VRef 0; VRef 1]) ∧
  view assigned15 0 (Priv n_ChildCUGroups) = Some (OL [VRef 0; VRef 1]) ∧
  view assigned15 1 (Priv n_ChildCUGroups) = Some (OL [VRef 1]).
Proof.
  split. { refine (proj1 (inv_b_ok cim15 g_groups _)). vm_compute. reflexivity. }
  repeat split; compute_now.
Qed.
Print Assumptions C100_keeps_refuted.

Example C100_example :
  (pkind cim14 g14 3 n_Terminals = Some (PManyOne n_ConnectivityNode) ∧ has_slot g14 3 n_Terminals ∧
   pkind cim14 g14 2 n_Terminals = Some (PManyOne n_ConnectivityNode) ∧ view g14 2 (Priv n_Terminals) = Some (OL (map VRef [0; 1])) ∧
   (∃ l, slot g14 2 (Priv n_Terminals) = Some (VList l)) ∧
   (∀ y, y ∈ [0; 1] → pkind cim14 g14 y n_ConnectivityNode = Some (POneMany n_Terminals))) ∧
  (∃ l, pkind cim15 g_groups 1 n_ParentCUGroups = Some (PManyMany n_ChildCUGroups) ∧
   view g_groups 1 (Priv n_ParentCUGroups) = Some (OL []) ∧ slot g_groups 0 (Priv n_ChildCUGroups) = Some (VList l) ∧
   h_lists g_groups !! l = Some [VRef 0] ∧ ∃ m, slot g_groups 1 (Priv n_ChildCUGroups) = Some (VList m) ∧ h_lists g_groups !! m = Some []) ∧
  (∃ l, slot shared14 2 (Priv n_Terminals) = Some (VList l) ∧ slot shared14 3 (Priv n_Terminals) = Some (VList l) ∧
   h_lists shared14 !! l = Some [VRef 0; VRef 1]).
Proof.
  split.
  { split_and!; [compute_now|eexists; compute_now|compute_now|compute_now|eexists; compute_now|].
    intros y [->|[->|[]%elem_of_nil]%elem_of_cons]%elem_of_cons; compute_now. }
  split.
  { destruct (view_OL g_groups 0 (Priv n_ChildCUGroups) [VRef 0]) as (l & Hs & Hl); [compute_now|].
    destruct (view_OL g_groups 1 (Priv n_ChildCUGroups) []) as (m & Hsm & Hm); [compute_now|].
    exists l. split_and!; [compute_now|compute_now|done|done|]. by exists m. }
  destruct (slot shared14 2 (Priv n_Terminals)) as [[| | | | | |l]|] eqn:E2; try (exfalso; vm_compute in E2; discriminate).
  exists l. split; [done|]. vm_compute in E2. injection E2 as <-. split; compute_now.
Qed.
