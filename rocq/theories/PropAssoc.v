(** Properties C01-C13, C15-C18, C61: references between objects. *)
From Coq Require Import String.
From stdpp Require Import prelude gmap.
From Verif Require Import PyStr PyHeap Schema Assoc AssocSpec HeapFacts LinksFacts AssocFacts AddRemoveFacts
  CtorFacts History HistorySpec HistoryFacts GraphCheck AdmCheck AssocExtra Names TabCIM14 TabCIM15 TabProfiles Tables
  TableSpec TableFacts ImpedanceFacts Demo.

Ltac compute_now := vm_compute; reflexivity.
(** A run that ends normally, with the heap it leaves. *)
Lemma run_ok {A} (r : (A + exn) * heap) a : fst r = inl a → r = (inl a, snd r).
Proof. by destruct r as [? ?]; simpl; intros ->. Qed.
Lemma run_err {A} (r : (A + exn) * heap) e : fst r = inr e → r = (inr e, snd r).
Proof. by destruct r as [? ?]; simpl; intros ->. Qed.

(** *** C01 *)
Theorem C01_set_single T f h x p q w :
  Consistent T h → pkind T h x p = Some (POneMany q) → has_slot h x p → fits_one_many T h x p q w →
  ∃ h', setattr T (S f) (VRef x) p w h = (inl tt, h') ∧ same_classes h h' ∧
    SetSingle (view h) (view h') x p q w ∧ Consistent T h'.
Proof.
  intros HC Hk [v Hv] Hw. destruct (set_one_many_effect T f h x p q v w HC Hk Hv Hw) as (h' & E & HF & HS).
  exists h'. split_and!; [done|apply HF|done|]. by eapply Consistent_SetSingle.
Qed.
Print Assumptions C01_set_single.

(** Terminal 0 of the example graph moves from node 2 to node 3. *)
Example C01_example :
  Consistent cim14 g14 ∧ pkind cim14 g14 0 n_ConnectivityNode = Some (POneMany n_Terminals) ∧
  has_slot g14 0 n_ConnectivityNode ∧ fits_one_many cim14 g14 0 n_ConnectivityNode n_Terminals (VRef 3) ∧
  view g14 0 (Priv n_ConnectivityNode) = Some (OV (VRef 2)) ∧
  view g14 2 (Priv n_Terminals) = Some (OL [VRef 0; VRef 1]) ∧ view g14 3 (Priv n_Terminals) = Some (OL []).
Proof.
  split; [exact g14_Consistent|]. split; [compute_now|]. split; [apply some_b_ok; compute_now|].
  split; [apply fits_om_b_ok; compute_now|]. split; [compute_now|]. split; compute_now.
Qed.

(** *** C02 *)
Theorem C02_set_pair T f h x p q w :
  Consistent T h → p ≠ q → pkind T h x p = Some (POneOne q) → has_slot h x p → fits_one_one T h x p q w →
  ∃ h', setattr T (S (S f)) (VRef x) p w h = (inl tt, h') ∧ same_classes h h' ∧
    SetPair (view h) (view h') x p q w ∧ Consistent T h'.
Proof.
  intros HC Hpq Hk [v Hv] Hw.
  assert (w = VNone ∨ ∃ y c, w = VRef y ∧ ends_one_one (pkind T h) x p y q ∧ slot h y (Priv q) = Some c) as Hw'.
  { destruct Hw as [->|(y & -> & ? & [c ?])]; [by left|right; eauto]. }
  destruct (set_one_one_effect T f h x p q v w HC Hpq Hk Hv Hw') as (h' & E & HF & HS).
  exists h'. split_and!; [done|apply HF|done|]. by eapply Consistent_SetPair.
Qed.
Print Assumptions C02_set_pair.

(** Power flow 5 is attached to terminal 0, which has power flow 4. *)
Example C02_example :
  Consistent cim14 g14 ∧ pkind cim14 g14 5 n_Terminal = Some (POneOne n_SvPowerFlow) ∧ n_Terminal ≠ n_SvPowerFlow ∧
  has_slot g14 5 n_Terminal ∧ fits_one_one cim14 g14 5 n_Terminal n_SvPowerFlow (VRef 0) ∧
  view g14 0 (Priv n_SvPowerFlow) = Some (OV (VRef 4)).
Proof.
  split; [exact g14_Consistent|]. split; [compute_now|]. split; [by apply str_eqb_neq|].
  split; [apply some_b_ok; compute_now|]. split; [apply fits_oo_b_ok; compute_now|]. compute_now.
Qed.

(** *** C03 *)
Theorem C03_add T f h t q p' p xs ys :
  Consistent T h → pkind T h t q = Some (PManyOne p') → view h t (Priv q) = Some (OL ys) →
  (∀ x, x ∈ xs → ends_one_many (pkind T h) x p t q ∧ resolves (pkind T h) x p' p ∧ has_slot h x p) →
  ∃ h', add T (S (S f)) (VRef t) q (map VRef xs) h = (inl tt, h') ∧ same_classes h h' ∧
    AssignAll (view h) (view h') xs p q (VRef t) ∧ Consistent T h'.
Proof.
  intros HC Hk Hv Hxs. destruct (add_one_many_effect T f h t q p' p xs ys HC Hk Hv Hxs) as (h' & E & HF & HC' & HA & _).
  exists h'. split_and!; [done|apply HF|done|done].
Qed.
Print Assumptions C03_add.

(** Node 3 takes terminals 0, 1 and 0 again. *)
Example C03_example :
  Consistent cim14 g14 ∧ pkind cim14 g14 3 n_Terminals = Some (PManyOne n_ConnectivityNode) ∧
  view g14 3 (Priv n_Terminals) = Some (OL []) ∧
  ∀ x, x ∈ [0; 1; 0] → ends_one_many (pkind cim14 g14) x n_ConnectivityNode 3 n_Terminals ∧
    resolves (pkind cim14 g14) x n_ConnectivityNode n_ConnectivityNode ∧ has_slot g14 x n_ConnectivityNode.
Proof.
  split; [exact g14_Consistent|]. split; [compute_now|]. split; [compute_now|].
  intros x Hx. rewrite !elem_of_cons, elem_of_nil in Hx.
  assert (x = 0 ∨ x = 1) as [->| ->] by tauto;
    (split; [apply om_b_ok; compute_now|]; split; [apply resolve_ok; compute_now|apply some_b_ok; compute_now]).
Qed.

(** *** C04 *)
Theorem C04_remove T f h t q p' p xs :
  Consistent T h → pkind T h t q = Some (PManyOne p') →
  (∀ x, x ∈ xs → pkind T h x p = Some (POneMany q) ∧ resolves (pkind T h) x p' p ∧ has_slot h x p) →
  ∃ h', remove T (S (S f)) (VRef t) q (map VRef xs) h = (inl tt, h') ∧ same_classes h h' ∧
    AssignAll (view h) (view h') xs p q VNone ∧ Consistent T h'.
Proof.
  intros HC Hk Hxs. destruct (remove_one_many_effect T f h t q p' p xs HC Hk Hxs) as (h' & E & HF & HC' & HA & _).
  exists h'. split_and!; [done|apply HF|done|done].
Qed.
Print Assumptions C04_remove.
Example C04_example :
  Consistent cim14 g14 ∧ pkind cim14 g14 2 n_Terminals = Some (PManyOne n_ConnectivityNode) ∧
  view g14 2 (Priv n_Terminals) = Some (OL [VRef 0; VRef 1]) ∧
  ∀ x, x ∈ [1] → pkind cim14 g14 x n_ConnectivityNode = Some (POneMany n_Terminals) ∧
    resolves (pkind cim14 g14) x n_ConnectivityNode n_ConnectivityNode ∧ has_slot g14 x n_ConnectivityNode.
Proof.
  split; [exact g14_Consistent|]. split; [compute_now|]. split; [compute_now|].
  intros x ->%elem_of_list_singleton. split; [compute_now|]. split; [apply resolve_ok; compute_now|apply some_b_ok; compute_now].
Qed.

(** *** C05: removing an object from a collection it is not in *)
Theorem C05_remove_foreign T f h t q p' p x :
  Consistent T h → pkind T h t q = Some (PManyOne p') → pkind T h x p = Some (POneMany q) →
  resolves (pkind T h) x p' p → has_slot h x p → view h x (Priv p) ≠ Some (OV (VRef t)) →
  ∃ h', remove T (S (S f)) (VRef t) q [VRef x] h = (inl tt, h') ∧ same_classes h h' ∧
    ((view h x (Priv p) = Some (OV VNone) ∧ ∀ o k, view h' o k = view h o k) ∨
     (∃ u zs, u ≠ t ∧ view h x (Priv p) = Some (OV (VRef u)) ∧
        view h u (Priv q) = Some (OL zs) ∧ VRef x ∈ zs ∧
        view h' x (Priv p) = Some (OV VNone) ∧
        view h' u (Priv q) = Some (OL (filter (λ y, y ≠ VRef x) zs)) ∧
        ∀ o k, (o, k) ≠ (x, Priv p) → (o, k) ≠ (u, Priv q) → view h' o k = view h o k)).
Proof. exact (remove_foreign T f h t q p' p x). Qed.
Print Assumptions C05_remove_foreign.

(** Node 3, which has no terminals, removes terminal 0: it leaves node 2. *)
Theorem C05_own_collection_refuted : ∃ h',
  Consistent cim14 g14 ∧ view g14 3 (Priv n_Terminals) = Some (OL []) ∧
  remove cim14 20 (VRef 3) n_Terminals [VRef 0] g14 = (inl tt, h') ∧
  view g14 2 (Priv n_Terminals) = Some (OL [VRef 0; VRef 1]) ∧
  view h' 2 (Priv n_Terminals) = Some (OL [VRef 1]).
Proof.
  exists (snd (remove cim14 20 (VRef 3) n_Terminals [VRef 0] g14)).
  split; [exact g14_Consistent|]. split; [compute_now|]. split; [|split; compute_now].
  apply run_ok. compute_now.
Qed.
Print Assumptions C05_own_collection_refuted.

(** *** C06 *)
Theorem C06_mutual T f cs :
  distinct_ends T → adm_ops T (S (S (S f))) heap_empty cs →
  ∃ h, run_ops T (S (S (S f))) cs heap_empty = (inl tt, h) ∧ Mutual T h ∧ Consistent T h.
Proof.
  intros Hd Ha. destruct (adm_ops_inv T Hd f cs heap_empty (inv_empty T) Ha) as (h & E & Hi).
  exists h. split_and!; [done|by apply inv_Mutual|apply Hi].
Qed.
Print Assumptions C06_mutual.
(** Consistency is kept from any consistent graph, so histories compose. *)
Theorem C06_step T f h c :
  distinct_ends T → Consistent T h → MMNoDup (pkind T h) (view h) → adm_op T (S (S (S f))) h c →
  ∃ h', run_op T (S (S (S f))) c h = (inl tt, h') ∧ Consistent T h' ∧ MMNoDup (pkind T h') (view h') ∧ Mutual T h'.
Proof.
  intros Hd HC Hm Ha. destruct (adm_op_inv T Hd f h c) as (h' & E & Hi); [by split|done|].
  exists h'. split_and!; [done|apply Hi|apply Hi|by apply inv_Mutual].
Qed.
Print Assumptions C06_step.
Theorem C06_tables t m : (t, m) ∈ tables → distinct_ends t.
Proof. exact (tables_distinct t m). Qed.
Print Assumptions C06_tables.
Example C06_example : distinct_ends cim14 ∧ adm_ops cim14 20 heap_empty prog14.
Proof. split; [|exact prog14_adm]. apply (tables_distinct _ cim14_map). left. Qed.

(** *** C07 *)
Theorem C07_assign_collection T f h t q p l ys :
  Consistent T h → pkind T h t q = Some (PManyOne p) → has_slot h t q →
  h_lists h !! l = Some (map VRef ys) → (∀ o k, slot h o k ≠ Some (VList l)) → NoDup ys →
  (∀ y, y ∈ ys → pkind T h y p = Some (POneMany q) ∧
     (view h y (Priv p) = Some (OV VNone) ∨ view h y (Priv p) = Some (OV (VRef t)))) →
  ∃ h', setattr T (S (S (S f))) (VRef t) q (VList l) h = (inl tt, h') ∧ same_classes h h' ∧
    SetColl (pkind T h) (view h) (view h') t q p ys ∧ Consistent T h'.
Proof.
  intros HC Hk [v Hv] Hl Hlo Hnd Hys.
  destruct (set_many_one_effect T f h t q p v l ys) as (h' & E & (Hwf' & Hsc & _) & HS); [done..| |].
  { intros y Hy. by apply Hys. }
  destruct (slotful_view h t q) as [w Hw]; [apply HC|by eexists|].
  destruct (lk_coll _ _ (proj2 HC) _ _ _ _ Hk Hw) as (xs & -> & _).
  exists h'. split_and!; [done..|]. split; [done|].
  eapply (Links_ext (pkind T h) (pkind T h') (view h')); [intros; symmetry; by apply pkind_same|done|].
  eapply (Links_SetColl (pkind T h) (view h) (view h') t q p xs ys); [apply HC|done..].
Qed.
Print Assumptions C07_assign_collection.

(** [n2.Terminals = [t1]]: the list is new, terminal 0 leaves the node. *)
Example C07_example : let h := lset (fresh_list g14) [VRef 1] g14 in
  Consistent cim14 h ∧ pkind cim14 h 2 n_Terminals = Some (PManyOne n_ConnectivityNode) ∧ has_slot h 2 n_Terminals ∧
  h_lists h !! fresh_list g14 = Some (map VRef [1]) ∧ (∀ o k, slot h o k ≠ Some (VList (fresh_list g14))) ∧ NoDup [1] ∧
  (∀ y, y ∈ [1] → pkind cim14 h y n_ConnectivityNode = Some (POneMany n_Terminals) ∧
     (view h y (Priv n_ConnectivityNode) = Some (OV VNone) ∨ view h y (Priv n_ConnectivityNode) = Some (OV (VRef 2)))) ∧
  view h 2 (Priv n_Terminals) = Some (OL [VRef 0; VRef 1]).
Proof.
  intros h. assert (h = lset (fresh_list g14) [VRef 1] g14) as Eh by reflexivity. clearbody h.
  split; [apply inv_b_ok; rewrite Eh; compute_now|]. split; [rewrite Eh; compute_now|].
  split; [apply some_b_ok; rewrite Eh; compute_now|]. split; [rewrite Eh; compute_now|].
  assert (∀ o k, slot h o k ≠ Some (VList (fresh_list g14))) as Hlo.
  { apply (display_of_loose h _ [1]). rewrite Eh. compute_now. }
  split; [exact Hlo|]. split; [apply NoDup_singleton|]. split.
  - intros y ->%elem_of_list_singleton. rewrite Eh. split; [compute_now|]. right. compute_now.
  - rewrite Eh. compute_now.
Qed.

(** *** C08: assignment of members that belong to another collection *)
Theorem C08_assign_takes_nothing T f h t q p l ys x v u zs :
  Consistent T h → pkind T h t q = Some (PManyOne p) → slot h t (Priv q) = Some v →
  h_lists h !! l = Some (map VRef ys) → (∀ o k, slot h o k ≠ Some (VList l)) →
  (∀ y, y ∈ ys → pkind T h y p = Some (POneMany q)) →
  x ∈ ys → u ≠ t → view h x (Priv p) = Some (OV (VRef u)) → view h u (Priv q) = Some (OL zs) →
  ∃ h', setattr T (S (S (S f))) (VRef t) q (VList l) h = (inl tt, h') ∧ same_classes h h' ∧
    view h' t (Priv q) = Some (OL (map VRef ys)) ∧ view h' x (Priv p) = Some (OV (VRef t)) ∧
    view h' u (Priv q) = Some (OL zs) ∧ VRef x ∈ zs ∧ ¬ Mutual T h'.
Proof.
  intros HC Hk Hs Hl Hlo Hys Hx Hut Hxu Hu.
  exact (assign_takes_nothing T f h t q p l ys x v HC Hk Hs Hl Hlo Hys u zs Hx Hut Hxu Hu).
Qed.
Print Assumptions C08_assign_takes_nothing.

(** [n3.Terminals = [t0]]: terminal 0 is in both collections. *)
Theorem C08_takeover_refuted : ∃ h',
  Consistent cim14 g14 ∧ run_op cim14 20 (OSetList 3 n_Terminals [0]) g14 = (inl tt, h') ∧
  view h' 3 (Priv n_Terminals) = Some (OL [VRef 0]) ∧ view h' 2 (Priv n_Terminals) = Some (OL [VRef 0; VRef 1]).
Proof.
  exists (snd (run_op cim14 20 (OSetList 3 n_Terminals [0]) g14)).
  split; [exact g14_Consistent|]. split; [apply run_ok; compute_now|]. split; compute_now.
Qed.
Print Assumptions C08_takeover_refuted.

(** *** C09 *)
Theorem C09_add_many T f h x p q y ps qs :
  Consistent T h → p ≠ q → ends_many_many (pkind T h) x p y q →
  view h x (Priv p) = Some (OL ps) → view h y (Priv q) = Some (OL qs) → VRef y ∉ ps →
  ∃ h', add T f (VRef x) p [VRef y] h = (inl tt, h') ∧ same_classes h h' ∧
    view h' x (Priv p) = Some (OL (ps ++ [VRef y])) ∧ view h' y (Priv q) = Some (OL (qs ++ [VRef x])) ∧
    (∀ o k, (o, k) ≠ (x, Priv p) → (o, k) ≠ (y, Priv q) → view h' o k = view h o k) ∧ Consistent T h'.
Proof.
  intros HC Hpq [He1 He2] Hx Hy Hni.
  destruct (add_many_many_exec T f h x p q y ps qs) as (h' & E & HF & HA); [apply HC|done..|].
  assert (VRef x ∉ qs) as Hni2.
  { intros Hin. destruct (lk_many_many _ _ (proj2 HC) _ _ _ _ He2 Hy) as (? & [= <-] & Hm).
    destruct (Hm _ Hin) as (? & ? & [= <-] & _ & ? & ?). congruence. }
  exists h'. split_and!; [done|apply HF|by apply HA| |apply HA|].
  - rewrite (am_other _ _ _ _ _ _ HA _ Hy). by rewrite decide_False.
  - split; [by eapply Frame_wf|].
    eapply (Links_ext (pkind T h) (pkind T h') (view h')); [intros; symmetry; by apply Frame_pkind|done|].
    eapply (Links_AddMany (pkind T h) (view h) (view h') x p y q ps qs); [apply HC|done..].
Qed.
Print Assumptions C09_add_many.
Example C09_example :
  Consistent cim14 g14 ∧ n_RemoteUnits ≠ n_CommunicationLinks ∧
  ends_many_many (pkind cim14 g14) 6 n_RemoteUnits 8 n_CommunicationLinks ∧
  view g14 6 (Priv n_RemoteUnits) = Some (OL [VRef 7]) ∧ view g14 8 (Priv n_CommunicationLinks) = Some (OL []) ∧
  VRef 8 ∉ [VRef 7].
Proof.
  split; [exact g14_Consistent|]. split; [by apply str_eqb_neq|]. split; [apply mm_b_ok; compute_now|].
  split; [compute_now|]. split; [compute_now|]. intros [=]%elem_of_list_singleton.
Qed.

(** *** C10 *)
Theorem C10_remove_many T f h x p q y ps qs :
  Consistent T h → MMNoDup (pkind T h) (view h) → p ≠ q → ends_many_many (pkind T h) x p y q →
  view h x (Priv p) = Some (OL ps) → view h y (Priv q) = Some (OL qs) → VRef y ∈ ps →
  ∃ h', remove T f (VRef x) p [VRef y] h = (inl tt, h') ∧ same_classes h h' ∧
    view h' x (Priv p) = Some (OL (filter (λ e, e ≠ VRef y) ps)) ∧
    view h' y (Priv q) = Some (OL (filter (λ e, e ≠ VRef x) qs)) ∧
    (∀ o k, (o, k) ≠ (x, Priv p) → (o, k) ≠ (y, Priv q) → view h' o k = view h o k) ∧
    Consistent T h' ∧ MMNoDup (pkind T h') (view h').
Proof. exact (remove_many_filter T f h x p q y ps qs). Qed.
Print Assumptions C10_remove_many.
Theorem C10_remove_absent T f h x p q y ps qs :
  Consistent T h → ends_many_many (pkind T h) x p y q →
  view h x (Priv p) = Some (OL ps) → view h y (Priv q) = Some (OL qs) → VRef y ∉ ps →
  remove T f (VRef x) p [VRef y] h = (inr ValueError, h).
Proof. exact (remove_many_none T f h x p q y ps qs). Qed.
Print Assumptions C10_remove_absent.
Example C10_example :
  Consistent cim14 g14 ∧ MMNoDup (pkind cim14 g14) (view g14) ∧
  ends_many_many (pkind cim14 g14) 6 n_RemoteUnits 7 n_CommunicationLinks ∧
  view g14 6 (Priv n_RemoteUnits) = Some (OL [VRef 7]) ∧ view g14 7 (Priv n_CommunicationLinks) = Some (OL [VRef 6]) ∧
  VRef 7 ∈ [VRef 7] ∧ VRef 8 ∉ [VRef 7].
Proof.
  split; [exact g14_Consistent|]. split; [apply g14_inv|]. split; [apply mm_b_ok; compute_now|].
  split; [compute_now|]. split; [compute_now|]. split; [left|]. intros [=]%elem_of_list_singleton.
Qed.

(** *** C11: a partner added again is there twice *)
Theorem C11_add_again T f h x p q y ps :
  Consistent T h → p ≠ q → ends_many_many (pkind T h) x p y q → view h x (Priv p) = Some (OL ps) → VRef y ∈ ps →
  ∃ h', add T f (VRef x) p [VRef y] h = (inl tt, h') ∧ same_classes h h' ∧
    view h' x (Priv p) = Some (OL (ps ++ [VRef y])) ∧ ¬ NoDup (ps ++ [VRef y]) ∧
    (∀ o k, (o, k) ≠ (x, Priv p) → view h' o k = view h o k).
Proof. exact (add_many_again T f h x p q y ps). Qed.
Print Assumptions C11_add_again.
Theorem C11_once_refuted : ∃ h',
  inv cim14 g14 ∧ run_op cim14 20 (OAdd 6 n_RemoteUnits [7]) g14 = (inl tt, h') ∧
  view h' 6 (Priv n_RemoteUnits) = Some (OL [VRef 7; VRef 7]) ∧ view h' 7 (Priv n_CommunicationLinks) = Some (OL [VRef 6]).
Proof.
  exists (snd (run_op cim14 20 (OAdd 6 n_RemoteUnits [7]) g14)).
  split; [exact g14_inv|]. split; [apply run_ok; compute_now|]. split; compute_now.
Qed.
Print Assumptions C11_once_refuted.

(** *** C12: reassignment of many-to-many collections *)
Theorem C12_reassign_many T f h x p q e ps v :
  Consistent T h → pkind T h x p = Some (PManyMany q) → view h x (Priv p) = Some (OL (e :: ps)) →
  ∃ h', setattr T (S f) (VRef x) p v h = (inr AttributeError, h') ∧ same_classes h h' ∧
    (∀ o k, view h' o k = view h o k).
Proof. exact (reassign_many T f h x p q e ps v). Qed.
Print Assumptions C12_reassign_many.
(** From an empty collection the assignment links both ends. *)
Theorem C12_assign_many T f h t q p l ys :
  Consistent T h → MMNoDup (pkind T h) (view h) → p ≠ q →
  pkind T h t q = Some (PManyMany p) → view h t (Priv q) = Some (OL []) →
  h_lists h !! l = Some (map VRef ys) → (∀ o k, slot h o k ≠ Some (VList l)) → NoDup ys →
  (∀ y, y ∈ ys → ends_many_many (pkind T h) t q y p ∧ ∃ xs, view h y (Priv p) = Some (OL xs)) →
  ∃ h', setattr T (S f) (VRef t) q (VList l) h = (inl tt, h') ∧ same_classes h h' ∧
    view h' t (Priv q) = Some (OL (map VRef ys)) ∧
    (∀ y xs, y ∈ ys → view h y (Priv p) = Some (OL xs) → view h' y (Priv p) = Some (OL (xs ++ [VRef t]))) ∧
    (∀ o k, (o, k) ≠ (t, Priv q) → (k = Priv p → o ∉ ys) → view h' o k = view h o k) ∧
    Consistent T h' ∧ MMNoDup (pkind T h') (view h').
Proof. exact (assign_many T f h t q p l ys). Qed.
Print Assumptions C12_assign_many.
Theorem C12_reassign_refuted : ∃ h',
  inv cim14 g14 ∧ run_op cim14 20 (OSetList 6 n_RemoteUnits [8]) g14 = (inr AttributeError, h') ∧
  view h' 6 (Priv n_RemoteUnits) = Some (OL [VRef 7]).
Proof.
  exists (snd (run_op cim14 20 (OSetList 6 n_RemoteUnits [8]) g14)).
  split; [exact g14_inv|]. split; [apply run_err; compute_now|]. compute_now.
Qed.
Print Assumptions C12_reassign_refuted.

(** Remote unit 8 (no links) gets the links [6]. *)
Example C12_example : let h := lset (fresh_list g14) [VRef 6] g14 in
  inv cim14 h ∧ n_RemoteUnits ≠ n_CommunicationLinks ∧
  pkind cim14 h 8 n_CommunicationLinks = Some (PManyMany n_RemoteUnits) ∧
  view h 8 (Priv n_CommunicationLinks) = Some (OL []) ∧
  h_lists h !! fresh_list g14 = Some (map VRef [6]) ∧ (∀ o k, slot h o k ≠ Some (VList (fresh_list g14))) ∧ NoDup [6] ∧
  (∀ y, y ∈ [6] → ends_many_many (pkind cim14 h) 8 n_CommunicationLinks y n_RemoteUnits ∧
     ∃ xs, view h y (Priv n_RemoteUnits) = Some (OL xs)).
Proof.
  intros h. assert (h = lset (fresh_list g14) [VRef 6] g14) as Eh by reflexivity. clearbody h.
  split; [apply inv_b_ok; rewrite Eh; compute_now|]. split; [by apply str_eqb_neq|]. split; [rewrite Eh; compute_now|].
  split; [rewrite Eh; compute_now|]. split; [rewrite Eh; compute_now|].
  assert (∀ o k, slot h o k ≠ Some (VList (fresh_list g14))) as Hlo.
  { apply (display_of_loose h _ [6]). rewrite Eh. compute_now. }
  split; [exact Hlo|]. split; [apply NoDup_singleton|].
  intros y ->%elem_of_list_singleton. split; [apply mm_b_ok; rewrite Eh; compute_now|].
  exists [VRef 7]. rewrite Eh. compute_now.
Qed.

(** *** C13: lists shared by two objects *)
Theorem C13_unshared T h o k o' k' l :
  Consistent T h → slot h o k = Some (VList l) → slot h o' k' = Some (VList l) → o = o' ∧ k = k'.
Proof. intros [Hwf _]. apply (wf_unshared _ Hwf). Qed.
Print Assumptions C13_unshared.
Theorem C13_setter_keeps_list T f h t q p v l ys :
  Consistent T h → pkind T h t q = Some (PManyOne p) → slot h t (Priv q) = Some v →
  h_lists h !! l = Some (map VRef ys) → (∀ o k, slot h o k ≠ Some (VList l)) →
  (∀ y, y ∈ ys → pkind T h y p = Some (POneMany q)) →
  ∃ h', setattr T (S (S (S f))) (VRef t) q (VList l) h = (inl tt, h') ∧ slot h' t (Priv q) = Some (VList l).
Proof. exact (setter_keeps_list T f h t q p v l ys). Qed.
Print Assumptions C13_setter_keeps_list.
Theorem C13_shared_list T f h t1 t2 q p' p x l l1 l2 :
  pkind T h t1 q = Some (PManyOne p') → pkind T h t2 q = Some (PManyOne p') → t1 ≠ t2 →
  slot h t1 (Priv q) = Some (VList l1) → h_lists h !! l1 = Some [] →
  slot h t2 (Priv q) = Some (VList l2) → h_lists h !! l2 = Some [] →
  h_lists h !! l = Some [] →
  ends_one_many (pkind T h) x p t2 q → slot h x (Priv p) = Some VNone →
  ∃ h', (setattr T (S f) (VRef t1) q (VList l) ;;;
         setattr T (S f) (VRef t2) q (VList l) ;;;
         setattr T (S f) (VRef x) p (VRef t1)) h = (inl tt, h') ∧ same_classes h h' ∧
    view h' t1 (Priv q) = Some (OL [VRef x]) ∧ view h' t2 (Priv q) = Some (OL [VRef x]) ∧
    view h' x (Priv p) = Some (OV (VRef t1)) ∧ ¬ Mutual T h'.
Proof. exact (shared_twice T f h t1 t2 q p' p x l l1 l2). Qed.
Print Assumptions C13_shared_list.
(** Two new nodes and a new terminal in an otherwise empty model; the list has
    number 3000. *)
Definition prog13 : list op := [
  ONew n_CIM14_IEC61970_Core_ConnectivityNode_ConnectivityNode [];
  ONew n_CIM14_IEC61970_Core_ConnectivityNode_ConnectivityNode [];
  ONew n_CIM14_IEC61970_Core_Terminal_Terminal []].
Example C13_example : let h := lset 3000 [] (snd (run_ops cim14 20 prog13 heap_empty)) in
  pkind cim14 h 0 n_Terminals = Some (PManyOne n_ConnectivityNode) ∧
  pkind cim14 h 1 n_Terminals = Some (PManyOne n_ConnectivityNode) ∧
  view h 0 (Priv n_Terminals) = Some (OL []) ∧ view h 1 (Priv n_Terminals) = Some (OL []) ∧
  h_lists h !! 3000 = Some [] ∧ ends_one_many (pkind cim14 h) 2 n_ConnectivityNode 1 n_Terminals ∧
  slot h 2 (Priv n_ConnectivityNode) = Some VNone.
Proof.
  intros h. assert (h = lset 3000 [] (snd (run_ops cim14 20 prog13 heap_empty))) as Eh by reflexivity. clearbody h.
  split; [rewrite Eh; compute_now|]. split; [rewrite Eh; compute_now|]. split; [rewrite Eh; compute_now|].
  split; [rewrite Eh; compute_now|]. split; [rewrite Eh; compute_now|].
  split; [apply om_b_ok; rewrite Eh; compute_now|]. rewrite Eh; compute_now.
Qed.
Theorem C13_independent_refuted : ∃ h h',
  h = lset 3000 [] (snd (run_ops cim14 20 prog13 heap_empty)) ∧ inv cim14 h ∧
  (setattr cim14 20 (VRef 0) n_Terminals (VList 3000) ;;; setattr cim14 20 (VRef 1) n_Terminals (VList 3000) ;;;
   setattr cim14 20 (VRef 2) n_ConnectivityNode (VRef 0)) h = (inl tt, h') ∧
  view h' 1 (Priv n_Terminals) = Some (OL [VRef 2]) ∧ view h' 2 (Priv n_ConnectivityNode) = Some (OV (VRef 0)).
Proof.
  eexists _, _. split; [reflexivity|]. split; [apply inv_b_ok; compute_now|].
  split; [apply run_ok; compute_now|]. split; compute_now.
Qed.
Print Assumptions C13_independent_refuted.

(** *** C15: assignments that fail *)
Theorem C15_failed_assignment T f h x p q v :
  Consistent T h → pkind T h x p = Some (POneMany q) → has_slot h x p →
  v ≠ VNone → not_list v → (∀ t, v = VRef t → (t, q) ≠ (x, p) ∧ slot h t (Priv q) = None) →
  ∃ h', setattr T (S f) (VRef x) p v h = (inr AttributeError, h') ∧ same_classes h h' ∧
    view h' x (Priv p) = Some (OV v) ∧
    (∀ u zs, view h x (Priv p) = Some (OV (VRef u)) → view h u (Priv q) = Some (OL zs) →
       view h' u (Priv q) = Some (OL (filter (λ y, y ≠ VRef x) zs))) ∧
    (∀ o k, (o, k) ≠ (x, Priv p) → (k = Priv q → view h x (Priv p) ≠ Some (OV (VRef o))) → view h' o k = view h o k).
Proof.
  intros HC Hk Hs Hn Hl. apply set_bad; [done..|]. by apply not_list_vlist.
Qed.
Print Assumptions C15_failed_assignment.
(** [t0.ConnectivityNode = "n"] and [t0.ConnectivityNode = t1]. *)
Example C15_example :
  Consistent cim14 g14 ∧ pkind cim14 g14 0 n_ConnectivityNode = Some (POneMany n_Terminals) ∧
  has_slot g14 0 n_ConnectivityNode ∧
  (∀ v, v = VStr (u "n") ∨ v = VRef 1 → v ≠ VNone ∧ not_list v ∧
     ∀ t, v = VRef t → (t, n_Terminals) ≠ (0, n_ConnectivityNode) ∧ slot g14 t (Priv n_Terminals) = None).
Proof.
  split; [exact g14_Consistent|]. split; [compute_now|]. split; [apply some_b_ok; compute_now|].
  intros v [-> | ->]; (split; [discriminate|]; split; [intros ?; discriminate|]); intros t [= <-].
  split; [intros [=]|compute_now].
Qed.
Theorem C15_atomic_refuted : ∃ h',
  Consistent cim14 g14 ∧ setattr cim14 20 (VRef 0) n_ConnectivityNode (VStr (u "n")) g14 = (inr AttributeError, h') ∧
  view g14 2 (Priv n_Terminals) = Some (OL [VRef 0; VRef 1]) ∧ view h' 2 (Priv n_Terminals) = Some (OL [VRef 1]) ∧
  view h' 0 (Priv n_ConnectivityNode) = Some (OV (VStr (u "n"))).
Proof.
  exists (snd (setattr cim14 20 (VRef 0) n_ConnectivityNode (VStr (u "n")) g14)).
  split; [exact g14_Consistent|]. split; [apply run_err; compute_now|]. split; [compute_now|]. split; compute_now.
Qed.
Print Assumptions C15_atomic_refuted.

(** *** C16 *)
Theorem C16_views h s w :
  cls_of h s = Some acls → slot h s (Priv n_PerLengthImpedance) = Some w →
  let seq := fst (getattr cim15 (VRef s) n_SequenceImpedance h) in
  let pha := fst (getattr cim15 (VRef s) n_PhaseImpedance h) in
  fst (getattr cim15 (VRef s) n_PerLengthImpedance h) = inl w ∧
  (seq = inl (if decide (val_cls h w = Some plsi) then w else VNone)) ∧
  (pha = inl (if decide (val_cls h w = Some plpi) then w else VNone)) ∧
  (seq = inl VNone ∨ pha = inl VNone).
Proof. exact (impedance_views h s w). Qed.
Print Assumptions C16_views.
Theorem C16_assign f h s p w :
  Consistent cim15 h → cls_of h s = Some acls →
  p ∈ [n_SequenceImpedance; n_PhaseImpedance; n_PerLengthImpedance] →
  has_slot h s n_PerLengthImpedance →
  fits_one_many cim15 h s n_PerLengthImpedance n_LineSegments w →
  ∃ h', setattr cim15 (S (S f)) (VRef s) p w h = (inl tt, h') ∧ same_classes h h' ∧
    SetSingle (view h) (view h') s n_PerLengthImpedance n_LineSegments w ∧ Consistent cim15 h'.
Proof. exact (impedance_assign f h s p w). Qed.
Print Assumptions C16_assign.
Theorem C16_constructor f h kw p p' v v' :
  p ∈ imp_names → p' ∈ imp_names → p ≠ p' →
  assoc p kw = Some v → assoc p' kw = Some v' → v ≠ VNone → v' ≠ VNone →
  ∃ h', construct cim15 (S f) acls [] kw h = (inr ValueError, h') ∧
    ∀ o k, is_Some (cls_of h o) → cls_of h' o = cls_of h o ∧ view h' o k = view h o k.
Proof. exact (impedance_ctor f h kw p p' v v'). Qed.
Print Assumptions C16_constructor.
Example C16_example :
  Consistent cim15 g15 ∧ cls_of g15 0 = Some acls ∧ slot g15 0 (Priv n_PerLengthImpedance) = Some VNone ∧
  fits_one_many cim15 g15 0 n_PerLengthImpedance n_LineSegments (VRef 1).
Proof.
  split; [exact g15_Consistent|]. split; [compute_now|]. split; [compute_now|]. apply fits_om_b_ok; compute_now.
Qed.

(** *** C17: the LineSegments of an impedance *)
Theorem C17_set_line_segments T f h t q p' p c l ys v :
  Wf h → pkind T h t q = Some (PManyOne p') → slot h t (Priv q) = Some v → view h t (Priv q) = Some (OL []) →
  h_lists h !! l = Some (map VRef ys) → (∀ o k, slot h o k ≠ Some (VList l)) → p' ≠ p →
  (∀ y, y ∈ ys → pkind T h y p' = Some (PAlias p c)) → (t, q) ≠ (t, p) →
  ∃ h', setattr T (S f) (VRef t) q (VList l) h = (inl tt, h') ∧ same_classes h h' ∧
    view h' t (Priv q) = Some (OL (map VRef ys)) ∧
    (∀ y, y ∈ ys → fst (getattr T (VRef y) p' h') = fst (getattr T (VRef y) p' h)) ∧
    (∀ o, view h' o (Priv p) = view h o (Priv p)).
Proof. exact (set_coll_alias T f h t q p' p c l ys v). Qed.
Print Assumptions C17_set_line_segments.
Example C17_example : let h := lset (fresh_list g15) [VRef 0] g15 in
  Wf h ∧ pkind cim15 h 1 n_LineSegments = Some (PManyOne n_PhaseImpedance) ∧ view h 1 (Priv n_LineSegments) = Some (OL []) ∧
  h_lists h !! fresh_list g15 = Some (map VRef [0]) ∧ (∀ o k, slot h o k ≠ Some (VList (fresh_list g15))) ∧
  pkind cim15 h 0 n_PhaseImpedance = Some (PAlias n_PerLengthImpedance plpi).
Proof.
  intros h. assert (h = lset (fresh_list g15) [VRef 0] g15) as Eh by reflexivity. clearbody h.
  split; [apply wf_b_ok; rewrite Eh; compute_now|]. split; [rewrite Eh; compute_now|]. split; [rewrite Eh; compute_now|].
  split; [rewrite Eh; compute_now|].
  assert (∀ o k, slot h o k ≠ Some (VList (fresh_list g15))) as Hlo.
  { apply (display_of_loose h _ [0]). rewrite Eh. compute_now. }
  split; [exact Hlo|]. rewrite Eh; compute_now.
Qed.
(** [z.LineSegments = [s]] leaves [s.PhaseImpedance] None. *)
Theorem C17_inverse_refuted : ∃ h',
  Consistent cim15 g15 ∧ run_op cim15 20 (OSetList 1 n_LineSegments [0]) g15 = (inl tt, h') ∧
  view h' 1 (Priv n_LineSegments) = Some (OL [VRef 0]) ∧
  fst (getattr cim15 (VRef 0) n_PhaseImpedance h') = inl VNone.
Proof.
  exists (snd (run_op cim15 20 (OSetList 1 n_LineSegments [0]) g15)).
  split; [exact g15_Consistent|]. split; [apply run_ok; compute_now|]. split; compute_now.
Qed.
Print Assumptions C17_inverse_refuted.

(** *** C18 *)
Theorem C18_add T f h e p q s ys :
  Wf h → pkind T h e p = Some (PManyOneDbl q) → pkind T h s q = None → public_name q → is_Some (cls_of h s) →
  view h e (Priv p) = Some (OL ys) →
  ∃ h', add T (S f) (VRef e) p [VRef s] h = (inl tt, h') ∧ same_classes h h' ∧
    view h' e (Priv p) = Some (OL (ys ++ [VRef s])) ∧ view h' s (Pub q) = Some (OV (VRef e)) ∧
    (∀ o k, (o, k) ≠ (e, Priv p) → (o, k) ≠ (s, Pub q) → view h' o k = view h o k).
Proof. exact (add_dbl T f h e p q s ys). Qed.
Print Assumptions C18_add.
Theorem C18_remove T f h e p q s ys :
  Wf h → pkind T h e p = Some (PManyOneDbl q) → pkind T h s q = None → public_name q → is_Some (cls_of h s) →
  view h e (Priv p) = Some (OL ys) →
  ∃ h', remove T (S f) (VRef e) p [VRef s] h =
      (match remove_first (VRef s) ys with Some _ => inl tt | None => inr ValueError end, h') ∧ same_classes h h' ∧
    view h' e (Priv p) = Some (OL (default ys (remove_first (VRef s) ys))) ∧ view h' s (Pub q) = Some (OV VNone) ∧
    (∀ o k, (o, k) ≠ (e, Priv p) → (o, k) ≠ (s, Pub q) → view h' o k = view h o k).
Proof. exact (remove_dbl T f h e p q s ys). Qed.
Print Assumptions C18_remove.
Example C18_example :
  Wf g15 ∧ pkind cim15 g15 2 n_OperationalLimitSet = Some (PManyOneDbl n_Equipment) ∧
  pkind cim15 g15 3 n_Equipment = None ∧ public_name n_Equipment ∧ is_Some (cls_of g15 3) ∧
  view g15 2 (Priv n_OperationalLimitSet) = Some (OL []).
Proof.
  split; [apply g15_Consistent|]. split; [compute_now|]. split; [compute_now|]. split; [compute_now|].
  split; [apply some_b_ok; compute_now|]. compute_now.
Qed.

(** *** C61: adding twice and removing once *)
Theorem C61_add_add_remove T f h x p q y ps qs :
  Consistent T h → MMNoDup (pkind T h) (view h) → p ≠ q → ends_many_many (pkind T h) x p y q →
  view h x (Priv p) = Some (OL ps) → view h y (Priv q) = Some (OL qs) → VRef y ∉ ps →
  ∃ h', (add T f (VRef x) p [VRef y] ;;; add T f (VRef x) p [VRef y] ;;; remove T f (VRef x) p [VRef y]) h = (inl tt, h') ∧
    same_classes h h' ∧
    view h' x (Priv p) = Some (OL (ps ++ [VRef y])) ∧ view h' y (Priv q) = Some (OL qs) ∧ VRef x ∉ qs ∧
    ¬ Mutual T h'.
Proof. exact (add_add_remove T f h x p q y ps qs). Qed.
Print Assumptions C61_add_add_remove.
(** Its hypotheses are those of [C09_example] with [C10_example]'s MMNoDup. *)
Example C61_example :
  inv cim14 g14 ∧ n_RemoteUnits ≠ n_CommunicationLinks ∧
  ends_many_many (pkind cim14 g14) 6 n_RemoteUnits 8 n_CommunicationLinks ∧
  view g14 6 (Priv n_RemoteUnits) = Some (OL [VRef 7]) ∧ view g14 8 (Priv n_CommunicationLinks) = Some (OL []) ∧
  VRef 8 ∉ [VRef 7].
Proof. split; [exact g14_inv|]. apply C09_example. Qed.
