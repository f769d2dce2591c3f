(** References of the models without an opposite: attributes that no property
    manages (for example CIM14/IEC61968/Common/ActivityRecord.py,
    CIM14/IEC61970/Protection/ProtectionEquipment.py). *)
From Coq Require Import String ZArith.
From stdpp Require Import prelude gmap.
From Verif Require Import PyStr PyHeap Schema Assoc AssocSpec TableSpec HeapFacts AssocFacts HistoryFacts Names TabCIM14 Tables TableFacts BlankFacts
  ArgSpec DocSpec DocFacts History GraphCheck Demo Ecore TabEcore EcoreSpec EcoreFacts OneWay.
From Verif Require PropEcore PropReread PropTypes.

Definition public_name (p : name) : bool := match p with 95%N :: _ => false | _ => true end.
Lemma public_key p : public_name p = true → key_of p = Pub p.
Proof. destruct p as [|c s]; [done|]. unfold public_name, key_of. destruct c as [|c]; [done|]. repeat (destruct c as [c|c|]; try done). Qed.
Lemma public_true : forallb (forallb (λ E, forallb (λ r, public_name (f_name r)) (ec_refs E))) ecores = true.
Proof. vm_compute. reflexivity. Qed.
Lemma ref_public t pm M E r : group t pm M → E ∈ M → r ∈ ec_refs E → key_of (f_name r) = Pub (f_name r).
Proof.
  intros Hg HE Hr. pose proof (all_rows_ok _ _ _ public_true (elem_of_zip_r _ _ _ _ Hg)) as B.
  apply (all_rows_ok _ _ _ B) in HE. apply (all_rows_ok _ _ _ HE) in Hr. by apply public_key.
Qed.
(** Plain collections have public names and no property. *)
Definition plain_steps (cs : list cls) : list name :=
  flat_map (λ c, omap (λ st, match st with SPlainMany q => Some q | _ => None end) (c_steps c)) cs.
Definition plain_ok (t : schema) (_ : list (name * name)) : bool :=
  let m := cmap t in let n := length t in
  forallb (λ c, let cs := mro_map n m (c_key c) in
    forallb (λ p, public_name p && match lookup_in cs p with None => true | Some _ => false end) (plain_steps cs)) t.
Lemma plain_ok_true : all_tables plain_ok = true.
Proof. vm_compute. reflexivity. Qed.
Local Opaque tables ecores.
Lemma plain_steps_in t k p : plain_many t k p = true → p ∈ plain_steps (mro t k).
Proof.
  unfold plain_many, plain_steps. intros (c & Hc & (st & Hst & Hm)%existsb_exists)%existsb_exists. apply elem_of_list_In, in_flat_map.
  exists c. split; [done|]. apply elem_of_list_In, elem_of_list_omap. exists st. split; [by apply elem_of_list_In|]. destruct st; try done.
  apply str_eqb_eq in Hm. by subst.
Qed.
Lemma plain_many_ok t pm k p : (t, pm) ∈ tables → plain_many t k p = true → lookup_prop t k p = None ∧ key_of p = Pub p.
Proof.
  intros Ht Hp%plain_steps_in. pose proof (all_tables_ok _ _ _ plain_ok_true Ht) as B. unfold plain_ok in B.
  destruct (find_cls t k) as [c|] eqn:Ek.
  - destruct (find_cls_in _ _ _ Ek) as [Hc <-]. apply (all_rows_ok _ _ _ B) in Hc. cbn beta zeta in Hc. rewrite mro_map_mro in Hc.
    apply (all_rows_ok _ _ _ Hc) in Hp. cbn beta in Hp. apply andb_true_iff in Hp as [H1 H2]. split; [|by apply public_key].
    unfold lookup_prop. by destruct (lookup_in _ p).
  - exfalso. revert Hp. assert (mro t k = []) as ->; [|by intros ?%elem_of_nil]. unfold mro. destruct (length t); [done|]. cbn. by rewrite Ek.
Qed.

(** *** References of the models *)
Section one_way.
Context (t : schema) (pm : list (name * name)) (M : list eclass) (E : eclass) (r : eref).
Context (Hg : group t pm M) (HE : E ∈ M) (Hr : r ∈ ec_refs E) (Hop : f_opposite r = None).

Lemma one_way_kind h x : instance_of M h x E → (∀ k, cls_of h x = Some k → (k, f_name r) ∉ repeated) → pkind t h x (f_name r) = None.
Proof using Hg Hr Hop.
  intros (E1 & Hi & Hc) Hrep. unfold pkind. rewrite Hc. by apply (ref_kind t pm M Hg E1 E r Hi (Hrep _ Hc) Hr).
Qed.

(** Assigning any value but a list to it changes this attribute of this object
    and nothing else, whatever is there or is assigned. *)
Theorem C115_assign f h x v : Consistent t h → instance_of M h x E → (∀ k, cls_of h x = Some k → (k, f_name r) ∉ repeated) →
  is_vlist v = false →
  ∃ h', setattr t (S f) (VRef x) (f_name r) v h = (inl tt, h') ∧ Consistent t h' ∧ same_classes h h' ∧
    fst (getattr t (VRef x) (f_name r) h') = inl v ∧
    ∀ z k, (z, k) ≠ (x, Pub (f_name r)) → view h' z k = view h z k.
Proof using Hg HE Hr Hop.
  intros HC Hi Hrep Hv. pose proof (one_way_kind h x Hi Hrep) as HK. pose proof (ref_public t pm M E r Hg HE Hr) as Hpub.
  assert (is_Some (cls_of h x)) as Hc by (destruct Hi as (E1 & _ & ->); by eexists).
  exists (hset x (Pub (f_name r)) v h). split; [rewrite <- Hpub; by apply set_plain|].
  assert (∀ z k, (z, k) ≠ (x, Pub (f_name r)) → view (hset x (Pub (f_name r)) v h) z k = view h z k) as Hview.
  { intros z k Hne. rewrite view_hset by done. unfold upd. rewrite decide_False; [done|]. intros [-> ->]. done. }
  split; [|split; [apply same_classes_hset|split; [|done]]].
  - split; [apply wf_hset; [apply HC|done..]|].
    eapply (Links_ext (pkind t h) _ (view (hset x (Pub (f_name r)) v h))); [intros; by rewrite pkind_hset|done|].
    eapply Links_other; [|exact (proj2 HC)]. intros o q k _ _. by apply Hview.
  - unfold getattr. rewrite obj_prop_pkind, pkind_hset, HK, Hpub. unfold read_key. by rewrite slot_hset.
Qed.

(** It has no methods [addP] and [removeP]. *)
Theorem C115_methods f h x xs : instance_of M h x E → (∀ k, cls_of h x = Some k → (k, f_name r) ∉ repeated) →
  add t f (VRef x) (f_name r) xs h = (inr AttributeError, h) ∧ remove t f (VRef x) (f_name r) xs h = (inr AttributeError, h).
Proof using Hg Hr Hop.
  intros Hi Hrep. pose proof (one_way_kind h x Hi Hrep) as HK. unfold add, remove. by rewrite !obj_prop_pkind, HK.
Qed.
End one_way.
Print Assumptions C115_assign.
Print Assumptions C115_methods.

(** *** Collections *)
Section plain.
Context (t : schema) (pm : list (name * name)) (Ht : (t, pm) ∈ tables) (x : nat) (k p : name) (Hp : plain_many t k p = true).

Lemma plain_list h ys : Wf h → cls_of h x = Some k → view h x (Pub p) = Some (OL ys) →
  ∃ l, h_lists h !! l = Some ys ∧ getattr t (VRef x) p h = (inl (VList l), h) ∧
  ∀ zs, let h' := lset l zs h in Wf h' ∧ cls_of h' x = Some k ∧ view h' x (Pub p) = Some (OL zs) ∧ same_classes h h' ∧
    (Consistent t h → Consistent t h') ∧ ∀ z q, (z, q) ≠ (x, Pub p) → view h' z q = view h z q.
Proof using Ht Hp.
  intros Hwf Hc Hv. destruct (plain_many_ok t pm k p Ht Hp) as [HK Hpub].
  assert (∃ l, slot h x (Pub p) = Some (VList l) ∧ h_lists h !! l = Some ys) as (l & Hs & Hl).
  { unfold view in Hv. destruct (slot h x (Pub p)) as [[| | | | | |l]|]; try done. cbn in Hv. destruct (h_lists h !! l) as [ys'|] eqn:El; [|done].
    cbn in Hv. injection Hv as ->. by exists l. }
  exists l. split; [done|]. split.
  { unfold getattr. rewrite obj_prop_pkind. unfold pkind. rewrite Hc. cbn [mbind option_bind]. rewrite HK, Hpub. unfold read_key. by rewrite Hs. }
  intros zs h'. assert (∀ z q, view h' z q = upd (view h) x (Pub p) (OL zs) z q) as Hview by (intros; by eapply view_lset).
  assert (∀ z q, (z, q) ≠ (x, Pub p) → view h' z q = view h z q) as Hne by (intros z q ?; rewrite Hview; by apply upd_ne).
  split; [by apply wf_lset|]. split; [by rewrite <- Hc; apply cls_lset|]. split; [rewrite Hview; unfold upd; by rewrite decide_True|].
  split; [intros o; apply cls_lset|]. split; [|done]. intros HC. split; [by apply wf_lset|].
  eapply (Links_ext (pkind t h) _ (view h')); [intros; unfold pkind; unfold h'; by rewrite cls_lset|done|].
  eapply Links_other; [|exact (proj2 HC)]. intros o q kd _ _. by apply Hne.
Qed.

(** Objects are added at the end, again if they are there. *)
Theorem C115_add xs : ∀ h ys, Wf h → cls_of h x = Some k → view h x (Pub p) = Some (OL ys) →
  ∃ h', add_plain t (VRef x) p xs h = (inl tt, h') ∧ Wf h' ∧ (Consistent t h → Consistent t h') ∧ same_classes h h' ∧
    view h' x (Pub p) = Some (OL (ys ++ xs)) ∧ ∀ z q, (z, q) ≠ (x, Pub p) → view h' z q = view h z q.
Proof using Ht Hp.
  assert (∀ xs h ys, Wf h → cls_of h x = Some k → view h x (Pub p) = Some (OL ys) →
    ∃ h', for_each xs (λ v, let* l := getattr t (VRef x) p in append l v) h = (inl tt, h') ∧ Wf h' ∧ (Consistent t h → Consistent t h') ∧ same_classes h h' ∧
      view h' x (Pub p) = Some (OL (ys ++ xs)) ∧ ∀ z q, (z, q) ≠ (x, Pub p) → view h' z q = view h z q) as Hfor.
  { clear xs. induction xs as [|v xs IH]; intros h ys Hwf Hc Hv.
    - exists h. rewrite app_nil_r. by split_and!.
    - destruct (plain_list h ys Hwf Hc Hv) as (l & Hl & Hga & Hset). destruct (Hset (ys ++ [v])) as (W & C & V & SC & HC & F).
      destruct (IH _ _ W C V) as (h' & E & W' & HC' & SC' & V' & F'). exists h'. split.
      { cbn [for_each]. erewrite bind_inl; [exact E|]. erewrite bind_inl by exact Hga. unfold append. by rewrite Hl. }
      split; [done|]. split; [by auto|]. split; [intros o; by rewrite SC', SC|]. split; [by rewrite V', <- app_assoc|]. intros z q Hn. by rewrite F', F. }
  intros h ys Hwf Hc Hv. destruct (Hfor xs h ys Hwf Hc Hv) as (h' & E & R). exists h'. split; [|done]. unfold add_plain, plain_call. by rewrite Hc, Hp.
Qed.

(** The first occurrence is removed; if there is none nothing changes. *)
Theorem C115_remove h ys zs v : Wf h → cls_of h x = Some k → view h x (Pub p) = Some (OL (ys ++ v :: zs)) → v ∉ ys →
  ∃ h', remove_plain t (VRef x) p [v] h = (inl tt, h') ∧ Wf h' ∧ (Consistent t h → Consistent t h') ∧ same_classes h h' ∧
    view h' x (Pub p) = Some (OL (ys ++ zs)) ∧ ∀ z q, (z, q) ≠ (x, Pub p) → view h' z q = view h z q.
Proof using Ht Hp.
  intros Hwf Hc Hv Hn. destruct (plain_list h _ Hwf Hc Hv) as (l & Hl & Hga & Hset). destruct (Hset (ys ++ zs)) as (W & C & V & SC & HC & F).
  exists (lset l (ys ++ zs) h). split; [|done]. unfold remove_plain, plain_call. rewrite Hc, Hp. cbn [for_each].
  erewrite bind_inl; [reflexivity|]. erewrite bind_inl by exact Hga. unfold list_remove. rewrite Hl.
  assert (remove_first v (ys ++ v :: zs) = Some (ys ++ zs)) as ->; [|done]. clear -Hn.
  induction ys as [|y ys IH]; cbn; [by rewrite decide_True|]. rewrite decide_False by (intros ->; apply Hn; by left).
  rewrite IH; [done|]. intros ?. apply Hn. by right.
Qed.
Theorem C115_remove_missing h ys v vs : Wf h → cls_of h x = Some k → view h x (Pub p) = Some (OL ys) → v ∉ ys →
  remove_plain t (VRef x) p (v :: vs) h = (inr ValueError, h).
Proof using Ht Hp.
  intros Hwf Hc Hv Hn. destruct (plain_list h _ Hwf Hc Hv) as (l & Hl & Hga & _). unfold remove_plain, plain_call. rewrite Hc, Hp. cbn [for_each].
  assert (remove_first v ys = None) as Hrm by (by apply remove_first_None).
  unfold bind at 1. unfold bind at 1. rewrite Hga. unfold list_remove. by rewrite Hl, Hrm.
Qed.
Lemma remove_step h v r h1 : cls_of h x = Some k → bind (getattr t (VRef x) p) (λ l, list_remove l v) h = (r, h1) → cls_of h1 x = Some k.
Proof using Ht Hp.
  intros Hc. destruct (plain_many_ok t pm k p Ht Hp) as [HK Hpub]. unfold bind, getattr. rewrite obj_prop_pkind. unfold pkind. rewrite Hc. cbn [mbind option_bind].
  rewrite HK. unfold read_key. destruct (slot h x (key_of p)) as [w|]; [|by intros [= <- <-]]. unfold list_remove.
  destruct w as [| | | | | |l]; try by intros [= <- <-]. destruct (h_lists h !! l) as [ws|]; [|by intros [= <- <-]].
  destruct (remove_first v ws) as [us|]; intros [= <- <-]; [|done]. rewrite <- Hc. apply cls_lset.
Qed.
(** Several are removed one after the other. *)
Theorem C115_remove_more h v vs : cls_of h x = Some k →
  remove_plain t (VRef x) p (v :: vs) h =
    match remove_plain t (VRef x) p [v] h with (inl _, h1) => remove_plain t (VRef x) p vs h1 | (inr e, h1) => (inr e, h1) end.
Proof using Ht Hp.
  intros Hc. unfold remove_plain, plain_call. rewrite Hc, Hp. cbn [for_each].
  destruct (bind (getattr t (VRef x) p) (λ l, list_remove l v) h) as [[[]|e] h1] eqn:E.
  - rewrite !(bind_inl _ _ _ _ _ E). cbn [ret]. by rewrite (remove_step h v _ _ Hc E), Hp.
  - by rewrite !(bind_inr _ _ _ _ _ E).
Qed.
End plain.
Print Assumptions C115_add.
Print Assumptions C115_remove.
Print Assumptions C115_remove_missing.
Print Assumptions C115_remove_more.
(** Nothing else has these methods ([plain_collections] of C75 lists the
    collections). *)
Theorem C115_absent t pm x k p xs h : (t, pm) ∈ tables → cls_of h x = Some k →
  (∀ c, c ∈ mro t k → (c_key c, p) ∉ PropReread.plain_collections) →
  add_plain t (VRef x) p xs h = (inr AttributeError, h) ∧ remove_plain t (VRef x) p xs h = (inr AttributeError, h).
Proof.
  intros Ht Hc Hno. assert (plain_many t k p = false) as Hp.
  { destruct (plain_many t k p) eqn:Hp; [|done]. exfalso. unfold plain_many in Hp. apply existsb_exists in Hp as (c & Hin & Hst).
    apply existsb_exists in Hst as (st & Hst & Hm). destruct st; try done. apply str_eqb_eq in Hm. subst. apply elem_of_list_In in Hin, Hst.
    apply (Hno c Hin). apply PropReread.C75_where. exists t, pm, c. split; [done|]. split; [|done].
    by destruct (find_cls_in _ _ _ (PropTypes.mro_finds _ _ _ Hin)). }
  unfold add_plain, remove_plain, plain_call. by rewrite Hc, Hp.
Qed.
Print Assumptions C115_absent.

(** A relay (0), a switch (1), an activity record (2) and a status (3). *)
Definition way_prog : list op := [
  ONew n_CIM14_IEC61970_Protection_CurrentRelay_CurrentRelay [];
  ONew n_CIM14_IEC61970_Wires_Breaker_Breaker [];
  ONew n_CIM14_IEC61968_Common_ActivityRecord_ActivityRecord [];
  ONew n_CIM14_IEC61968_Common_Status_Status []].
Definition way_d := Eval vm_compute in dump (snd (run_ops cim14 20 way_prog heap_empty)).
Definition way_h : heap := undump way_d.
Lemma way_consistent : Consistent cim14 way_h.
Proof. enough (inv cim14 way_h) as H by apply H. apply inv_b_ok. vm_compute. reflexivity. Qed.
Definition way_status : eref := ERef n_status n_CIM14_IEC61968_Common_Status_Status false None.
Example C115_example : group cim14 cim14_map ecore_cim14 ∧ Consistent cim14 way_h ∧
  (∃ E, E ∈ ecore_cim14 ∧ way_status ∈ ec_refs E ∧ instance_of ecore_cim14 way_h 2 E) ∧
  (∀ k, cls_of way_h 2 = Some k → (k, f_name way_status) ∉ repeated) ∧
  cls_of way_h 0 = Some n_CIM14_IEC61970_Protection_CurrentRelay_CurrentRelay ∧
  plain_many cim14 n_CIM14_IEC61970_Protection_CurrentRelay_CurrentRelay n_ProtectedSwitches = true ∧
  view way_h 0 (Pub n_ProtectedSwitches) = Some (OL []).
Proof.
  split; [exact PropEcore.group14|]. split; [exact way_consistent|]. split.
  { destruct (PropEcore.at_key_ok ecore_cim14 n_CIM14_IEC61968_Common_ActivityRecord_ActivityRecord (PropEcore.has_ref way_status)) as (E & HE & Hk & Hr).
    { vm_compute. reflexivity. }
    exists E. split; [done|]. split; [by apply PropEcore.has_ref_ok|]. exists E. split; [by constructor|]. rewrite Hk. vm_compute. reflexivity. }
  split. { intros k Hk. assert (cls_of way_h 2 = Some n_CIM14_IEC61968_Common_ActivityRecord_ActivityRecord) as H by (vm_compute; reflexivity).
    rewrite H in Hk. injection Hk as <-. apply (bool_decide_eq_true (_ ∉ _)). vm_compute. reflexivity. }
  split; [vm_compute; reflexivity|]. split; [vm_compute; reflexivity|]. vm_compute. reflexivity.
Qed.
Definition Breaker : name := n_CIM14_IEC61970_Wires_Breaker_Breaker.
Example C115_absent_example : (cim14, cim14_map) ∈ tables ∧ cls_of way_h 1 = Some Breaker ∧
  ∀ c, c ∈ mro cim14 Breaker → (c_key c, n_ProtectedSwitches) ∉ PropReread.plain_collections.
Proof.
  split; [exact (group_table _ _ _ PropEcore.group14)|]. split; [vm_compute; reflexivity|].
  assert (forallb (λ c, negb (pair_in (c_key c) n_ProtectedSwitches PropReread.plain_collections)) (mro cim14 Breaker) = true) as B by (vm_compute; reflexivity).
  intros c Hc Hin. apply (all_rows_ok _ _ _ B) in Hc. cbn beta in Hc. apply pair_in_iff in Hin. by rewrite Hin in Hc.
Qed.
(** An object can be in such a collection twice. *)
Theorem C115_once_refuted : ∃ h h' x p v, Consistent cim14 h ∧ add_plain cim14 (VRef x) p [v; v] h = (inl tt, h') ∧
  Consistent cim14 h' ∧ view h' x (Pub p) = Some (OL [v; v]).
Proof.
  destruct C115_example as (_ & HC & _ & _ & Hc & Hp & Hv).
  destruct (C115_add cim14 cim14_map (group_table _ _ _ PropEcore.group14) 0 _ _ Hp [VRef 1; VRef 1] way_h [] (proj1 HC) Hc Hv) as (h' & E & _ & HC' & _ & V & _).
  exists way_h, h', 0, n_ProtectedSwitches, (VRef 1). split; [exact HC|]. split; [exact E|]. split; [exact (HC' HC)|exact V].
Qed.
Print Assumptions C115_once_refuted.
