(** Theorems about construction and the class tables (C14, C19-C21). *)
From Coq Require Import String.
From stdpp Require Import prelude gmap.
From Verif Require Import PyStr PyHeap Schema Assoc AssocSpec HeapFacts CtorFacts Names TabCIM14 TabCIM15 TabProfiles Tables
  TableSpec TableFacts BlankFacts Demo.

Ltac compute_now := vm_compute; reflexivity.

(** *** C14: [C(UUID=s)] is blank *)
Theorem C14_blank t pm k c f h s :
  (t, pm) ∈ tables → find_cls t k = Some c → k ∉ unconstructible → Wf h →
  ∃ o h', construct t (S f) k [] [(u "UUID", VStr s)] h = (inl (VRef o), h') ∧ Wf h' ∧ Blank t h h' o k s.
Proof. exact (new_blank t pm k c f h s). Qed.
Print Assumptions C14_blank.
Lemma has_cls t k : (match find_cls t k with Some _ => true | None => false end) = true → ∃ c, find_cls t k = Some c.
Proof. destruct (find_cls t k) as [c|]; [|done]. by exists c. Qed.
(** A new Breaker beside the objects of the example graph. *)
Example C14_example :
  (cim15, cim15_map) ∈ tables ∧ (∃ c, find_cls cim15 n_CIM15_IEC61970_Wires_Breaker_Breaker = Some c) ∧
  n_CIM15_IEC61970_Wires_Breaker_Breaker ∉ unconstructible ∧ Wf g15.
Proof.
  split; [right; left|]. split; [apply has_cls; compute_now|]. split; [|apply g15_Consistent].
  apply (bool_decide_unpack _). compute_now.
Qed.

(** *** C19: the classes of the package maps *)
Theorem C19_instantiable t pm tag k :
  (t, pm) ∈ tables → (tag, k) ∈ pm →
  ∃ c, find_cls t k = Some c ∧ c_name c = tag ∧
    (k ∉ unconstructible → ∀ f h s, Wf h →
       ∃ o h', construct t (S f) k [] [(u "UUID", VStr s)] h = (inl (VRef o), h') ∧ Wf h' ∧ Blank t h h' o k s) ∧
    (k ∈ unconstructible → ∀ f h s, Wf h →
       ∃ h', construct t (S f) k [] [(u "UUID", VStr s)] h = (inr TypeError, h') ∧
         ∀ o k', is_Some (cls_of h o) → cls_of h' o = cls_of h o ∧ view h' o k' = view h o k').
Proof.
  intros Ht Hin. destruct (map_class t pm tag k Ht Hin) as (c & Hc & Hn). exists c.
  split; [done|]. split; [done|]. split; intros Hu f h s Hwf.
  - exact (new_blank t pm k c f h s Ht Hc Hu Hwf).
  - exact (new_raises t pm k c f h s Ht Hc Hu Hwf).
Qed.
Print Assumptions C19_instantiable.
(** Every exception is in CIM15's package map. *)
Definition unconstructible_mapped : bool :=
  forallb (λ k, existsb (λ '(_, k'), str_eqb k k') cim15_map) unconstructible.
Theorem C19_exceptions k : k ∈ unconstructible → ∃ tag, (tag, k) ∈ cim15_map.
Proof.
  assert (unconstructible_mapped = true) as Hb by compute_now.
  intros Hk. apply (all_rows_ok _ _ _ Hb) in Hk. apply existsb_exists in Hk as ([tag k'] & Hin & E).
  apply str_eqb_eq in E as ->. exists tag. by apply elem_of_list_In.
Qed.
Print Assumptions C19_exceptions.
Lemma in_map (m : list (name * name)) x : existsb (λ y, str_eqb x.1 y.1 && str_eqb x.2 y.2) m = true → x ∈ m.
Proof.
  intros ([a b] & Hin & [E1%str_eqb_eq E2%str_eqb_eq]%andb_true_iff)%existsb_exists.
  destruct x. simpl in *. subst. by apply elem_of_list_In.
Qed.
Example C19_example :
  (cim15, cim15_map) ∈ tables ∧ (n_Breaker, n_CIM15_IEC61970_Wires_Breaker_Breaker) ∈ cim15_map ∧
  n_CIM15_IEC61970_Wires_Breaker_Breaker ∉ unconstructible ∧
  (n_Status, n_CIM15_IEC61968_Common_Status_Status) ∈ cim15_map ∧
  n_CIM15_IEC61968_Common_Status_Status ∈ unconstructible ∧ Wf g15.
Proof.
  split; [right; left|]. split; [apply in_map; compute_now|]. split; [apply (bool_decide_unpack _); compute_now|].
  split; [apply in_map; compute_now|]. split; [apply (bool_decide_unpack _); compute_now|]. apply g15_Consistent.
Qed.

(** *** C20: inverses *)
Theorem C20_inverse t pm c p k :
  (t, pm) ∈ tables → c ∈ t → (p, k) ∈ c_props c → (c_key c, p) ∉ dual_exceptions →
  ∀ q k', dual p k = Some (q, k') → ∃ c', c' ∈ t ∧ (q, k') ∈ c_props c'.
Proof. intros Ht Hc Hp. apply (dual_ok t pm c p k Ht Hc Hp). Qed.
Print Assumptions C20_inverse.
Theorem C20_exceptions t pm c p k :
  (t, pm) ∈ tables → c ∈ t → (p, k) ∈ c_props c → (c_key c, p) ∈ dual_exceptions →
  ∃ q k', dual p k = Some (q, k') ∧ ∀ c', c' ∈ t → (q, k') ∉ c_props c'.
Proof.
  intros Ht Hc Hp Hd. pose proof (dual_ok t pm c p k Ht Hc Hp) as Hn. unfold has_dual in Hn.
  destruct (dual p k) as [[q k']|] eqn:E.
  - exists q, k'. split; [done|]. intros c' Hc' Hp'. apply Hn; [|done]. intros ?? [= <- <-]. eauto.
  - exfalso. apply Hn; [|done]. done.
Qed.
Print Assumptions C20_exceptions.
Lemma find_in t k (P : cls → bool) :
  (match find_cls t k with Some c => P c | None => false end) = true → ∃ c, c ∈ t ∧ c_key c = k ∧ P c = true.
Proof. destruct (find_cls t k) as [c|] eqn:E; [|done]. intros Hp. exists c. by destruct (find_cls_in _ _ _ E). Qed.
Example C20_example :
  (cim14, cim14_map) ∈ tables ∧
  (∃ c, c ∈ cim14 ∧ c_key c = n_CIM14_IEC61970_Core_Terminal_Terminal ∧
     bool_decide ((n_ConnectivityNode, POneMany n_Terminals) ∈ c_props c) = true) ∧
  (∃ c, c ∈ cim15 ∧ c_key c = n_CIM15_IEC61970_Core_Equipment_Equipment ∧
     bool_decide ((n_OperationalLimitSet, PManyOneDbl n_Equipment) ∈ c_props c ∧
                  (c_key c, n_OperationalLimitSet) ∈ dual_exceptions) = true).
Proof. split; [left|]. split; apply find_in; compute_now. Qed.

(** *** C21: metadata *)
Theorem C21_metadata t pm c : (t, pm) ∈ tables → c ∈ t → c_key c ∉ meta_exceptions → MetaOk c.
Proof. exact (meta_ok t pm c). Qed.
Print Assumptions C21_metadata.
Theorem C21_exceptions k : k ∈ meta_exceptions → ∃ t pm c, (t, pm) ∈ tables ∧ c ∈ t ∧ c_key c = k ∧ ¬ MetaOk c.
Proof. exact (meta_exc k). Qed.
Print Assumptions C21_exceptions.
Example C21_example :
  (cim14, cim14_map) ∈ tables ∧
  ∃ c, c ∈ cim14 ∧ c_key c = n_CIM14_IEC61970_Core_Terminal_Terminal ∧
    bool_decide (c_key c ∉ meta_exceptions ∧ n_connected ∈ c_attrs c ∧ n_ConnectivityNode ∈ c_refs c) = true.
Proof. split; [left|]. apply find_in. compute_now. Qed.
