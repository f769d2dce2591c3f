(** Properties C65-C68: the arguments of constructors. *)
From Coq Require Import String.
From stdpp Require Import prelude gmap.
From Verif Require Import PyStr PyHeap Schema Assoc AssocSpec HeapFacts History HistorySpec HistoryFacts GraphCheck AdmCheck
  Names TabCIM14 TabCIM15 TabProfiles Tables TableSpec TableFacts BlankFacts Demo PropAssoc ArgSpec ArgFacts RepeatFacts.

Lemma has_cls t k : is_some_b (find_cls t k) = true → ∃ c, find_cls t k = Some c.
Proof. destruct (find_cls t k) as [c|]; [|done]. by exists c. Qed.
Lemma not_taken cs extra : forallb (λ c, forallb (λ e, negb (existsb (str_eqb e.1) (map fst (c_params c)))) extra) cs = true →
  untaken cs extra.
Proof.
  intros Hb c n v Hc He Hin. apply (all_rows_ok _ _ _ Hb) in Hc. apply (all_rows_ok _ _ _ Hc) in He.
  cbn [fst] in He. apply existsb_str in Hin. by rewrite Hin in He.
Qed.
Lemma element_in cs : existsb (λ c, str_eqb (c_name c) (u "Element")) cs = true → is_element cs.
Proof. intros (c & Hc & E%str_eqb_eq)%existsb_exists. exists c. by rewrite elem_of_list_In. Qed.
Lemma in_map_names (m : list (name * name)) x : existsb (λ y, str_eqb x.1 y.1 && str_eqb x.2 y.2) m = true → x ∈ m.
Proof.
  intros ([a b] & Hin & [E1%str_eqb_eq E2%str_eqb_eq]%andb_true_iff)%existsb_exists.
  destruct x. simpl in *. subst. by apply elem_of_list_In.
Qed.
Lemma not_in_names (k : name) l : existsb (str_eqb k) l = false → k ∉ l.
Proof. intros E Hin. apply existsb_str in Hin. congruence. Qed.

(** *** C65: keyword arguments in any order *)
Theorem C65_keyword_order T f k pos kw kw' h :
  kw ≡ₚ kw' → NoDup (map fst kw) → construct T f k pos kw h = construct T f k pos kw' h.
Proof. exact (construct_perm T f k pos kw kw' h). Qed.
Print Assumptions C65_keyword_order.
(** [Terminal(ConnectivityNode=n, name='a', sequenceNumber=3)]: parameters of
    two classes. *)
Notation kw65 := [(n_ConnectivityNode, VRef 3); (n_name, VStr (u "a")); (n_sequenceNumber, VInt 3)].
Example C65_example :
  kw65 ≡ₚ [(n_sequenceNumber, VInt 3); (n_ConnectivityNode, VRef 3); (n_name, VStr (u "a"))] ∧ NoDup (map fst kw65) ∧
  (∃ h', construct cim14 20 n_CIM14_IEC61970_Core_Terminal_Terminal [] kw65 g14 = (inl (VRef 9), h') ∧
     view h' 3 (Priv n_Terminals) = Some (OL [VRef 9])).
Proof.
  split; [|split].
  - apply (Permutation_app_comm [_; _] [_]).
  - apply (bool_decide_unpack _). compute_now.
  - exists (snd (construct cim14 20 n_CIM14_IEC61970_Core_Terminal_Terminal [] kw65 g14)).
    split; [apply run_ok; compute_now|]. compute_now.
Qed.

(** *** C66: positional arguments *)
Theorem C66_positional t pm k c f pos kw h :
  (t, pm) ∈ tables → find_cls t k = Some c → k ∉ repeats →
  length pos ≤ length (params_of (mro t k)) →
  (∀ n, n ∈ map fst kw → n ∉ take (length pos) (params_of (mro t k))) →
  construct t f k pos kw h = construct t f k [] (zip (params_of (mro t k)) pos ++ kw) h.
Proof. intros Ht Hc Hr. exact (construct_positional t f k pos kw h (names_one t pm k c Ht Hc Hr)). Qed.
Print Assumptions C66_positional.
Theorem C66_too_many T k f pos kw h :
  length (params_of (mro T k)) < length pos → ∃ e h', construct T f k pos kw h = (inr e, h').
Proof. exact (construct_overflow T f k pos kw h). Qed.
Print Assumptions C66_too_many.
Theorem C66_twice t pm k c f pos kw h n :
  (t, pm) ∈ tables → find_cls t k = Some c → k ∉ repeats →
  n ∈ map fst kw → n ∈ take (length pos) (params_of (mro t k)) →
  ∃ e h', construct t f k pos kw h = (inr e, h').
Proof. intros Ht Hc Hr. exact (construct_twice t f k pos kw h n (names_one t pm k c Ht Hc Hr)). Qed.
Print Assumptions C66_twice.
(** The excluded classes do have a parameter twice. *)
Theorem C66_exceptions k : k ∈ repeats → ¬ NoDup (params_of (mro cim15 k)).
Proof. exact (repeats_do k). Qed.
Print Assumptions C66_exceptions.
(** [Terminal(True, 2, name='a')]; the parameters of IdentifiedObject and
    Element follow the fourteen of Terminal. *)
Example C66_example :
  (cim14, cim14_map) ∈ tables ∧
  (∃ c, find_cls cim14 n_CIM14_IEC61970_Core_Terminal_Terminal = Some c) ∧
  n_CIM14_IEC61970_Core_Terminal_Terminal ∉ repeats ∧
  take 3 (params_of (mro cim14 n_CIM14_IEC61970_Core_Terminal_Terminal)) = [n_connected; n_sequenceNumber; n_TopologicalNode] ∧
  n_name ∉ take 2 (params_of (mro cim14 n_CIM14_IEC61970_Core_Terminal_Terminal)) ∧
  n_name ∈ params_of (mro cim14 n_CIM14_IEC61970_Core_Terminal_Terminal) ∧
  length (params_of (mro cim14 n_CIM14_IEC61970_Core_Terminal_Terminal)) = 22 ∧
  fst (construct cim14 20 n_CIM14_IEC61970_Core_Terminal_Terminal [VBool true; VInt 2] [(n_name, VStr (u "a"))] g14) = inl (VRef 9).
Proof.
  split; [left|]. split; [apply has_cls; compute_now|]. split; [apply not_in_names; compute_now|].
  split; [compute_now|]. split; [apply not_in_names; compute_now|]. split; [apply existsb_str; compute_now|].
  split; compute_now.
Qed.

(** *** C67: a keyword that no class takes *)
Theorem C67_unknown_raises T k f pos kw extra h :
  extra ≠ [] → untaken (mro T k) extra → ∃ e h', construct T f k pos (kw ++ extra) h = (inr e, h').
Proof. exact (construct_untaken T f k pos kw extra h). Qed.
Print Assumptions C67_unknown_raises.
Theorem C67_links_stay t pm k c f pos kw extra h o h' :
  (t, pm) ∈ tables → find_cls t k = Some c → is_element (mro t k) →
  extra ≠ [] → untaken (mro t k) extra →
  construct t (S f) k pos kw h = (inl (VRef o), h') →
  ∃ h'' v, construct t (S f) k pos (kw ++ extra) h = (inr TypeError, h'') ∧ h' = hset o (Pub (u "UUID")) v h''.
Proof.
  intros Ht Hc He Hx Hu. destruct (element_one t pm k c Ht Hc (has_element_ok _ He)) as [H1 H2].
  exact (construct_unknown_exact t f k pos kw extra h o h' Hx Hu H1 H2).
Qed.
Print Assumptions C67_links_stay.
Notation term67 := (construct cim14 20 n_CIM14_IEC61970_Core_Terminal_Terminal [] [(n_ConnectivityNode, VRef 3)] g14).
Notation bad67 := (construct cim14 20 n_CIM14_IEC61970_Core_Terminal_Terminal []
  ([(n_ConnectivityNode, VRef 3)] ++ [(u "colour", VStr (u "red"))]) g14).
Example C67_example :
  (cim14, cim14_map) ∈ tables ∧
  (∃ c, find_cls cim14 n_CIM14_IEC61970_Core_Terminal_Terminal = Some c) ∧
  is_element (mro cim14 n_CIM14_IEC61970_Core_Terminal_Terminal) ∧
  untaken (mro cim14 n_CIM14_IEC61970_Core_Terminal_Terminal) [(u "colour", VStr (u "red"))] ∧
  ∃ h', term67 = (inl (VRef 9), h').
Proof.
  split; [left|]. split; [apply has_cls; compute_now|]. split; [apply element_in; compute_now|].
  split; [apply not_taken; compute_now|]. exists (snd term67). apply run_ok. compute_now.
Qed.
(** The terminal whose constructor raised is a terminal of the node. *)
Theorem C67_clean_failure_refuted : ∃ h',
  Consistent cim14 g14 ∧ view g14 3 (Priv n_Terminals) = Some (OL []) ∧
  bad67 = (inr TypeError, h') ∧ view h' 3 (Priv n_Terminals) = Some (OL [VRef 9]).
Proof.
  exists (snd bad67). split; [exact g14_Consistent|]. split; [compute_now|]. split; [apply run_err; compute_now|]. compute_now.
Qed.
Print Assumptions C67_clean_failure_refuted.

(** *** C68: the argument for a repeated parameter *)
Theorem C68_argument_lost k n f h l ys :
  (k, n) ∈ repeated → Wf h →
  h_lists h !! l = Some (map VRef ys) → loose h l → NoDup ys →
  (∀ p y, lookup_prop cim15 k n = Some p → y ∈ ys → ready h p y) →
  ∃ p o h', lookup_prop cim15 k n = Some p ∧ is_Some (inverse_of p) ∧
    construct cim15 (S f) k [] [(n, VList l)] h = (inl (VRef o), h') ∧ cls_of h o = None ∧ cls_of h' o = Some k ∧
    (∀ o', o' ≠ o → cls_of h' o' = cls_of h o') ∧
    Referred (view h) (view h') o p ys ∧ view h' o (Priv n) = Some (OL []).
Proof. exact (lost_gen repeated cim15 f h k n l ys lost_true). Qed.
Print Assumptions C68_argument_lost.
(** [Breaker(ProtectionEquipments=[e])] *)
Definition prog68 : list op := [ONew n_CIM15_IEC61970_Protection_ProtectionEquipment_ProtectionEquipment []].
Definition g68 : heap := lset 3000 [VRef 0] (snd (run_ops cim15 20 prog68 heap_empty)).
Notation new68 := (construct cim15 20 n_CIM15_IEC61970_Wires_Breaker_Breaker [] [(n_ProtectionEquipments, VList 3000)] g68).
Lemma g68_inv : inv cim15 g68.
Proof. apply inv_b_ok. compute_now. Qed.
Lemma not_loose_b h l : forallb (λ x, forallb (λ y, negb (bool_decide (y.2 = VList l))) (map_to_list (o_dict x.2))) (map_to_list (h_objs h)) = true →
  loose h l.
Proof.
  intros Hb o k Hs. unfold slot in Hs. destruct (h_objs h !! o) as [ob|] eqn:Eo; [|done]. cbn in Hs.
  apply elem_of_map_to_list in Eo. apply (all_rows_ok _ _ _ Hb) in Eo. cbn [snd] in Eo.
  apply elem_of_map_to_list in Hs. apply (all_rows_ok _ _ _ Eo) in Hs. cbn [snd] in Hs.
  by rewrite bool_decide_true in Hs.
Qed.
Lemma ready_one t h k p y c xs : lookup_prop t k p = Some (PManyMany c) → cls_of h y ≠ None → view h y (Priv c) = Some (OL xs) → xs = [] →
  ∀ q z, lookup_prop t k p = Some q → z ∈ [y] → ready h q z.
Proof.
  intros Hk Hy Hx -> q z Hq Hz%elem_of_list_singleton. subst z. rewrite Hk in Hq. injection Hq as <-. split.
  - destruct (cls_of h y) as [cy|]; [by exists cy|done].
  - intros p' [= <-]. exists []. split; [done|]. by intros x Hin%elem_of_nil.
Qed.
Example C68_example :
  (n_CIM15_IEC61970_Wires_Breaker_Breaker, n_ProtectionEquipments) ∈ repeated ∧ Wf g68 ∧
  h_lists g68 !! 3000 = Some (map VRef [0]) ∧ loose g68 3000 ∧ NoDup [0] ∧
  (∀ p y, lookup_prop cim15 n_CIM15_IEC61970_Wires_Breaker_Breaker n_ProtectionEquipments = Some p → y ∈ [0] → ready g68 p y).
Proof.
  split; [apply in_map_names; compute_now|]. split; [apply g68_inv|]. split; [compute_now|].
  split; [apply not_loose_b; compute_now|]. split; [apply NoDup_singleton|].
  apply (ready_one cim15 g68 _ _ 0 n_ProtectedSwitches []); [compute_now| |compute_now|reflexivity].
  vm_compute. discriminate.
Qed.
(** The equipment refers to a breaker that does not list it. *)
Theorem C68_argument_kept_refuted : ∃ h',
  inv cim15 g68 ∧ new68 = (inl (VRef 1), h') ∧
  view h' 1 (Priv n_ProtectionEquipments) = Some (OL []) ∧ view h' 0 (Priv n_ProtectedSwitches) = Some (OL [VRef 1]).
Proof.
  exists (snd new68). split; [exact g68_inv|]. split; [apply run_ok; compute_now|]. split; compute_now.
Qed.
Print Assumptions C68_argument_kept_refuted.
