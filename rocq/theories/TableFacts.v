(** Proofs of the table properties: computation over all rows, lifted. *)
From Coq Require Import String.
From stdpp Require Import prelude gmap.
From Verif Require Import PyStr PyHeap Schema Assoc AssocSpec HeapFacts CtorFacts HistorySpec Names TabCIM14 TabCIM15
  TabProfiles Tables TableSpec.

Definition all_tables (f : schema → list (name * name) → bool) : bool := forallb (λ '(t, m), f t m) tables.
Lemma all_tables_ok f t m : all_tables f = true → (t, m) ∈ tables → f t m = true.
Proof.
  unfold all_tables. rewrite forallb_forall. intros Hf Hin%elem_of_list_In. apply (Hf (t, m) Hin).
Qed.
Lemma all_rows_ok {A} (f : A → bool) (xs : list A) x : forallb f xs = true → x ∈ xs → f x = true.
Proof. rewrite forallb_forall. intros Hf Hin%elem_of_list_In. by apply Hf. Qed.

(** *** Metadata *)
Definition params_val (c : cls) : list (name * val) :=
  filter (λ pd : name * val, pd.2 ≠ VNone) (c_params c).
Definition params_ref (c : cls) : list (name * val) :=
  filter (λ pd : name * val, pd.2 = VNone) (c_params c).
Definition step_colls (ss : list step) : list name :=
  flat_map (λ s, match s with SMany p | SPlainMany p => [p] | _ => [] end) ss.
Definition meta_b (c : cls) : bool :=
  bool_decide (Forall (λ a, a ∈ map fst (params_val c)) (c_attrs c)) &&
  bool_decide (Forall (λ a, a ∈ c_attrs c) (map fst (params_val c))) &&
  bool_decide (Forall (λ a, a ∈ params_val c) (c_defaults c)) &&
  bool_decide (Forall (λ a, a ∈ c_defaults c) (params_val c)) &&
  bool_decide (Forall (λ a, a ∈ map fst (params_ref c)) (c_refs c)) &&
  bool_decide (Forall (λ a, a ∈ c_refs c) (map fst (params_ref c))) &&
  bool_decide (Forall (λ a, a ∈ step_colls (c_steps c)) (c_many c)) &&
  bool_decide (Forall (λ a, a ∈ c_many c) (step_colls (c_steps c))) &&
  bool_decide (Forall (λ a, a ∈ c_refs c) (c_many c)) &&
  bool_decide (Forall (λ a, a ∈ c_attrs c) (map fst (c_enums c))) &&
  bool_decide (Forall (λ a, a ∈ c_refs c) (map fst (c_props c))) &&
  bool_decide (NoDup (map fst (c_params c))).

Lemma elem_of_step_colls r ss : r ∈ step_colls ss ↔ SMany r ∈ ss ∨ SPlainMany r ∈ ss.
Proof.
  unfold step_colls. rewrite elem_of_list_In, in_flat_map. setoid_rewrite elem_of_list_In. split.
  - intros (s & Hs & Hr). destruct s; simpl in Hr; try done; destruct Hr as [->|[]]; auto.
  - intros [H|H]; eexists; (split; [exact H|]); simpl; auto.
Qed.
Lemma meta_b_ok c : meta_b c = true → MetaOk c.
Proof.
  unfold meta_b. rewrite !andb_true_iff, !bool_decide_eq_true, !Forall_forall.
  intros [[[[[[[[[[[H1 H2] H3] H4] H5] H6] H7] H8] H9] H10] H11] H12].
  assert (∀ a d, (a, d) ∈ params_val c ↔ (a, d) ∈ c_params c ∧ d ≠ VNone) as Hv.
  { intros a d. unfold params_val. rewrite elem_of_list_filter. simpl. tauto. }
  assert (∀ a d, (a, d) ∈ params_ref c ↔ (a, d) ∈ c_params c ∧ d = VNone) as Hr.
  { intros a d. unfold params_ref. rewrite elem_of_list_filter. simpl. tauto. }
  split.
  - intros a. split.
    + intros ([a' d] & -> & ?)%H1%elem_of_list_fmap. exists d. by apply Hv.
    + intros (d & Hd). apply H2, elem_of_list_fmap. exists (a, d). split; [done|]. by apply Hv.
  - intros a d. rewrite <- Hv. split; [apply H3|apply H4].
  - intros r. split.
    + intros ([r' d] & -> & [? ->]%Hr)%H5%elem_of_list_fmap. done.
    + intros Hin. apply H6, elem_of_list_fmap. exists (r, VNone). split; [done|]. by apply Hr.
  - intros r. rewrite <- elem_of_step_colls. split; [apply H7|apply H8].
  - apply H9.
  - intros e t Hin. apply H10, elem_of_list_fmap. by exists (e, t).
  - intros p k Hin. apply H11, elem_of_list_fmap. by exists (p, k).
  - done.
Qed.

Definition meta_all (t : schema) (_ : list (name * name)) : bool :=
  (forallb (λ c, bool_decide (c_key c ∈ meta_exceptions) || meta_b c) t).
Lemma meta_all_true : all_tables meta_all = true.
Proof. vm_compute. reflexivity. Qed.

Lemma meta_ok t m c : (t, m) ∈ tables → c ∈ t → c_key c ∉ meta_exceptions → MetaOk c.
Proof.
  intros Ht Hc Hn. pose proof (all_tables_ok _ _ _ meta_all_true Ht) as Hb.
  apply (all_rows_ok _ _ _ Hb) in Hc. apply orb_true_iff in Hc as [Hc|Hc]; [|by apply meta_b_ok].
  by apply bool_decide_eq_true in Hc.
Qed.
Definition meta_exc_b : bool :=
  forallb (λ k, existsb (λ '(t, _), existsb (λ c, bool_decide (c_key c = k) && negb (meta_b c)) t) tables) meta_exceptions.

Lemma meta_b_complete c : MetaOk c → meta_b c = true.
Proof.
  intros HM. unfold meta_b. rewrite !andb_true_iff, !bool_decide_eq_true, !Forall_forall.
  assert (∀ a d, (a, d) ∈ params_val c ↔ (a, d) ∈ c_params c ∧ d ≠ VNone) as Hv.
  { intros a d. unfold params_val. rewrite elem_of_list_filter. simpl. tauto. }
  assert (∀ a d, (a, d) ∈ params_ref c ↔ (a, d) ∈ c_params c ∧ d = VNone) as Hr.
  { intros a d. unfold params_ref. rewrite elem_of_list_filter. simpl. tauto. }
  split_and!.
  - intros a (d & ?)%(mo_attrs _ HM). apply elem_of_list_fmap. exists (a, d). split; [done|]. by apply Hv.
  - intros a ([a' d] & -> & ?%Hv)%elem_of_list_fmap. apply (mo_attrs _ HM). eauto.
  - intros [a d] ?%(mo_defaults _ HM). by apply Hv.
  - intros [a d] ?%Hv. by apply (mo_defaults _ HM).
  - intros a ?%(mo_refs _ HM). apply elem_of_list_fmap. exists (a, VNone). split; [done|]. by apply Hr.
  - intros a ([a' d] & -> & [? ->]%Hr)%elem_of_list_fmap. by apply (mo_refs _ HM).
  - intros a ?%(mo_many _ HM). by apply elem_of_step_colls.
  - intros a ?%elem_of_step_colls. by apply (mo_many _ HM).
  - apply HM.
  - intros a ([a' d] & -> & ?)%elem_of_list_fmap. by eapply (mo_enums _ HM).
  - intros a ([a' d] & -> & ?)%elem_of_list_fmap. by eapply (mo_props _ HM).
  - apply HM.
Qed.
Lemma meta_exc_true : meta_exc_b = true.
Proof. vm_compute. reflexivity. Qed.
Lemma meta_exc k : k ∈ meta_exceptions → ∃ t m c, (t, m) ∈ tables ∧ c ∈ t ∧ c_key c = k ∧ ¬ MetaOk c.
Proof.
  intros Hk. pose proof (all_rows_ok _ _ _ meta_exc_true Hk) as Hb.
  apply existsb_exists in Hb as ([t m] & Ht & Hb). apply existsb_exists in Hb as (c & Hc & Hb).
  apply andb_true_iff in Hb as [Hb1%bool_decide_eq_true Hb2%negb_true_iff].
  exists t, m, c. split_and!; [by apply elem_of_list_In..|done|]. intros HM%meta_b_complete. congruence.
Qed.

(** *** Inverses *)
Definition has_dual_b (S : schema) (p : name) (k : prop) : bool :=
  match dual p k with
  | None => true
  | Some qk => existsb (λ c, bool_decide (qk ∈ c_props c)) S
  end.
Lemma has_dual_b_ok S p k : has_dual_b S p k = true ↔ has_dual S p k.
Proof.
  unfold has_dual_b, has_dual. destruct (dual p k) as [[q k']|] eqn:E; [|by split].
  rewrite existsb_exists. split.
  - intros (c & Hc & Hb%bool_decide_eq_true) ?? [= <- <-]. exists c. split; [by apply elem_of_list_In|done].
  - intros Hd. destruct (Hd _ _ eq_refl) as (c & Hc & ?). exists c. rewrite <- elem_of_list_In. split; [done|].
    by apply bool_decide_eq_true.
Qed.
Definition dual_all (t : schema) (_ : list (name * name)) : bool :=
  (forallb (λ c, forallb (λ '(p, k),
    Bool.eqb (negb (bool_decide ((c_key c, p) ∈ dual_exceptions))) (has_dual_b t p k)) (c_props c)) t).
Lemma dual_all_true : all_tables dual_all = true.
Proof. vm_compute. reflexivity. Qed.
Lemma dual_ok t m c p k : (t, m) ∈ tables → c ∈ t → (p, k) ∈ c_props c →
  ((c_key c, p) ∉ dual_exceptions ↔ has_dual t p k).
Proof.
  intros Ht Hc Hp. pose proof (all_tables_ok _ _ _ dual_all_true Ht) as Hb.
  apply (all_rows_ok _ _ _ Hb) in Hc. apply (all_rows_ok _ _ _ Hc) in Hp.
  apply Bool.eqb_prop in Hp. rewrite <- has_dual_b_ok, <- Hp.
  destruct (bool_decide_reflect ((c_key c, p) ∈ dual_exceptions)); simpl; split; done.
Qed.

(** No property is its own inverse. *)
Lemma lookup_in_props cs p x : lookup_in cs p = Some x → ∃ c, c ∈ cs ∧ (p, x) ∈ c_props c.
Proof.
  induction cs as [|c cs IH]; [done|]. simpl. destruct (assoc p (c_props c)) eqn:E.
  - intros [= <-]. exists c. split; [left|]. revert E. induction (c_props c) as [|[k b] r IHr]; [done|]. simpl.
    destruct (str_eqb p k) eqn:Ek.
    + intros [= <-]. apply str_eqb_eq in Ek as ->. left.
    + intros ?. right. by apply IHr.
  - intros (c' & ? & ?)%IH. exists c'. split; [by right|done].
Qed.
Lemma mro_sub S k c : c ∈ mro S k → c ∈ S.
Proof.
  unfold mro. revert k. assert (∀ k c, find_cls S k = Some c → c ∈ S) as Hf.
  { induction S as [|d r IH]; [done|]. intros k c'. simpl. destruct (str_eqb k (c_key d)); [intros [= <-]; left|].
    intros ?%IH. by right. }
  generalize (length S) as f. induction f as [|f IH]; intros k; [by intros ?%elem_of_nil|]. simpl.
  destruct (find_cls S k) as [d|] eqn:E; [|by intros ?%elem_of_nil].
  intros [->|Hin]%elem_of_cons; [by eapply Hf|]. destruct (c_base d); [by eapply IH|by apply elem_of_nil in Hin].
Qed.
Definition distinct_all (t : schema) (_ : list (name * name)) : bool :=
  (forallb (λ c, forallb (λ '(p, k),
    match k with POneOne q | PManyMany q => negb (str_eqb p q) | _ => true end) (c_props c)) t).
Lemma distinct_all_true : all_tables distinct_all = true.
Proof. vm_compute. reflexivity. Qed.
Lemma tables_distinct t m : (t, m) ∈ tables → distinct_ends t.
Proof.
  intros Ht c p. pose proof (all_tables_ok _ _ _ distinct_all_true Ht) as Hb.
  assert (∀ k, lookup_prop t c p = Some k → match k with POneOne q | PManyMany q => negb (str_eqb p q) | _ => true end = true) as Hk.
  { intros k (d & Hd%mro_sub & Hp)%lookup_in_props. apply (all_rows_ok _ _ _ Hb) in Hd.
    apply (all_rows_ok _ _ _ Hd) in Hp. done. }
  split; intros E; specialize (Hk _ E); simpl in Hk; by rewrite str_eqb_refl in Hk.
Qed.
