(** A checker for [Consistent] on concrete heaps, used only to show that the
    hypotheses of the theorems are met by the graphs of the examples. *)
From stdpp Require Import prelude gmap.
From Verif Require Import PyStr PyHeap Schema Assoc AssocSpec HeapFacts HistorySpec HistoryFacts.

Definition slots (h : heap) : list (nat * key * val) :=
  flat_map (λ '(o, ob), map (λ '(k, v), (o, k, v)) (map_to_list (o_dict ob))) (map_to_list (h_objs h)).

Lemma slots_spec h o k v : slot h o k = Some v → (o, k, v) ∈ slots h.
Proof.
  unfold slot, slots. intros (ob & Ho & Hk)%bind_Some. apply elem_of_list_In, in_flat_map.
  exists (o, ob). split; [by apply elem_of_list_In, elem_of_map_to_list|].
  apply in_map_iff. exists (k, v). split; [done|]. by apply elem_of_list_In, elem_of_map_to_list.
Qed.

Definition wf_b (h : heap) : bool :=
  let ss := slots h in
  forallb (λ '(o, k, v), match v with
    | VList l => (match h_lists h !! l with Some _ => true | None => false end) &&
        forallb (λ '(o', k', v'), if decide (v' = VList l) then bool_decide (o = o' ∧ k = k') else true) ss
    | _ => true end) ss.

Lemma wf_b_ok h : wf_b h = true → Wf h.
Proof.
  intros Hb. unfold wf_b in Hb. rewrite forallb_forall in Hb. split.
  - intros o k l Hs%slots_spec%elem_of_list_In%Hb. apply andb_prop in Hs as [Hs _].
    destruct (h_lists h !! l); [eauto|done].
  - intros o k o' k' l Hs%slots_spec%elem_of_list_In%Hb Hs'. apply andb_prop in Hs as [_ Hs].
    rewrite forallb_forall in Hs. specialize (Hs _ (proj1 (elem_of_list_In _ _) (slots_spec _ _ _ _ Hs'))). simpl in Hs.
    rewrite decide_True in Hs by done. by apply bool_decide_eq_true in Hs.
Qed.

Section check.
Context (S : schema) (h : heap).
Notation K := (pkind S h).
Notation V := (view h).

Definition resolve (x : nat) (p' : name) : name :=
  match K x p' with Some (PAlias p _) => p | _ => p' end.
Definition om_b (x : nat) (p : name) (t : nat) (q : name) : bool :=
  match K x p, K t q with
  | Some (POneMany q'), Some (PManyOne p') => bool_decide (q' = q) && bool_decide (resolve x p' = p)
  | _, _ => false
  end.
Lemma om_b_ok x p t q : om_b x p t q = true → ends_one_many K x p t q.
Proof.
  unfold om_b. destruct (K x p) as [[]|] eqn:E1; try done. destruct (K t q) as [[p'| p'|p'|p'| |p'|p' c]|] eqn:E2; try done.
  intros [->%bool_decide_eq_true Hr%bool_decide_eq_true]%andb_prop. split; [done|]. eexists; split; [done|].
  unfold resolves, resolve in *. destruct (K x p') as [[]|] eqn:E3; simplify_eq; try (left; split; [done|congruence]).
  right. eauto.
Qed.
Definition mm_b (x : nat) (p : name) (y : nat) (q : name) : bool :=
  bool_decide (K x p = Some (PManyMany q) ∧ K y q = Some (PManyMany p)).

Definition slot_b (x : nat) (p : name) : bool :=
  match K x p with
  | Some (POneMany q) =>
      match V x (Priv p) with
      | None | Some (OV VNone) => true
      | Some (OV (VRef t)) => om_b x p t q &&
          match V t (Priv q) with Some (OL ys) => bool_decide (VRef x ∈ ys) | _ => false end
      | _ => false
      end
  | Some (PManyOne p') =>
      match V x (Priv p) with
      | None => true
      | Some (OL ys) => bool_decide (NoDup ys) &&
          forallb (λ y, match y with
            | VRef z => om_b z (resolve z p') x p && bool_decide (V z (Priv (resolve z p')) = Some (OV (VRef x)))
            | _ => false end) ys
      | _ => false
      end
  | Some (POneOne q) =>
      match V x (Priv p) with
      | None | Some (OV VNone) => true
      | Some (OV (VRef y)) =>
          bool_decide (K y q = Some (POneOne p)) && bool_decide (V y (Priv q) = Some (OV (VRef x)))
      | _ => false
      end
  | Some (PManyMany q) =>
      match V x (Priv p) with
      | None => true
      | Some (OL ys) => bool_decide (NoDup ys) &&
          forallb (λ y, match y with
            | VRef z => mm_b x p z q &&
                match V z (Priv q) with Some (OL xs) => bool_decide (VRef x ∈ xs) | _ => false end
            | _ => false end) ys
      | _ => false
      end
  | _ => true
  end.

Definition inv_b : bool :=
  wf_b h && forallb (λ '(o, k, _), match k with Priv p => slot_b o p | Pub _ => true end) (slots h).

Lemma inv_b_ok : inv_b = true → inv S h.
Proof.
  intros [Hw Hf]%andb_prop. pose proof (wf_b_ok _ Hw) as Hwf. rewrite forallb_forall in Hf.
  assert (∀ o p w, V o (Priv p) = Some w → slot_b o p = true) as Hs.
  { intros o p w Hv. assert (∃ v, slot h o (Priv p) = Some v) as [v Hv'].
    { unfold view in Hv. destruct (slot h o (Priv p)); [eauto|done]. }
    by apply slots_spec, elem_of_list_In, Hf in Hv'. }
  split; [split; [done|split]|].
  - intros x p q w Hk Hv. pose proof (Hs _ _ _ Hv) as Hb. unfold slot_b in Hb. rewrite Hk, Hv in Hb.
    destruct w as [[]|]; try done; [by left|right]. apply andb_prop in Hb as [Hb1%om_b_ok Hb2].
    destruct (V o (Priv q)) as [[]|] eqn:E; try done. apply bool_decide_eq_true in Hb2. eauto 10.
  - intros t q p' w Hk Hv. pose proof (Hs _ _ _ Hv) as Hb. unfold slot_b in Hb. rewrite Hk, Hv in Hb.
    destruct w as [|ys]; [done|]. apply andb_prop in Hb as [Hb1%bool_decide_eq_true Hb2].
    exists ys. split_and!; [done..|]. intros y Hy%elem_of_list_In. rewrite forallb_forall in Hb2. apply Hb2 in Hy.
    destruct y; try done. apply andb_prop in Hy as [Hy1%om_b_ok Hy2%bool_decide_eq_true]. eauto 10.
  - intros x p q w Hk Hv. pose proof (Hs _ _ _ Hv) as Hb. unfold slot_b in Hb. rewrite Hk, Hv in Hb.
    destruct w as [[]|]; try done; [by left|right].
    apply andb_prop in Hb as [Hb1%bool_decide_eq_true Hb2%bool_decide_eq_true].
    eexists. split_and!; [done| |done]. by split.
  - intros x p q w Hk Hv. pose proof (Hs _ _ _ Hv) as Hb. unfold slot_b in Hb. rewrite Hk, Hv in Hb.
    destruct w as [|ys]; [done|]. apply andb_prop in Hb as [_ Hb2].
    exists ys. split_and!; [done..|]. intros y Hy%elem_of_list_In. rewrite forallb_forall in Hb2. apply Hb2 in Hy.
    destruct y; try done. apply andb_prop in Hy as [Hy1%bool_decide_eq_true Hy2].
    destruct (V o (Priv q)) as [[]|] eqn:E; try done. apply bool_decide_eq_true in Hy2.
    eexists _, _. split_and!; [done|done|exact E|done].
  - intros x p q ys Hk Hv. pose proof (Hs _ _ _ Hv) as Hb. unfold slot_b in Hb. rewrite Hk, Hv in Hb.
    apply andb_prop in Hb as [Hb1%bool_decide_eq_true _]. done.
Qed.
End check.
