(** Checkers for the hypotheses of the round trip, used by the examples. *)
From Coq Require Import String ZArith.
From stdpp Require Import prelude gmap.
From Verif Require Import PyStr PyHeap Schema Assoc AssocSpec Reader ReaderSpec ReaderFacts TableSpec ReadDemo.
From Verif Require Import XmlSpec XmlCalls WriteSpec CimWriter WriteFacts RoundSpec.

Definition see (S : schema) (h : heap) (o : nat) (a : name) : option val :=
  match fst (getattr S (VRef o) a h) with inl (VList _) | inr _ => None | inl v => Some v end.
Lemma see_ok S h o a v : sees S h o a v ↔ see S h o a = Some v.
Proof.
  unfold see. destruct (getattr_cases S o a h) as [(w & E & [[l ->]|Hw])|(e & E & Hn)]; rewrite E; cbn [fst].
  - split; [|done]. intros H. assert (∀ l, v ≠ VList l) as Hl by (intros ? ->; by eapply sees_not_list).
    apply getattr_sees in H; [|done]. rewrite E in H. cbn [fst] in H. injection H as E2. by destruct (Hl l).
  - assert (∀ l, w ≠ VList l) as Hl by (intros ? ->; by eapply sees_not_list). split.
    + intros H. pose proof (sees_det _ _ _ _ _ _ H Hw) as ->. destruct w; try done. by destruct (Hl l).
    + intros H. destruct w; try done; by injection H as <-.
  - split; [|done]. intros H. by destruct (Hn v).
Qed.
Definition fits_b (pf : pystr → option pystr) (dflt v : val) : bool :=
  match dflt, v with
  | VBool _, VBool _ | VInt _, VInt _ => true
  | VFloat _, VFloat r => bool_decide (r ≠ []) && forallb data_char r && bool_decide (pf r = Some r)
  | VStr _, VStr s => forallb data_char s
  | _, _ => false
  end.
Lemma fits_b_ok pf dflt v : fits_b pf dflt v = true → fits pf dflt v.
Proof.
  destruct dflt, v; try done; cbn [fits_b]; try by constructor.
  rewrite !andb_true_iff, !bool_decide_eq_true. intros [[? ?] ?]. by constructor.
Qed.
Definition fits_enum_b (v : val) : bool :=
  match v with VStr s => forallb attr_char s && negb (existsb (N.eqb 46) s) | _ => false end.
Lemma fits_enum_b_ok v : fits_enum_b v = true → fits_enum v.
Proof.
  destruct v as [| | | |s| |]; try done. cbn [fits_enum_b]. rewrite andb_true_iff, negb_true_iff. intros [H1 H2]. exists s. split_and!; [done..|].
  intros Hin%elem_of_list_In. assert (existsb (N.eqb 46) s = true) as H3; [|congruence]. apply existsb_exists. by exists 46%N.
Qed.
Section portable.
Context (S : schema) (pm : list (name * name)) (pf : pystr → option pystr) (h : heap) (d : dict).
Definition attr_fits (o : nat) (c : cls) (a : name) : bool :=
  str_eqb a (u "UUID") ||
  match see S h o a with
  | None => true
  | Some v => match assoc a (c_enums c) with
              | Some _ => fits_enum_b v
              | None => match assoc a (c_defaults c) with Some dflt => fits_b pf dflt v | None => true end
              end
  end.
Definition ref_fits (o : nat) (c : cls) (p : name) : bool :=
  existsb (str_eqb p) (c_many c) ||
  match see S h o p with
  | Some (VRef x) =>
      match see S h x (u "UUID") with
      | Some (VStr i) => forallb attr_char i && match assoc i d with Some v => bool_decide (v = VRef x) | None => true end
      | _ => false
      end
  | _ => true
  end.
Definition entry_fits (kv : pystr * val) : bool :=
  match kv.2 with
  | VRef o =>
      bool_decide (see S h o (u "UUID") = Some (VStr kv.1)) && forallb attr_char kv.1 &&
      match cls_of h o with
      | Some ck =>
          match find_cls S ck with
          | Some c => str_eqb (c_key c) ck && bool_decide (assoc (c_name c) pm = Some ck) && negb (existsb (str_eqb ck) unconstructible)
          | None => false
          end &&
          forallb (λ c, forallb (attr_fits o c) (c_attrs c) && forallb (ref_fits o c) (c_refs c)) (mro S ck)
      | None => false
      end
  | _ => false
  end.
Definition portable_b : bool := bool_decide (NoDup (map fst d)) && forallb entry_fits d.
Lemma portable_b_ok : Sound S h → portable_b = true → Portable S pm pf h d.
Proof.
  intros Hs. unfold portable_b. rewrite andb_true_iff, bool_decide_eq_true, forallb_forall. intros [Hn Hd].
  assert (∀ id v, (id, v) ∈ d → ∃ o c, v = VRef o ∧ sees S h o (u "UUID") (VStr id) ∧ forallb attr_char id = true ∧
    cls_of h o = Some (c_key c) ∧ find_cls S (c_key c) = Some c ∧ assoc (c_name c) pm = Some (c_key c) ∧ c_key c ∉ unconstructible ∧
    ∀ c', c' ∈ mro S (c_key c) → (∀ a, a ∈ c_attrs c' → attr_fits o c' a = true) ∧ ∀ p, p ∈ c_refs c' → ref_fits o c' p = true) as H.
  { intros id v Hin%elem_of_list_In. specialize (Hd _ Hin). unfold entry_fits in Hd. cbn [fst snd] in Hd. destruct v as [| | | | |o|]; try done.
    rewrite !andb_true_iff, bool_decide_eq_true in Hd. destruct Hd as [[H1 H2] H3].
    destruct (cls_of h o) as [ck|] eqn:Ec; [|done]. rewrite andb_true_iff in H3. destruct H3 as [H3 H4].
    destruct (find_cls S ck) as [c|] eqn:Ef; [|done]. rewrite !andb_true_iff, str_eqb_eq, bool_decide_eq_true, negb_true_iff in H3.
    destruct H3 as [[H5 H6] H7]. subst ck. exists o, c. split_and!; try done; [by apply see_ok| |].
    - intros Hin2%ReaderFacts.existsb_str. congruence.
    - intros c' Hc'%elem_of_list_In. rewrite forallb_forall in H4. specialize (H4 _ Hc'). rewrite andb_true_iff, !forallb_forall in H4.
      destruct H4 as [H8 H9]. split; intros ? ?%elem_of_list_In; [by apply H8|by apply H9]. }
  split; try done.
  - intros id v Hin. destruct (H _ _ Hin) as (o & c & ? & ? & ? & _). eauto.
  - intros id o Hin. destruct (H _ _ Hin) as (o' & c & [= <-] & _ & _ & ? & ? & ? & ? & _). eauto.
  - intros id o ck c a v Hin Hc Hm Ha Hu Hv. destruct (H _ _ Hin) as (o' & c' & [= <-] & _ & _ & Hc' & _ & _ & _ & Hb).
    rewrite Hc in Hc'. injection Hc' as ->. destruct (Hb _ Hm) as [Hb1 _]. specialize (Hb1 _ Ha). unfold attr_fits in Hb1.
    rewrite (proj2 (str_eqb_neq _ _) Hu) in Hb1. cbn [orb] in Hb1. apply see_ok in Hv. rewrite Hv in Hb1.
    destruct (assoc a (c_enums c)); [by apply fits_enum_b_ok|]. intros dflt Hd2. rewrite Hd2 in Hb1. by apply fits_b_ok.
  - intros id o ck c p x Hin Hc Hm Hp Hnm Hv. destruct (H _ _ Hin) as (o' & c' & [= <-] & _ & _ & Hc' & _ & _ & _ & Hb).
    rewrite Hc in Hc'. injection Hc' as ->. destruct (Hb _ Hm) as [_ Hb2]. specialize (Hb2 _ Hp). unfold ref_fits in Hb2.
    destruct (existsb (str_eqb p) (c_many c)) eqn:Ex; [by apply ReaderFacts.existsb_str in Ex|]. cbn [orb] in Hb2.
    apply see_ok in Hv. rewrite Hv in Hb2. destruct (see S h x (u "UUID")) as [[| | | |i| |]|] eqn:Ei; try done.
    rewrite andb_true_iff in Hb2. destruct Hb2 as [Hch Hx]. exists i. split_and!; [by apply see_ok|done|].
    intros v Hv2. rewrite Hv2 in Hx. by apply bool_decide_eq_true in Hx.
Qed.
End portable.
